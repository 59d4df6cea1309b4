(** * SifNameSpec: the SESAM naming rule *)
From Verif Require Import Base.
Open Scope string_scope.
Open Scope Z_scope.
Open Scope list_scope.

Definition txt := list ascii.
Definition any_of (s : string) (c : ascii) : Prop := In c (s2l s).
Definition digit_char : ascii -> Prop := any_of "0123456789".
Definition first_digit : ascii -> Prop := any_of "123456789".
Definition word_char : ascii -> Prop :=
  any_of "ABCDEFGHIJKLMNOPQRSTUVWXYZabcdefghijklmnopqrstuvwxyz0123456789_-".
Definition type_letter : ascii -> Prop := any_of "RTGLrtgl".
(** a number without leading zero *)
Definition number (n : txt) : Prop := exists d ds, n = d :: ds /\ first_digit d /\ Forall digit_char ds.
(** nothing, or H and a number *)
Definition hierarchy_part (h : txt) : Prop := h = [] \/ exists c n, h = c :: n /\ any_of "Hh" c /\ number n.
(** a word of three letters in any mixture of cases *)
Definition spelled (u l : string) (e : txt) : Prop :=
  Forall2 (fun c x => c = fst x \/ c = snd x) e (combine (s2l u) (s2l l)).
Definition sif_ext := spelled "SIF" "sif".
Definition siu_ext := spelled "SIU" "siu".
Definition sin_ext := spelled "SIN" "sin".
Definition fem_ext := spelled "FEM" "fem".
Definition extension (e : txt) : Prop := sif_ext e \/ siu_ext e \/ sin_ext e \/ fem_ext e.

(** prefix, letter, number, extension *)
Definition parts := (txt * txt * txt * txt)%type.
(** The naming rule. *)
Definition sesam_name (s : txt) (x : parts) : Prop :=
  let '(p, l, n, e) := x in
  exists c h, l = [c] /\ type_letter c /\ Forall word_char p /\ number n /\ hierarchy_part h /\ extension e /\
  s = p ++ l ++ n ++ h ++ ["."%char] ++ e.
(** What is accepted in its place: any character but a line end for the dot, and
    anything after the extension. *)
Definition reading (s : txt) (x : parts) : Prop :=
  let '(p, l, n, e) := x in
  exists c h d r, l = [c] /\ type_letter c /\ Forall word_char p /\ number n /\ hierarchy_part h /\ extension e /\
  d <> nl /\ s = p ++ l ++ n ++ h ++ [d] ++ e ++ r.
Definition prefix_of (x : parts) : txt := fst (fst (fst x)).
(** The reading whose prefix is shortest. *)
Definition first_reading (s : txt) (x : parts) : Prop :=
  reading s x /\ forall y, reading s y -> (length (prefix_of x) <= length (prefix_of y))%nat.
(** no extension within a text *)
Definition no_extension (p : txt) : Prop := forall a e b, p = a ++ e ++ b -> ~ extension e.
