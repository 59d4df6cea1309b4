(** * WriteSpec: what a reader must find in a file of written records *)
From Verif Require Import Base Flt SeqFile SeqSpec.
Open Scope string_scope.
Open Scope Z_scope.
Open Scope list_scope.
Open Scope monad_scope.

(** A name of at most eight printable characters. *)
Definition good_name (n : string) : Prop :=
  n <> "" /\ Forall graphic (s2l n) /\ (length (s2l n) <= 8)%nat.
(** A finite number of double precision. *)
Definition is_double (v : flt) : Prop :=
  match v with
  | FNan | FInf _ => False
  | FZero _ => True
  | FFin _ m e => Z.odd (Zpos m) = true /\ Zpos m < 2 ^ 53 /\ -1074 <= e /\
                  (0 <= e -> Zpos m * 2 ^ e < 2 ^ 1024)
  end.
Definition good_record (r : string * list flt) : Prop := good_name (fst r) /\ Forall is_double (snd r).

(** [w] is [v] to eight digits: the same sign, no farther than 10^-8 of [v] (in any
    unit that divides both). *)
Definition near (v w : flt) : Prop :=
  match v, w with
  | FZero s, FZero t => s = t
  | FFin s m e, FFin t n f => s = t /\
      forall k, 0 <= e + k -> 0 <= f + k ->
        10 ^ 8 * Z.abs (Zpos n * 2 ^ (f + k) - Zpos m * 2 ^ (e + k)) <= Zpos m * 2 ^ (e + k)
  | _, _ => False
  end.
(** What a number written must be read as: near; a number of single precision is
    found again when the number read is rounded to single precision; a whole number
    of at most nine digits exactly. *)
Definition same_number (v w : flt) : Prop :=
  near v w /\ (is_single v -> round32 w = v) /\
  (forall n, Z.abs n < 10 ^ 9 -> v = f_of_Z n -> w = v).
Definition same_record (r b : string * list flt) : Prop :=
  fst r = fst b /\ Forall2 same_number (snd r) (snd b).

(** Reading records of known lengths: the header, then what exceeds its four
    numbers (as the record parsers do). *)
Fixpoint read_records (counts : list Z) : F (list (string * list flt)) :=
  match counts with
  | [] => sret []
  | c :: cs =>
      do (n, fs) <- read_headerrec;
      do more <- (if 4 <? c then read_floats (c - 4) 8 else sret []);
      do rs <- read_records cs;
      sret ((n, fs ++ more) :: rs)
  end.
