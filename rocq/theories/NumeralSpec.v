(** * NumeralSpec: the texts that denote numbers

    The texts Python's float() takes for numbers (without digit grouping), and
    the numbers they denote. *)
From Verif Require Import Base Flt SeqFile RoundSpec SeqSpec.
Open Scope Z_scope.
Open Scope list_scope.

Definition space (c : ascii) : Prop := In (code c) [9; 10; 11; 12; 13; 28; 29; 30; 31; 32].
(** Digits before and after the point, which may be absent. *)
Inductive fraction : list ascii -> list ascii -> list ascii -> Prop :=
| fraction_none ip : fraction ip ip []
| fraction_point ip fp : fraction (ip ++ "."%char :: fp) ip fp.
Inductive exponent : list ascii -> Z -> Prop :=
| exponent_none : exponent [] 0
| exponent_some e es exs ed ex :
    (e = "e"%char \/ e = "E"%char) -> sign_txt es exs -> digits ed ex -> ed <> [] ->
    exponent (e :: es ++ ed) (if exs then - ex else ex).
(** [t] is [w], in any mixture of capitals. *)
Definition caseless (w t : list ascii) : Prop :=
  Forall2 (fun a b => b = a \/ (97 <= code a <= 122 /\ code b = code a - 32)) w t.

(** What is left when white space is removed at both ends. *)
Inductive numeral : list ascii -> flt -> Prop :=
| numeral_decimal sg s t ip fp m et x v :
    sign_txt sg s -> fraction t ip fp -> digits (ip ++ fp) m -> ip ++ fp <> [] -> exponent et x ->
    rounded64 (dec_number m (x - Z.of_nat (length fp))) s v -> numeral (sg ++ t ++ et) v
| numeral_inf sg s t : sign_txt sg s -> caseless (s2l "inf") t \/ caseless (s2l "infinity") t -> numeral (sg ++ t) (FInf s)
| numeral_nan sg s t : sign_txt sg s -> caseless (s2l "nan") t -> numeral (sg ++ t) FNan.
Inductive reads : list ascii -> flt -> Prop :=
| reads_intro p t q v : Forall space p -> Forall space q -> numeral t v -> reads (p ++ t ++ q) v.

(** Fields of sixteen columns; the last one may be shorter. *)
Inductive fields16 : list (list ascii) -> Prop :=
| fields16_nil : fields16 []
| fields16_last p : (0 < length p <= 16)%nat -> fields16 [p]
| fields16_cons p ps : length p = 16%nat -> fields16 ps -> fields16 (p :: ps).
