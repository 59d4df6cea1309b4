(** * PiBound: digits of pi. *)
From Coq Require Import Reals ZArith Lia Lra.
Open Scope R_scope.

(** 3.1415926535 and one more in the last place *)
Lemma pi_digits : 31415926535 / 10000000000 <= PI <= 31415926536 / 10000000000.
Proof.
  pose proof (PI_2_3_7_ineq 5) as (L & U). 
  unfold tg_alt, PI_2_3_7_tg, Ratan_seq in *. cbn [Nat.mul Nat.add sum_f_R0 INR pow] in *.
  split; lra.
Qed.
