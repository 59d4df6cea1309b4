(** * FloatReal: rounded numbers as real numbers. *)
From Coq Require Import Reals ZArith Lia Lra.
From Verif Require Import Base Flt FltProofs RoundSpec RoundProofs IeeeSpec IeeeFacts IeeeExists FltValue.
Open Scope R_scope.

Definition sg (s : bool) : R := if s then -1 else 1.
Definition real_of (x : number) : R := IZR (x_num x) / IZR (x_den x) * p2 (x_exp x).

Lemma p2_Z a k : (0 <= a + k)%Z -> IZR (2 ^ (a + k)) = p2 a * p2 k.
Proof. intro H. rewrite <- p2_nat by exact H. apply p2_add. Qed.
Lemma gap_real k x n q : (0 < x_den x)%Z -> (0 <= x_exp x + k)%Z -> (0 <= q + k)%Z ->
  IZR (gap k x n q) = IZR (x_den x) * p2 k * Rabs (IZR n * p2 q - real_of x).
Proof.
  intros HD H1 H2. unfold gap, real_of. rewrite abs_IZR, minus_IZR, !mult_IZR, !p2_Z by assumption.
  assert (D : 0 < IZR (x_den x)) by (apply (IZR_lt 0); lia). pose proof (p2_pos k) as K.
  rewrite Rabs_minus_sym. rewrite <- (Rabs_pos_eq (IZR (x_den x) * p2 k)) at 1 by (apply Rlt_le, Rmult_lt_0_compat; assumption).
  rewrite <- Rabs_mult. f_equal. field. lra.
Qed.
Lemma value_dyadic f s n q : is_dyadic f s n q -> number_of f /\ value f = sg s * (IZR n * p2 q).
Proof.
  intros [(-> & ->)|(m & e & -> & O & L & ->)].
  - split; [exact I|]. cbn [value]. ring.
  - split; [exact I|]. cbn [value]. rewrite mult_IZR, <- p2_nat by lia. replace (p2 e) with (p2 (e - q) * p2 q) by (rewrite <- p2_add; f_equal; lia).
    unfold sg. destruct s; ring.
Qed.
Lemma sg_sq s : sg s * sg s = 1. Proof. destruct s; unfold sg; lra. Qed.
Lemma sg_abs s x : Rabs (sg s * x) = Rabs x.
Proof. destruct s; unfold sg; unfold Rabs; repeat match goal with |- context [Rcase_abs ?x] => destruct (Rcase_abs x) end; lra. Qed.

Lemma rounded_near prec emin emax x s f : (1 <= prec)%Z -> (emin + prec < emax)%Z -> (0 < x_den x)%Z -> (0 <= x_num x)%Z ->
  rounded prec emin emax x s f -> real_of x < p2 (emax - 1) ->
  number_of f /\ nearest (mkFormat prec emin emax) (sg s * real_of x) (value f).
Proof.
  intros Hp He HD HN (n & q & Hn & ((F1 & F2) & NE) & R) HX.
  assert (D : 0 < IZR (x_den x)) by (apply (IZR_lt 0); lia).
  assert (X0 : 0 <= real_of x).
  { unfold real_of. apply Rmult_le_pos; [|apply Rlt_le, p2_pos]. apply Rmult_le_pos; [apply (IZR_le 0); lia|]. apply Rlt_le, Rinv_0_lt_compat, D. }
  assert (NR : forall n2 q2, fits prec emin n2 q2 -> Rabs (IZR n * p2 q - real_of x) <= Rabs (IZR n2 * p2 q2 - real_of x)).
  { intros n2 q2 HF. set (k := Z.max (- x_exp x) (Z.max (- q) (- q2))).
    destruct (NE n2 q2 k HF ltac:(unfold units, k; lia)) as (G & _). apply IZR_le in G. rewrite !gap_real in G by (unfold k; lia).
    apply Rmult_le_reg_l with (IZR (x_den x) * p2 k); [apply Rmult_lt_0_compat; [exact D|apply p2_pos]|exact G]. }
  destruct R as [(R & B)|(R & B)].
  - destruct (value_dyadic _ _ _ _ R) as (V1 & V2). split; [exact V1|]. rewrite V2.
    assert (BR : IZR n * p2 q < p2 emax).
    { set (k := Z.max (- q) (- emax)). specialize (B k ltac:(lia) ltac:(lia)). apply IZR_lt in B. rewrite mult_IZR, !p2_Z in B by lia.
      apply Rmult_lt_reg_r with (p2 k); [apply p2_pos|]. lra. }
    split.
    + unfold representable. cbn [f_prec f_low f_high].
      assert (AN : forall m, Z.abs (if s then - m else m) = Z.abs m) by (intro m; destruct s; lia).
      assert (SN : forall m e, sg s * (IZR m * p2 e) = IZR (if s then - m else m) * p2 e) by (intros m e; unfold sg; destruct s; [rewrite opp_IZR|]; ring).
      destruct (Z_le_gt_dec q (emax - prec)) as [L|L].
      * destruct (Z_lt_le_dec n (2 ^ prec)) as [C|C].
        { exists (if s then - n else n)%Z, q. rewrite AN, <- SN. repeat split; lia. }
        { assert (n = 2 ^ prec)%Z by lia. subst n. exists (if s then - 2 ^ (prec - 1) else 2 ^ (prec - 1))%Z, (q + 1)%Z. rewrite AN, <- SN.
          rewrite <- p2_nat, <- p2_add in BR by lia. apply p2_lt_inv in BR. pose proof (pow2_pos (prec - 1) ltac:(lia)).
          pose proof (Z.pow_lt_mono_r 2 (prec - 1) prec ltac:(lia) ltac:(lia) ltac:(lia)). repeat split; try lia.
          rewrite <- !p2_nat by lia. do 2 rewrite <- p2_add. do 2 f_equal. lia. }
      * exists (if s then - (n * 2 ^ (q - (emax - prec))) else n * 2 ^ (q - (emax - prec)))%Z, (emax - prec)%Z. rewrite AN, <- SN.
        pose proof (pow2_pos (q - (emax - prec)) ltac:(lia)). split; [|split].
        { rewrite Z.abs_eq by lia. apply lt_IZR. rewrite mult_IZR, <- !p2_nat by lia.
          apply Rmult_lt_reg_r with (p2 (emax - prec)); [apply p2_pos|]. rewrite Rmult_assoc, <- !p2_add.
          replace (q - (emax - prec) + (emax - prec))%Z with q by lia. replace (prec + (emax - prec))%Z with emax by lia. exact BR. }
        { lia. }
        { rewrite mult_IZR, <- p2_nat, Rmult_assoc, <- p2_add by lia. do 3 f_equal. lia. }
    + intros z (m & e & Hm & Hl & ->). cbn [f_prec f_low f_high] in *.
      specialize (NR (if s then - m else m)%Z e ltac:(split; destruct s; lia)).
      replace (sg s * (IZR n * p2 q) - sg s * real_of x) with (sg s * (IZR n * p2 q - real_of x)) by ring. rewrite sg_abs.
      replace (IZR m * p2 e - sg s * real_of x) with (sg s * (IZR (if s then - m else m) * p2 e - real_of x)); [rewrite sg_abs; exact NR|].
      unfold sg. destruct s; [rewrite opp_IZR|]; ring.
  - exfalso. assert (BR : p2 emax <= IZR n * p2 q).
    { set (k := Z.max (- q) (- emax)). specialize (B k ltac:(lia) ltac:(lia)). apply IZR_le in B. rewrite mult_IZR, !p2_Z in B by lia.
      apply Rmult_le_reg_r with (p2 k); [apply p2_pos|]. lra. }
    specialize (NR 1%Z (emax - 1)%Z ltac:(split; [pose proof (pow2_pos prec ltac:(lia)); lia|lia])).
    rewrite Rmult_1_l in NR. replace emax with (emax - 1 + 1)%Z in BR at 1 by lia. rewrite p2_S in BR. pose proof (p2_pos (emax - 1)).
    rewrite !Rabs_pos_eq in NR by lra. lra.
Qed.

(** Errors of a nearest number. *)
Section Errors.
  Variables (f : format).
  Hypothesis HP : (1 < f_prec f)%Z.
  Hypothesis HR : (f_low f + f_prec f < f_high f)%Z.
  Definition change (x y z : R) : R := if Req_EM_T z x then y else ieee f z.
  Lemma change_rounds x y : nearest f x y -> rounds f (change x y).
  Proof.
    intros N z Hz. unfold change. destruct (Req_EM_T z x) as [->|_]; [exact N|]. now apply ieee_rounds.
  Qed.
  Lemma near_any x y : nearest f x y -> Rabs x < p2 (f_high f - 1) -> Rabs (y - x) <= unit_of f * Rabs x + / 2 * p2 (f_low f).
  Proof.
    intros N H. pose proof (rnd_any f (change x y) HP HR (change_rounds x y N) x H) as E. unfold change in E. destruct (Req_EM_T x x) as [_|K]; [exact E|lra].
  Qed.
  Lemma near_normal x y : nearest f x y -> p2 (f_low f + f_prec f - 1) <= Rabs x < p2 (f_high f - 1) -> Rabs (y - x) <= unit_of f * Rabs x.
  Proof.
    intros N H. pose proof (rnd_normal f (change x y) HP (change_rounds x y N) x H) as E. unfold change in E. destruct (Req_EM_T x x) as [_|K]; [exact E|lra].
  Qed.
End Errors.
