(** * IeeeIdem: rounding twice is rounding once. *)
From Coq Require Import Reals ZArith Lia Lra.
From Verif Require Import IeeeSpec IeeeFacts IeeeExists.
Open Scope R_scope.

Lemma ieee_form f x : (1 < f_prec f)%Z -> exists m q, (Z.abs m < 2 ^ f_prec f)%Z /\ (f_low f <= q)%Z /\ ieee f x = IZR m * p2 q.
Proof.
  intros HP. unfold ieee. destruct (Req_EM_T x 0) as [->|N].
  - exists 0%Z, (f_low f). split; [apply Z.pow_pos_nonneg; lia|]. split; [lia|]. ring.
  - assert (X0 : 0 < Rabs x) by now apply Rabs_pos_lt. destruct (exponent_spec _ X0) as [E1 E2]. set (g := last_place f x). unfold last_place in g. set (e := exponent (Rabs x)) in *.
    assert (GE : (e - f_prec f + 1 <= g)%Z) by (unfold g; lia). assert (GL : (f_low f <= g)%Z) by (unfold g; lia).
    pose proof (p2_pos g) as PG. set (k := up _).
    assert (D : Rabs (IZR k - x / p2 g) <= / 2). { destruct (archimed (x / p2 g - / 2)). apply Rabs_le. unfold k. lra. }
    assert (QB : Rabs (x / p2 g) < p2 (f_prec f)). { unfold Rdiv. rewrite Rabs_mult, Rabs_inv, (Rabs_pos_eq (p2 g)) by lra. apply Rmult_lt_reg_r with (p2 g); [exact PG|]. rewrite Rmult_assoc, Rinv_l, Rmult_1_r by lra. apply Rlt_le_trans with (1 := E2). rewrite <- p2_add. apply p2_le. lia. }
    assert (NB : (Z.abs k <= 2 ^ f_prec f)%Z).
    { assert (Z.abs k < 2 ^ f_prec f + 1)%Z; [|lia]. apply abs_Z_lt. rewrite plus_IZR, <- p2_nat by lia. pose proof (Rabs_triang_inv (IZR k) (x / p2 g)). lra. }
    destruct (Z.eq_dec (Z.abs k) (2 ^ f_prec f)) as [EN|NN]; [|exists k, g; split; [lia|]; split; [lia|reflexivity]].
    exists (Z.sgn k * 2 ^ (f_prec f - 1))%Z, (g + 1)%Z. split; [|split; [lia|]].
    + rewrite Z.abs_mul, (Z.abs_eq (2 ^ (f_prec f - 1))) by (apply Z.pow_nonneg; lia). assert (Z.abs (Z.sgn k) <= 1)%Z by (destruct k; cbn; lia). assert (2 ^ f_prec f = 2 * 2 ^ (f_prec f - 1))%Z by (rewrite <- Z.pow_succ_r by lia; f_equal; lia).
      pose proof (Z.pow_pos_nonneg 2 (f_prec f - 1) ltac:(lia) ltac:(lia)). nia.
    + rewrite p2_S, mult_IZR. assert (EN2 : k = (Z.sgn k * (2 * 2 ^ (f_prec f - 1)))%Z). { rewrite <- (Z.abs_sgn k) at 1. rewrite EN. rewrite Z.mul_comm. f_equal. rewrite <- Z.pow_succ_r by lia. f_equal. lia. }
      rewrite EN2 at 1. rewrite !mult_IZR. ring.
Qed.
Lemma up_half n : up (IZR n - / 2) = n.
Proof. symmetry. apply tech_up; lra. Qed.
Lemma ieee_fixed f m q : (1 < f_prec f)%Z -> (Z.abs m < 2 ^ f_prec f)%Z -> (f_low f <= q)%Z -> ieee f (IZR m * p2 q) = IZR m * p2 q.
Proof.
  intros HP HM HQ. unfold ieee. destruct (Req_EM_T _ 0) as [E|N]; [now rewrite E|]. set (y := IZR m * p2 q) in *. assert (Y0 : 0 < Rabs y) by now apply Rabs_pos_lt. destruct (exponent_spec _ Y0) as [E1 _].
  set (g := last_place f y). assert (G : (g <= q)%Z).
  { unfold g, last_place. apply Z.max_lub; [|exact HQ]. assert (exponent (Rabs y) < f_prec f + q)%Z; [|lia]. apply p2_lt_inv. apply Rle_lt_trans with (1 := E1). unfold y. rewrite Rabs_mult, (Rabs_pos_eq (p2 q)) by (apply Rlt_le, p2_pos). rewrite p2_add. apply Rmult_lt_compat_r; [apply p2_pos|]. rewrite p2_nat by lia. rewrite <- abs_IZR. apply IZR_lt. lia. }
  pose proof (p2_pos g) as PG. assert (EY : y = IZR (m * 2 ^ (q - g)) * p2 g). { unfold y. rewrite mult_IZR, <- p2_nat by lia. rewrite Rmult_assoc, <- p2_add. do 2 f_equal. lia. }
  replace (y / p2 g) with (IZR (m * 2 ^ (q - g))); [now rewrite up_half|]. rewrite EY. field. lra.
Qed.
Lemma ieee_twice f x : (1 < f_prec f)%Z -> ieee f (ieee f x) = ieee f x.
Proof. intro HP. destruct (ieee_form f x HP) as (m & q & HM & HQ & E). rewrite E. now apply ieee_fixed. Qed.
Lemma ieee_zero f : ieee f 0 = 0.
Proof. unfold ieee. destruct (Req_EM_T 0 0) as [|N]; [reflexivity|now elim N]. Qed.
