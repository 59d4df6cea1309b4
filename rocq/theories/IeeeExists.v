(** * IeeeExists: roundings to nearest exist. *)
From Coq Require Import Reals ZArith Lia Lra.
From Verif Require Import IeeeSpec IeeeFacts.
Open Scope R_scope.

Definition exponent (x : R) : Z := (up (ln x / ln 2) - 1)%Z.
Lemma exponent_spec x : 0 < x -> p2 (exponent x) <= x < p2 (exponent x + 1).
Proof.
  intro H. unfold exponent. set (l := ln x / ln 2). destruct (archimed l) as [A1 A2].
  assert (L2 : 0 < ln 2) by (rewrite <- ln_1; apply ln_increasing; lra).
  assert (EX : x = Rpower 2 l). { unfold Rpower, l. replace (ln x / ln 2 * ln 2) with (ln x) by (field; lra). now rewrite exp_ln. }
  rewrite !powerRZ_Rpower by lra. replace (up l - 1 + 1)%Z with (up l) by lia. rewrite minus_IZR. split.
  - rewrite EX. apply Rle_Rpower; lra.
  - rewrite EX at 1. apply Rpower_lt; lra.
Qed.
Definition last_place (f : format) (x : R) : Z := Z.max (exponent (Rabs x) - f_prec f + 1) (f_low f).
(** A half goes up. *)
Definition ieee (f : format) (x : R) : R :=
  if Req_EM_T x 0 then 0 else IZR (up (x / p2 (last_place f x) - / 2)) * p2 (last_place f x).

Lemma up_nearest x n : Rabs (IZR (up (x - / 2)) - x) <= Rabs (IZR n - x).
Proof.
  destruct (archimed (x - / 2)) as [A1 A2]. set (k := up (x - / 2)) in *. destruct (Z_lt_le_dec n k) as [H|H].
  - assert (IZR n <= IZR k - 1) by (rewrite <- minus_IZR; apply IZR_le; lia). unfold Rabs. repeat destruct (Rcase_abs _); lra.
  - destruct (Z.eq_dec n k) as [->|N]; [lra|]. assert (IZR k + 1 <= IZR n) by (rewrite <- plus_IZR; apply IZR_le; lia). unfold Rabs. repeat destruct (Rcase_abs _); lra.
Qed.
Lemma grid_nearest x g n : Rabs (IZR (up (x / p2 g - / 2)) * p2 g - x) <= Rabs (IZR n * p2 g - x).
Proof.
  pose proof (p2_pos g) as G. assert (EX : x = x / p2 g * p2 g) by (field; lra).
  assert (K : forall k, Rabs (IZR k * p2 g - x) = Rabs (IZR k - x / p2 g) * p2 g). { intro k. rewrite EX at 1. replace (IZR k * p2 g - x / p2 g * p2 g) with ((IZR k - x / p2 g) * p2 g) by ring. rewrite Rabs_mult, (Rabs_pos_eq (p2 g)) by lra. reflexivity. }
  rewrite !K. apply Rmult_le_compat_r; [lra|]. apply up_nearest.
Qed.
Lemma ieee_rounds f : (1 < f_prec f)%Z -> (f_low f + f_prec f < f_high f)%Z -> rounds f (ieee f).
Proof.
  intros HP HR x HX. unfold ieee. destruct (Req_EM_T x 0) as [->|N].
  - split; [now apply zero_rep|]. intros z _. rewrite Rminus_0_r, Rabs_R0. apply Rabs_pos.
  - assert (X0 : 0 < Rabs x) by now apply Rabs_pos_lt. destruct (exponent_spec _ X0) as [E1 E2]. set (g := last_place f x). unfold last_place in g. set (e := exponent (Rabs x)) in *.
    assert (LH : (e < f_high f - 1)%Z) by (apply p2_lt_inv; lra). assert (GE : (e - f_prec f + 1 <= g)%Z) by (unfold g; lia). assert (GL : (f_low f <= g)%Z) by (unfold g; lia). assert (GH : (g < f_high f - f_prec f)%Z) by (unfold g; lia).
    pose proof (p2_pos g) as PG. set (k := up _). split.
    + assert (D : Rabs (IZR k - x / p2 g) <= / 2). { destruct (archimed (x / p2 g - / 2)). apply Rabs_le. unfold k. lra. }
      assert (QB : Rabs (x / p2 g) < p2 (f_prec f)). { unfold Rdiv. rewrite Rabs_mult, Rabs_inv, (Rabs_pos_eq (p2 g)) by lra. apply Rmult_lt_reg_r with (p2 g); [exact PG|]. rewrite Rmult_assoc, Rinv_l, Rmult_1_r by lra. apply Rlt_le_trans with (1 := E2). rewrite <- p2_add. apply p2_le. lia. }
      assert (NB : (Z.abs k <= 2 ^ f_prec f)%Z).
      { assert (Z.abs k < 2 ^ f_prec f + 1)%Z; [|lia]. apply abs_Z_lt. rewrite plus_IZR, <- p2_nat by lia. pose proof (Rabs_triang_inv (IZR k) (x / p2 g)). lra. }
      destruct (Z.eq_dec (Z.abs k) (2 ^ f_prec f)) as [EN|NN]; [|exists k, g; split; [lia|]; split; [lia|reflexivity]].
      exists (Z.sgn k * 2 ^ (f_prec f - 1))%Z, (g + 1)%Z. split; [|split; [lia|]].
      * rewrite Z.abs_mul, (Z.abs_eq (2 ^ (f_prec f - 1))) by (apply Z.pow_nonneg; lia). assert (Z.abs (Z.sgn k) <= 1)%Z by (destruct k; cbn; lia). assert (2 ^ f_prec f = 2 * 2 ^ (f_prec f - 1))%Z by (rewrite <- Z.pow_succ_r by lia; f_equal; lia).
        pose proof (Z.pow_pos_nonneg 2 (f_prec f - 1) ltac:(lia) ltac:(lia)). nia.
      * rewrite p2_S, mult_IZR. assert (EN2 : k = (Z.sgn k * (2 * 2 ^ (f_prec f - 1)))%Z). { rewrite <- (Z.abs_sgn k) at 1. rewrite EN. rewrite Z.mul_comm. f_equal. rewrite <- Z.pow_succ_r by lia. f_equal. lia. }
        rewrite EN2 at 1. rewrite !mult_IZR. ring.
    + intros z RZ. destruct RZ as (m & q & M & Q & ->). destruct (Z_le_gt_dec g q) as [L|L].
      * replace (IZR m * p2 q) with (IZR (m * 2 ^ (q - g)) * p2 g); [apply grid_nearest|]. rewrite mult_IZR, <- p2_nat by lia. rewrite Rmult_assoc, <- p2_add. do 2 f_equal. lia.
      * assert (EG : g = (e - f_prec f + 1)%Z) by (unfold g; unfold g in L; lia).
        assert (ZB : Rabs (IZR m * p2 q) <= p2 e). { rewrite Rabs_mult, (Rabs_pos_eq (p2 q)) by (apply Rlt_le, p2_pos). apply Rle_trans with (p2 (f_prec f) * p2 q); [apply Rmult_le_compat_r; [apply Rlt_le, p2_pos|]; rewrite p2_nat by lia; rewrite <- abs_IZR; apply IZR_le; lia|]. rewrite <- p2_add. apply p2_le. lia. }
        assert (PE : IZR (2 ^ (f_prec f - 1)) * p2 g = p2 e). { rewrite <- p2_nat by lia. rewrite <- p2_add. f_equal. lia. }
        destruct (Rcase_abs x) as [NX|NX].
        -- pose proof (grid_nearest x g (- 2 ^ (f_prec f - 1))) as GN. rewrite opp_IZR, Ropp_mult_distr_l_reverse, PE in GN. fold k in GN. apply Rle_trans with (1 := GN). rewrite (Rabs_left x) in * by exact NX. unfold Rabs in *. repeat destruct (Rcase_abs _) in *; lra.
        -- pose proof (grid_nearest x g (2 ^ (f_prec f - 1))) as GN. rewrite PE in GN. fold k in GN. apply Rle_trans with (1 := GN). rewrite (Rabs_right x) in * by exact NX. unfold Rabs in *. repeat destruct (Rcase_abs _) in *; lra.
Qed.
