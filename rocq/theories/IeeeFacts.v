(** * IeeeFacts: relative errors of rounding to nearest. *)
From Coq Require Import Reals ZArith Lia Lra.
From Verif Require Import IeeeSpec.
Open Scope R_scope.

Notation p2 := (powerRZ 2).
Lemma p2_pos e : 0 < p2 e. Proof. apply powerRZ_lt. lra. Qed.
Lemma p2_add a b : p2 (a + b) = p2 a * p2 b. Proof. apply powerRZ_add. lra. Qed.
Lemma p2_nat n : (0 <= n)%Z -> p2 n = IZR (2 ^ n).
Proof.
  intro H. rewrite <- (Z2Nat.id n H). generalize (Z.to_nat n). clear. intro n. rewrite <- pow_powerRZ.
  induction n as [|n IH]; [reflexivity|]. rewrite Nat2Z.inj_succ, Z.pow_succ_r by lia. rewrite mult_IZR. cbn [pow]. now rewrite IH.
Qed.
Lemma p2_ge1 n : (0 <= n)%Z -> 1 <= p2 n.
Proof. intro H. rewrite p2_nat by exact H. apply IZR_le. pose proof (Z.pow_pos_nonneg 2 n). lia. Qed.
Lemma p2_le a b : (a <= b)%Z -> p2 a <= p2 b.
Proof. intro H. replace b with (a + (b - a))%Z by lia. rewrite p2_add. pose proof (p2_pos a). pose proof (p2_ge1 (b - a) ltac:(lia)). nra. Qed.
Lemma p2_lt a b : (a < b)%Z -> p2 a < p2 b.
Proof. intro H. apply Rlt_le_trans with (p2 (a + 1)); [|apply p2_le; lia]. rewrite p2_add. change (p2 1) with (2 * 1). pose proof (p2_pos a). lra. Qed.
Lemma p2_lt_inv a b : p2 a < p2 b -> (a < b)%Z.
Proof. intro H. destruct (Z_lt_le_dec a b) as [L|L]; [exact L|]. pose proof (p2_le b a L). lra. Qed.
Lemma p2_1 : p2 1 = 2. Proof. change (p2 1) with (2 * 1). lra. Qed.
Lemma p2_S a : p2 (a + 1) = 2 * p2 a. Proof. rewrite p2_add, p2_1. lra. Qed.

(** The exponent of a number. *)
Lemma magnitude x : 0 < x -> exists e, p2 e <= x < p2 (e + 1).
Proof.
  intro H. set (l := ln x / ln 2). destruct (archimed l) as [A1 A2]. exists (up l - 1)%Z.
  assert (L2 : 0 < ln 2) by (rewrite <- ln_1; apply ln_increasing; lra).
  assert (EX : x = Rpower 2 l). { unfold Rpower, l. replace (ln x / ln 2 * ln 2) with (ln x) by (field; lra). now rewrite exp_ln. }
  rewrite !powerRZ_Rpower by lra. replace (up l - 1 + 1)%Z with (up l) by lia. rewrite minus_IZR. split.
  - rewrite EX. apply Rle_Rpower; lra.
  - rewrite EX at 1. apply Rpower_lt; lra.
Qed.
Lemma nearest_integer x : exists n : Z, Rabs (IZR n - x) <= / 2.
Proof. destruct (archimed (x - / 2)) as [A1 A2]. exists (up (x - / 2)). apply Rabs_le. lra. Qed.
Lemma abs_Z_lt m n : Rabs (IZR m) < IZR n -> (Z.abs m < n)%Z.
Proof. rewrite <- abs_IZR. apply lt_IZR. Qed.

Section Format.
  Variables (f : format) (rnd : R -> R).
  Notation p := (f_prec f). Notation lo := (f_low f). Notation hi := (f_high f).
  Hypothesis HP : (1 < p)%Z.
  Hypothesis HR : (lo + p < hi)%Z.
  Hypothesis RN : rounds f rnd.
  Notation u := (unit_of f).
  Lemma u_pos : 0 < u. Proof. apply p2_pos. Qed.

  Lemma rnd_rep x : Rabs x < p2 (hi - 1) -> representable f (rnd x).
  Proof. intro H. apply (RN x H). Qed.
  Lemma rnd_exact x : Rabs x < p2 (hi - 1) -> representable f x -> rnd x = x.
  Proof.
    intros H R. destruct (RN x H) as [_ N]. specialize (N x R). replace (x - x) with 0 in N by ring. rewrite Rabs_R0 in N.
    destruct (Req_dec (rnd x - x) 0) as [E|E]; [lra|]. apply Rabs_pos_lt in E. lra.
  Qed.
  Lemma zero_rep : representable f 0.
  Proof. exists 0%Z, lo. split; [|split]; [|lia|ring]. cbn [Z.abs]. apply Z.pow_pos_nonneg; lia. Qed.
  Lemma rnd_0 : rnd 0 = 0.
  Proof. apply rnd_exact; [rewrite Rabs_R0; apply p2_pos|apply zero_rep]. Qed.
  (** Numbers in the normal range. *)
  Lemma rnd_normal x : p2 (lo + p - 1) <= Rabs x < p2 (hi - 1) -> Rabs (rnd x - x) <= u * Rabs x.
  Proof.
    intros [H1 H2]. pose proof (p2_pos (lo + p - 1)) as P0. destruct (magnitude (Rabs x) ltac:(lra)) as (e & E1 & E2).
    assert (L1 : (lo + p - 1 <= e)%Z). { assert (lo + p - 1 < e + 1)%Z; [apply p2_lt_inv; lra|lia]. }
    assert (L2 : (e < hi - 1)%Z) by (apply p2_lt_inv; lra).
    set (g := (e - p + 1)%Z). pose proof (p2_pos g) as PG. destruct (nearest_integer (x / p2 g)) as (n & N).
    assert (EX : x = x / p2 g * p2 g) by (field; lra).
    assert (D : Rabs (IZR n * p2 g - x) <= / 2 * p2 g).
    { rewrite EX at 1. replace (IZR n * p2 g - x / p2 g * p2 g) with ((IZR n - x / p2 g) * p2 g) by ring. rewrite Rabs_mult, (Rabs_pos_eq (p2 g)) by lra. apply Rmult_le_compat_r; lra. }
    assert (EG : p2 (e + 1) = p2 p * p2 g) by (rewrite <- p2_add; f_equal; unfold g; lia).
    assert (QB : Rabs (x / p2 g) < p2 p). { unfold Rdiv. rewrite Rabs_mult, Rabs_inv, (Rabs_pos_eq (p2 g)) by lra. apply Rmult_lt_reg_r with (p2 g); [exact PG|]. rewrite Rmult_assoc, Rinv_l by lra. lra. }
    assert (NB : (Z.abs n <= 2 ^ p)%Z).
    { assert (Z.abs n < 2 ^ p + 1)%Z; [|lia]. apply abs_Z_lt. rewrite plus_IZR, <- p2_nat by lia. pose proof (Rabs_triang_inv (IZR n) (x / p2 g)). lra. }
    assert (RZ : representable f (IZR n * p2 g)).
    { destruct (Z.eq_dec (Z.abs n) (2 ^ p)) as [EN|NN].
      - exists (Z.sgn n * 2 ^ (p - 1))%Z, (g + 1)%Z. split; [|split; [unfold g; lia|]].
        + rewrite Z.abs_mul, (Z.abs_eq (2 ^ (p - 1))) by (apply Z.pow_nonneg; lia). assert (Z.abs (Z.sgn n) <= 1)%Z by (destruct n; cbn; lia). assert (2 ^ p = 2 * 2 ^ (p - 1))%Z by (rewrite <- Z.pow_succ_r by lia; f_equal; lia).
          pose proof (Z.pow_pos_nonneg 2 (p - 1) ltac:(lia) ltac:(lia)). nia.
        + rewrite p2_S, mult_IZR. assert (EN2 : n = (Z.sgn n * (2 * 2 ^ (p - 1)))%Z). { rewrite <- (Z.abs_sgn n) at 1. rewrite EN. rewrite Z.mul_comm. f_equal. rewrite <- Z.pow_succ_r by lia. f_equal. lia. }
          rewrite EN2 at 1. rewrite !mult_IZR. ring.
      - exists n, g. split; [lia|]. split; [unfold g; lia|reflexivity]. }
    destruct (RN x H2) as [_ NE]. specialize (NE _ RZ). apply Rle_trans with (1 := NE). apply Rle_trans with (1 := D).
    unfold unit_of. replace (/ 2 * p2 g) with (p2 (- p) * p2 e); [apply Rmult_le_compat_l; [apply Rlt_le, p2_pos|exact E1]|].
    rewrite <- p2_add. replace (- p + e)%Z with (g + -1)%Z by (unfold g; lia). rewrite p2_add. change (p2 (-1)) with (/ (2 * 1)). lra.
  Qed.
  (** All numbers well below overflow. *)
  Lemma rnd_any x : Rabs x < p2 (hi - 1) -> Rabs (rnd x - x) <= u * Rabs x + / 2 * p2 lo.
  Proof.
    intro H. pose proof (p2_pos lo) as PL. destruct (Rle_lt_dec (p2 (lo + p - 1)) (Rabs x)) as [L|L]; [pose proof (rnd_normal x (conj L H)); lra|].
    destruct (nearest_integer (x / p2 lo)) as (n & N). assert (EX : x = x / p2 lo * p2 lo) by (field; lra).
    assert (D : Rabs (IZR n * p2 lo - x) <= / 2 * p2 lo).
    { rewrite EX at 1. replace (IZR n * p2 lo - x / p2 lo * p2 lo) with ((IZR n - x / p2 lo) * p2 lo) by ring. rewrite Rabs_mult, (Rabs_pos_eq (p2 lo)) by lra. apply Rmult_le_compat_r; lra. }
    assert (RZ : representable f (IZR n * p2 lo)).
    { exists n, lo. split; [|split; [lia|reflexivity]]. assert (QB : Rabs (x / p2 lo) < p2 (p - 1)). { unfold Rdiv. rewrite Rabs_mult, Rabs_inv, (Rabs_pos_eq (p2 lo)) by lra. apply Rmult_lt_reg_r with (p2 lo); [exact PL|]. rewrite Rmult_assoc, Rinv_l, Rmult_1_r by lra. rewrite <- p2_add. replace (p - 1 + lo)%Z with (lo + p - 1)%Z by lia. exact L. }
      apply abs_Z_lt. rewrite <- p2_nat by lia. pose proof (Rabs_triang_inv (IZR n) (x / p2 lo)). replace p with (p - 1 + 1)%Z by lia. rewrite p2_S. pose proof (p2_ge1 (p - 1) ltac:(lia)). lra. }
    destruct (RN x H) as [_ NE]. specialize (NE _ RZ). pose proof u_pos. pose proof (Rabs_pos x). assert (0 <= u * Rabs x) by (apply Rmult_le_pos; lra). lra.
  Qed.
  (** Representable numbers are multiples of their last place. *)
  Lemma on_grid x a : representable f x -> (lo + p - 1 <= a)%Z -> x = 0 \/ p2 a <= Rabs x -> exists n : Z, x = IZR n * p2 (a - p + 1).
  Proof.
    intros (m & e & M & E & ->) HA [Z0|H].
    - exists 0%Z. rewrite Z0. ring.
    - assert (L : (a - p < e)%Z).
      { apply p2_lt_inv. apply Rmult_lt_reg_l with (p2 p); [apply p2_pos|]. rewrite <- p2_add. replace (p + (a - p))%Z with a by lia. apply Rle_lt_trans with (1 := H).
        rewrite Rabs_mult, (Rabs_pos_eq (p2 e)) by (apply Rlt_le, p2_pos). apply Rmult_lt_compat_r; [apply p2_pos|]. rewrite p2_nat by lia. rewrite <- abs_IZR. now apply IZR_lt. }
      exists (m * 2 ^ (e - (a - p + 1)))%Z. rewrite mult_IZR, <- p2_nat by lia. rewrite Rmult_assoc, <- p2_add. do 2 f_equal. lia.
  Qed.
  Lemma grid_low n g : IZR n * p2 g = 0 \/ p2 g <= Rabs (IZR n * p2 g).
  Proof.
    pose proof (p2_pos g). destruct (Z.eq_dec n 0) as [->|N]; [left; ring|]. right. rewrite Rabs_mult, (Rabs_pos_eq (p2 g)) by lra. rewrite <- abs_IZR.
    assert (1 <= IZR (Z.abs n)); [apply IZR_le; lia|]. nra.
  Qed.
  (** Sums: exact where they would be below the normal range. *)
  Lemma low_grid x : representable f x -> exists n : Z, x = IZR n * p2 lo.
  Proof. intros (m & e & M & E & ->). exists (m * 2 ^ (e - lo))%Z. rewrite mult_IZR, <- p2_nat by lia. rewrite Rmult_assoc, <- p2_add. do 2 f_equal. lia. Qed.
  Lemma rnd_sum x y : representable f x -> representable f y -> Rabs (x + y) < p2 (hi - 1) -> Rabs (rnd (x + y) - (x + y)) <= u * Rabs (x + y).
  Proof.
    intros RX RY H. destruct (Rle_lt_dec (p2 (lo + p - 1)) (Rabs (x + y))) as [L|L]; [apply rnd_normal; lra|].
    destruct (low_grid x RX) as (n & ->). destruct (low_grid y RY) as (m & ->). rewrite rnd_exact; [|exact H|].
    - unfold Rminus. rewrite Rplus_opp_r, Rabs_R0. apply Rmult_le_pos; [apply Rlt_le, p2_pos|apply Rabs_pos].
    - replace (IZR n * p2 lo + IZR m * p2 lo) with (IZR (n + m) * p2 lo) in * by (rewrite plus_IZR; ring). exists (n + m)%Z, lo. split; [|split; [lia|reflexivity]].
      rewrite Rabs_mult, (Rabs_pos_eq (p2 lo)) in L by (apply Rlt_le, p2_pos). replace (lo + p - 1)%Z with (p - 1 + lo)%Z in L by lia. rewrite p2_add in L. pose proof (p2_pos lo).
      assert (Rabs (IZR (n + m)) < p2 (p - 1)) by (apply Rmult_lt_reg_r with (p2 lo); assumption). apply abs_Z_lt. rewrite <- p2_nat by lia. pose proof (p2_lt (p - 1) p ltac:(lia)). lra.
  Qed.
  Lemma neg_rep x : representable f x -> representable f (- x).
  Proof. intros (m & e & M & E & ->). exists (- m)%Z, e. rewrite Z.abs_opp, opp_IZR. repeat split; [exact M|lia|lia|ring]. Qed.
  Lemma rnd_diff x y : representable f x -> representable f y -> Rabs (x - y) < p2 (hi - 1) -> Rabs (rnd (x - y) - (x - y)) <= u * Rabs (x - y).
  Proof. intros RX RY H. unfold Rminus at 2 3 4. apply rnd_sum; [exact RX|now apply neg_rep|exact H]. Qed.
  (** Order. *)
  Lemma rnd_mono x y : Rabs x < p2 (hi - 1) -> Rabs y < p2 (hi - 1) -> x <= y -> rnd x <= rnd y.
  Proof.
    intros HX HY L. destruct (Rle_lt_or_eq_dec _ _ L) as [L1|<-]; [|lra]. destruct (RN x HX) as [A1 A2]. destruct (RN y HY) as [B1 B2]. specialize (A2 _ B1). specialize (B2 _ A1).
    destruct (Rle_lt_dec (rnd x) (rnd y)) as [G|G]; [exact G|]. exfalso. unfold Rabs in *. repeat destruct (Rcase_abs _) in *; lra.
  Qed.
End Format.
