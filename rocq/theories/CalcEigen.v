(** * CalcEigen: a symmetric 3 x 3 matrix has its three eigenvalues. *)
From Coq Require Import Reals Lra Ranalysis List.
From Verif Require Import CalcSpec.
Import ListNotations.
Open Scope R_scope.

Lemma quadratic_roots (p q : R) : 0 <= p * p - 4 * q -> exists a b, forall x, x * x - p * x + q = (x - a) * (x - b).
Proof.
  intro H. exists ((p + sqrt (p * p - 4 * q)) / 2), ((p - sqrt (p * p - 4 * q)) / 2). intro x.
  pose proof (sqrt_sqrt _ H) as E. set (r := sqrt (p * p - 4 * q)) in *.
  transitivity ((x - p / 2) * (x - p / 2) - r * r / 4); [rewrite E; field|field].
Qed.
(** a monic cubic with three different roots is the product *)
Lemma cubic_factors (c2 c1 c0 a b c : R) (f := fun x => x * x * x + c2 * (x * x) + c1 * x + c0) :
  f a = 0 -> f b = 0 -> f c = 0 -> a < b -> b < c -> forall x, f x = (x - a) * (x - b) * (x - c).
Proof.
  unfold f. clear f. intros Ha Hb Hc H1 H2 x.
  (* divided differences *)
  assert (E1 : a * a + a * b + b * b + c2 * (a + b) + c1 = 0).
  { apply (Rmult_eq_reg_l (b - a)); [|lra]. rewrite Rmult_0_r. rewrite <- (Rminus_diag_eq _ _ (eq_trans Hb (eq_sym Ha))). ring. }
  assert (E2 : b * b + b * c + c * c + c2 * (b + c) + c1 = 0).
  { apply (Rmult_eq_reg_l (c - b)); [|lra]. rewrite Rmult_0_r. rewrite <- (Rminus_diag_eq _ _ (eq_trans Hc (eq_sym Hb))). ring. }
  assert (E3 : a + b + c + c2 = 0).
  { apply (Rmult_eq_reg_l (c - a)); [|lra]. rewrite Rmult_0_r. rewrite <- (Rminus_diag_eq _ _ (eq_trans E2 (eq_sym E1))). ring. }
  assert (K2 : c2 = - (a + b + c)) by lra. subst c2.
  assert (K1 : c1 = a * b + a * c + b * c) by (ring_simplify in E1; ring_simplify; lra). subst c1.
  assert (K0 : c0 = - (a * b * c)) by (ring_simplify in Ha; ring_simplify; lra). subst c0. ring.
Qed.

(** The cubic (x - l1)(x - l2)(x - d) - (L1 + m (x - l1)) with l2 < l1. *)
Section Cubic.
  Variables (l1 l2 d L1 m : R).
  Hypothesis Hl : l2 < l1.
  Hypothesis Hm : 0 <= m.
  Hypothesis HL1 : 0 <= L1.
  Hypothesis HL2 : L1 + m * (l2 - l1) <= 0.
  Let p (x : R) : R := (x - l1) * (x - l2) * (x - d) - (L1 + m * (x - l1)).
  Lemma p_cont : continuity p.
  Proof. unfold p. reg. Qed.
  Lemma p_large : exists M, l1 < M /\ 0 < p M.
  Proof.
    set (s := Rmax l1 d). set (t := 1 + m + L1). exists (s + t). assert (l1 <= s) by apply Rmax_l. assert (d <= s) by apply Rmax_r. split; [unfold t; lra|]. unfold p.
    assert (A : t <= s + t - l1) by lra. assert (B : t <= s + t - l2) by lra. assert (C : t <= s + t - d) by lra.
    set (a := s + t - l1) in *. set (b := s + t - l2) in *. set (c := s + t - d) in *.
    assert (T : 1 <= t) by (unfold t; lra).
    assert (BC : t * t <= b * c) by (apply Rmult_le_compat; lra).
    assert (K : a * (b * c - m) - L1 > 0). 2:{ replace (a * b * c - (L1 + m * a)) with (a * (b * c - m) - L1) by ring. exact K. }
    assert (t * (t * t - m) <= a * (b * c - m)). { apply Rmult_le_compat; try lra. unfold t. nra. }
    assert (L1 + 1 <= t * t - m). { unfold t. nra. }
    assert (1 * (t * t - m) <= t * (t * t - m)) by (apply Rmult_le_compat_r; lra). lra.
  Qed.
  Lemma p_small : exists M, M < l2 /\ p M < 0.
  Proof.
    set (s := Rmin l2 d). set (L2 := - (L1 + m * (l2 - l1))). set (t := 1 + m + L2). exists (s - t). assert (s <= l2) by apply Rmin_l. assert (s <= d) by apply Rmin_r. assert (0 <= L2) by (unfold L2; lra). split; [unfold t; lra|]. unfold p.
    assert (A : t <= l1 - (s - t)) by lra. assert (B : t <= l2 - (s - t)) by lra. assert (C : t <= d - (s - t)) by lra.
    replace (L1 + m * (s - t - l1)) with (- L2 - m * (l2 - (s - t))) by (unfold L2; ring).
    set (a := l1 - (s - t)) in *. set (b := l2 - (s - t)) in *. set (c := d - (s - t)) in *.
    replace ((s - t - l1) * (s - t - l2) * (s - t - d)) with (- (a * b * c)) by (unfold a, b, c; ring).
    assert (T : 1 <= t) by (unfold t; lra).
    assert (BC : t * t <= a * c) by (apply Rmult_le_compat; lra).
    assert (K : b * (a * c - m) - L2 > 0). 2:{ replace (- (a * b * c) - (- L2 - m * b)) with (- (b * (a * c - m) - L2)) by ring. lra. }
    assert (t * (t * t - m) <= b * (a * c - m)). { apply Rmult_le_compat; try lra. unfold t. nra. }
    assert (L2 + 1 <= t * t - m). { unfold t. nra. }
    assert (1 * (t * t - m) <= t * (t * t - m)) by (apply Rmult_le_compat_r; lra). lra.
  Qed.
  Lemma p_roots : exists a b c, forall x, p x = (x - a) * (x - b) * (x - c).
  Proof.
    destruct (Req_dec L1 0) as [E1|E1].
    { destruct (quadratic_roots (d + l2) (d * l2 - m)) as (b & c & Hq). { replace ((d + l2) * (d + l2) - 4 * (d * l2 - m)) with ((d - l2) * (d - l2) + 4 * m) by ring. pose proof (Rle_0_sqr (d - l2)) as K. unfold Rsqr in K. lra. }
      exists l1, b, c. intro x. rewrite Rmult_assoc, <- Hq. unfold p. rewrite E1. ring. }
    destruct (Req_dec (L1 + m * (l2 - l1)) 0) as [E2|E2].
    { destruct (quadratic_roots (d + l1) (d * l1 - m)) as (b & c & Hq). { replace ((d + l1) * (d + l1) - 4 * (d * l1 - m)) with ((d - l1) * (d - l1) + 4 * m) by ring. pose proof (Rle_0_sqr (d - l1)) as K. unfold Rsqr in K. lra. }
      exists l2, b, c. intro x. rewrite Rmult_assoc, <- Hq. unfold p. replace (L1 + m * (x - l1)) with ((L1 + m * (l2 - l1)) + m * (x - l2)) by ring. rewrite E2. ring. }
    assert (P1 : p l1 < 0) by (unfold p; replace ((l1 - l1) * (l1 - l2) * (l1 - d) - (L1 + m * (l1 - l1))) with (- L1) by ring; lra).
    assert (P2 : 0 < p l2) by (unfold p; replace ((l2 - l1) * (l2 - l2) * (l2 - d) - (L1 + m * (l2 - l1))) with (- (L1 + m * (l2 - l1))) by ring; lra).
    destruct p_large as (M & M1 & M2). destruct p_small as (N & N1 & N2).
    destruct (IVT p l1 M p_cont M1 P1 M2) as (c & (C1 & C2) & C3). destruct (IVT p N l2 p_cont N1 N2 P2) as (a & (A1 & A2) & A3).
    destruct (IVT (- p)%F l2 l1) as (b & (B1 & B2) & B3); [apply continuity_opp, p_cont|exact Hl|unfold opp_fct; lra|unfold opp_fct; lra|]. unfold opp_fct in B3. assert (B3' : p b = 0) by lra. clear B3.
    assert (a < b). { destruct (Rtotal_order a b) as [H|[H|H]]; [exact H| |]; assert (E : a = l2) by lra; rewrite E in A3; lra. }
    assert (b < c). { destruct (Rtotal_order b c) as [H0|[H0|H0]]; [exact H0| |]; assert (E : c = l1) by lra; rewrite E in C3; lra. }
    exists a, b, c.
    assert (EP : forall x, p x = x * x * x + - (l1 + l2 + d) * (x * x) + (l1 * l2 + l1 * d + l2 * d - m) * x + (- (l1 * l2 * d) - L1 + m * l1)) by (intro; unfold p; ring).
    intro x. rewrite EP. apply cubic_factors; try assumption; rewrite <- EP; assumption.
  Qed.
End Cubic.
Lemma form_nonneg (a b c x y : R) : 0 <= a -> 0 <= b -> a * b = c * c -> 0 <= x * x * a + 2 * c * x * y + y * y * b.
Proof.
  intros Ha Hb Hc. destruct (Req_dec a 0) as [E|E].
  - subst a. assert (c = 0) by nra. subst c. nra.
  - assert (0 < a) by lra. apply (Rmult_le_reg_l a); [assumption|]. rewrite Rmult_0_r.
    replace (a * (x * x * a + 2 * c * x * y + y * y * b)) with ((a * x) * (a * x) + 2 * c * (a * x) * y + y * y * (a * b)) by ring. rewrite Hc.
    replace (a * x * (a * x) + 2 * c * (a * x) * y + y * y * (c * c)) with ((a * x + c * y) * (a * x + c * y)) by ring. exact (Rle_0_sqr _).
Qed.
Theorem eigenvalues3_exist sxx syy szz txy txz tyz : exists a b c, eigenvalues3 sxx syy szz txy txz tyz a b c.
Proof.
  destruct (quadratic_roots (sxx + syy) (sxx * syy - txy * txy)) as (u & v & Hq).
  { replace ((sxx + syy) * (sxx + syy) - 4 * (sxx * syy - txy * txy)) with ((sxx - syy) * (sxx - syy) + 4 * (txy * txy)) by ring. pose proof (Rle_0_sqr (sxx - syy)) as K1. pose proof (Rle_0_sqr txy) as K2. unfold Rsqr in K1, K2. lra. }
  assert (G : exists l1 l2, l2 <= l1 /\ forall x, x * x - (sxx + syy) * x + (sxx * syy - txy * txy) = (x - l1) * (x - l2)).
  { destruct (Rle_dec v u) as [H|H]; [exists u, v|exists v, u]; (split; [lra|]); intro x; rewrite Hq; ring. }
  clear u v Hq. destruct G as (l1 & l2 & HO & Hq).
  assert (S1 : l1 + l2 = sxx + syy). { pose proof (Hq 0). pose proof (Hq 1). lra. }
  assert (Z1 : (l1 - sxx) * (l1 - syy) = txy * txy). { pose proof (Hq l1) as K. replace ((l1 - l1) * (l1 - l2)) with 0 in K by ring. ring_simplify in K. ring_simplify. lra. }
  assert (Z2 : (l2 - sxx) * (l2 - syy) = txy * txy). { pose proof (Hq l2) as K. replace ((l2 - l1) * (l2 - l2)) with 0 in K by ring. ring_simplify in K. ring_simplify. lra. }
  assert (P1 : 0 <= l1 - sxx /\ 0 <= l1 - syy).
  { assert (0 <= (l1 - sxx) * (l1 - syy)) by (rewrite Z1; exact (Rle_0_sqr _)). assert (0 <= (l1 - sxx) + (l1 - syy)) by lra. split; nra. }
  assert (P2 : l2 - sxx <= 0 /\ l2 - syy <= 0) by (split; lra).
  set (m := txz * txz + tyz * tyz). set (L := fun x => txz * txz * (x - syy) + 2 * txy * txz * tyz + tyz * tyz * (x - sxx)).
  assert (Hm : 0 <= m) by (unfold m; pose proof (Rle_0_sqr txz) as K1; pose proof (Rle_0_sqr tyz) as K2; unfold Rsqr in *; lra).
  assert (HL1 : 0 <= L l1) by (apply form_nonneg; [tauto|tauto|rewrite <- Z1; ring]).
  assert (HL2 : L l2 <= 0).
  { enough (0 <= txz * txz * (syy - l2) + 2 * (- txy) * txz * tyz + tyz * tyz * (sxx - l2)) by (unfold L; lra). apply form_nonneg; [lra|lra|]. replace (- txy * - txy) with (txy * txy) by ring. rewrite <- Z2. ring. }
  assert (HD : forall x, det3 (x - sxx) (- txy) (- txz) (- txy) (x - syy) (- tyz) (- txz) (- tyz) (x - szz) = (x - l1) * (x - l2) * (x - szz) - L x).
  { intro x. rewrite <- Hq. unfold det3, L. ring. }
  destruct (Rle_lt_or_eq_dec _ _ HO) as [HO'|E].
  - destruct (p_roots l1 l2 szz (L l1) m HO' Hm HL1) as (a & b & c & H). { replace (L l1 + m * (l2 - l1)) with (L l2) by (unfold L, m; ring). exact HL2. }
    exists a, b, c. intro x. rewrite HD, <- H. unfold L, m. ring.
  - assert (E0 : L l1 = 0) by (rewrite E in HL2; lra). destruct (quadratic_roots (szz + l2) (szz * l2 - m)) as (b & c & Hc).
    { replace ((szz + l2) * (szz + l2) - 4 * (szz * l2 - m)) with ((szz - l2) * (szz - l2) + 4 * m) by ring. pose proof (Rle_0_sqr (szz - l2)) as K. unfold Rsqr in K. lra. }
    exists l1, b, c. intro x. rewrite HD. rewrite (Rmult_assoc (x - l1) (x - b) (x - c)), <- Hc. replace (L x) with (L l1 + m * (x - l1)) by (unfold L, m; ring). rewrite E0. ring.
Qed.
