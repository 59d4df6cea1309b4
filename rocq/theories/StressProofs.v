(** * StressProofs: von Mises and principal stresses of stresses known up to an error,
    however small the stresses are. *)
From Coq Require Import Reals ZArith Lia Lra Psatz.
From Verif Require Import Base Nd Calc CalcSpec IeeeSpec IeeeFacts CalcFloat.
Open Scope R_scope.

Definition vm2 (x y t : R) : R := x * x + y * y - x * y + 3 * (t * t).
Lemma vm2_parts x y t : 0 <= vm2 x y t /\ x * x + y * y <= 2 * (x * x + y * y - x * y) /\ Rabs (x * y) <= x * x + y * y - x * y.
Proof.
  unfold vm2. pose proof (Rle_0_sqr (x - y)) as A. pose proof (Rle_0_sqr (x + y)) as B. pose proof (Rle_0_sqr t) as C. pose proof (Rle_0_sqr x) as D. pose proof (Rle_0_sqr y) as E.
  replace (Rsqr (x - y)) with (x * x + y * y - 2 * (x * y)) in A by (unfold Rsqr; ring). replace (Rsqr (x + y)) with (x * x + y * y + 2 * (x * y)) in B by (unfold Rsqr; ring). unfold Rsqr in *.
  split; [lra|]. split; [lra|]. unfold Rabs. destruct (Rcase_abs (x * y)); lra.
Qed.
(** ** Errors of the stresses *)
Lemma root_lipschitz (a b : R) c e : 0 <= a -> 0 <= b -> 0 <= a + 2 * c + b -> 0 <= e -> b <= e * e -> c * c <= a * b -> Rabs (sqrt (a + 2 * c + b) - sqrt a) <= e.
Proof.
  intros A B P E Eb CC. assert (S : sqrt a * sqrt a = a) by now apply sqrt_sqrt. pose proof (sqrt_pos a) as P1. pose proof (sqrt_pos (a + 2 * c + b)) as P2.
  assert (S2 : sqrt (a + 2 * c + b) * sqrt (a + 2 * c + b) = a + 2 * c + b) by now apply sqrt_sqrt. set (r := sqrt a) in *. set (s := sqrt (a + 2 * c + b)) in *.
  assert (SB : sqrt b * sqrt b = b) by now apply sqrt_sqrt. pose proof (sqrt_pos b) as P3. set (f := sqrt b) in *.
  assert (F : f <= e) by (apply Rsqr_incr_0_var; [unfold Rsqr; lra|exact E]).
  assert (K : Rabs c <= r * f). { apply Rsqr_incr_0_var; [|now apply Rmult_le_pos]. rewrite <- Rsqr_abs. unfold Rsqr. replace (r * f * (r * f)) with (a * b); [exact CC|rewrite <- S, <- SB; ring]. }
  apply Rle_trans with f; [|exact F]. assert (c <= r * f /\ - (r * f) <= c) as [K1 K2] by (unfold Rabs in K; destruct (Rcase_abs c); split; nra).
  apply Rabs_le. split.
  - apply Rnot_lt_le. intro L. assert (s + f < r) by lra. assert ((s + f) * (s + f) < r * r) by (apply Rmult_le_0_lt_compat; lra). nra.
  - apply Rnot_lt_le. intro L. assert (r + f < s) by lra. assert ((r + f) * (r + f) < s * s) by (apply Rmult_le_0_lt_compat; lra). nra.
Qed.
Lemma abs_sq x e : Rabs x <= e -> x * x <= e * e /\ - e <= x <= e.
Proof. intro H. split; [|unfold Rabs in H; destruct (Rcase_abs x); lra]. pose proof (Rsqr_le_abs_1 x e) as K. unfold Rsqr in K. apply K. rewrite (Rabs_pos_eq e); [exact H|]. apply Rle_trans with (2 := H), Rabs_pos. Qed.
Lemma vm_lipschitz x y t x' y' t' e : Rabs (x' - x) <= e -> Rabs (y' - y) <= e -> Rabs (t' - t) <= e -> Rabs (sqrt (vm2 x' y' t') - sqrt (vm2 x y t)) <= 2.45 * e.
Proof.
  intros X Y T. pose proof (Rle_trans _ _ _ (Rabs_pos _) X) as E. set (a := x' - x) in *. set (b := y' - y) in *. set (c := t' - t) in *.
  destruct (abs_sq _ _ X) as (XX & X1 & X2). destruct (abs_sq _ _ Y) as (YY & Y1 & Y2). destruct (abs_sq _ _ T) as (TT & _).
  set (m := x * a + y * b - (x * b + y * a) / 2 + 3 * (t * c)).
  assert (EQ : vm2 x' y' t' = vm2 x y t + 2 * m + vm2 a b c) by (unfold vm2, m, a, b, c; field). rewrite EQ.
  apply root_lipschitz.
  - apply vm2_parts.
  - apply vm2_parts.
  - rewrite <- EQ. apply vm2_parts.
  - lra.
  - assert (- (a * b) <= e * e) by nra. unfold vm2. nra.
  - unfold m, vm2. apply Rminus_le. 
    replace ((x * a + y * b - (x * b + y * a) / 2 + 3 * (t * c)) * (x * a + y * b - (x * b + y * a) / 2 + 3 * (t * c)) - (x * x + y * y - x * y + 3 * (t * t)) * (a * a + b * b - a * b + 3 * (c * c)))
      with (- (3 / 4 * ((x * b - y * a) * (x * b - y * a)) + 3 * (((x - y / 2) * c - t * (a - b / 2)) * ((x - y / 2) * c - t * (a - b / 2))) + 9 / 4 * ((y * c - t * b) * (y * c - t * b)))) by field.
    pose proof (Rle_0_sqr (x * b - y * a)). pose proof (Rle_0_sqr ((x - y / 2) * c - t * (a - b / 2))). pose proof (Rle_0_sqr (y * c - t * b)). unfold Rsqr in *. lra.
Qed.
Definition dev2 (x y t : R) : R := (x - y) * (x - y) + 4 * (t * t).
Lemma dev_lipschitz x y t x' y' t' e : Rabs (x' - x) <= e -> Rabs (y' - y) <= e -> Rabs (t' - t) <= e -> Rabs (sqrt (dev2 x' y' t') - sqrt (dev2 x y t)) <= 2.83 * e.
Proof.
  intros X Y T. pose proof (Rle_trans _ _ _ (Rabs_pos _) X) as E. set (a := x' - x) in *. set (b := y' - y) in *. set (c := t' - t) in *.
  destruct (abs_sq _ _ X) as (XX & X1 & X2). destruct (abs_sq _ _ Y) as (YY & Y1 & Y2). destruct (abs_sq _ _ T) as (TT & _).
  set (m := (x - y) * (a - b) + 4 * (t * c)).
  assert (EQ : dev2 x' y' t' = dev2 x y t + 2 * m + dev2 a b c) by (unfold dev2, m, a, b, c; ring). rewrite EQ.
  assert (P : forall p q r, 0 <= dev2 p q r) by (intros p q r; unfold dev2; pose proof (Rle_0_sqr (p - q)); pose proof (Rle_0_sqr r); unfold Rsqr in *; lra).
  apply root_lipschitz; try apply P.
  - rewrite <- EQ. apply P.
  - lra.
  - unfold dev2. assert ((a - b) * (a - b) <= (2 * e) * (2 * e)) by (apply (abs_sq (a - b)); apply Rabs_le; lra). nra.
  - unfold m, dev2. apply Rminus_le. replace (((x - y) * (a - b) + 4 * (t * c)) * ((x - y) * (a - b) + 4 * (t * c)) - ((x - y) * (x - y) + 4 * (t * t)) * ((a - b) * (a - b) + 4 * (c * c)))
      with (- (4 * (((x - y) * c - t * (a - b)) * ((x - y) * c - t * (a - b))))) by ring.
    pose proof (Rle_0_sqr ((x - y) * c - t * (a - b))). unfold Rsqr in *. lra.
Qed.

(** ** Rounding *)
Section Rounding.
  Variables (f : format) (rnd : R -> R) (B : R).
  Notation p := (f_prec f). Notation lo := (f_low f). Notation hi := (f_high f).
  Notation u := (unit_of f).
  Notation eta := (/ 2 * p2 lo).
  Notation w := (sqrt eta).
  Hypothesis HP : (1 < p)%Z.
  Hypothesis HR : (lo + p < hi)%Z.
  Hypothesis RN : rounds f rnd.
  Hypothesis HU : u <= / 1000000.
  Hypothesis HE : eta <= / 100000000 * u.
  Hypothesis HB : 40 * (B * B) + 40 < p2 (hi - 1).

  Local Lemma sizes : 0 < u /\ 0 < eta /\ 0 < w /\ w * w = eta /\ eta <= 0.001 * w.
  Proof using HU HE.
    assert (U : 0 < u) by apply p2_pos. pose proof (p2_pos lo) as P. assert (E : 0 < eta) by lra. pose proof (sqrt_lt_R0 _ E) as W. assert (S : w * w = eta) by (apply sqrt_sqrt; lra).
    repeat split; try assumption. rewrite <- S at 1. apply Rmult_le_compat_r; [lra|]. apply Rnot_lt_le. intro L. assert (0.001 * 0.001 < w * w) by (apply Rmult_le_0_lt_compat; lra). lra.
  Qed.
  Local Lemma step a b x y : Rabs (y - x) <= a -> Rabs x <= b -> a + b < p2 (hi - 1) -> Rabs (rnd y - x) <= 1.000001 * a + u * b + eta.
  Proof using HP HR RN HU.
    intros A X L. assert (Y : Rabs y <= a + b). { replace y with ((y - x) + x) by ring. apply Rle_trans with (1 := Rabs_triang _ _). lra. }
    pose proof (rnd_any f rnd HP HR RN y ltac:(lra)) as N. pose proof (p2_pos (- p)) as U. fold u in U.
    replace (rnd y - x) with ((rnd y - y) + (y - x)) by ring. apply Rle_trans with (1 := Rabs_triang _ _). assert (u * Rabs y <= u * (a + b)) by (apply Rmult_le_compat_l; lra).
    assert (u * a <= 0.000001 * a) by (apply Rmult_le_compat_r; [apply Rle_trans with (2 := A), Rabs_pos|lra]). lra.
  Qed.
  Local Lemma plus_err a b x y x' y' : Rabs (x' - x) <= a -> Rabs (y' - y) <= b -> Rabs (x' + y' - (x + y)) <= a + b.
  Proof using. intros. replace (x' + y' - (x + y)) with ((x' - x) + (y' - y)) by ring. apply Rle_trans with (1 := Rabs_triang _ _). lra. Qed.
  Local Lemma minus_err a b x y x' y' : Rabs (x' - x) <= a -> Rabs (y' - y) <= b -> Rabs (x' - y' - (x - y)) <= a + b.
  Proof using. intros. replace (x' - y' - (x - y)) with ((x' - x) - (y' - y)) by ring. apply Rle_trans with (1 := Rabs_triang _ (- (y' - y))). rewrite Rabs_Ropp. lra. Qed.
  Local Lemma scale_err c a x x' : 0 <= c -> Rabs (x' - x) <= a -> Rabs (c * x' - c * x) <= c * a.
  Proof using. intros C A. replace (c * x' - c * x) with (c * (x' - x)) by ring. rewrite Rabs_mult, (Rabs_pos_eq c) by exact C. now apply Rmult_le_compat_l. Qed.
  Local Lemma same x : Rabs (x - x) <= 0. Proof using. rewrite Rminus_diag_eq, Rabs_R0 by reflexivity. lra. Qed.

  (** A root: relative and absolute error. *)
  Local Lemma root_err k q q' : 0 <= k <= 10 -> 0 <= q -> 0 <= q' -> Rabs (q' - q) <= 2 * k * (u * q) + 16 * eta -> Rabs (sqrt q' - sqrt q) <= (k + 0.001) * (u * sqrt q) + 4 * w.
  Proof using HU HE.
    intros K Q Q' E. destruct sizes as (U & _ & W & WW & _). set (e := 4 * w). assert (EE : e * e = 16 * eta) by (unfold e; replace (4 * w * (4 * w)) with (16 * (w * w)) by ring; now rewrite WW). assert (E0 : 0 < e) by (unfold e; lra).
    set (d := (k + 0.001) * u). replace ((k + 0.001) * (u * sqrt q)) with (d * sqrt q) by (unfold d; ring). assert (KU : 0 <= k * u <= 0.00001). { split; [apply Rmult_le_pos; lra|]. apply Rle_trans with (10 * (/ 1000000)); [apply Rmult_le_compat; lra|lra]. }
    assert (D : 0 <= d <= 0.001) by (unfold d; lra). assert (DD : 2 * d - d * d >= 2 * (k * u) ). { unfold d. assert ((k + 0.001) * u * ((k + 0.001) * u) <= 0.0002 * u); [|lra]. apply Rle_trans with (0.000011 * ((k + 0.001) * u)); [apply Rmult_le_compat_r; lra|]. replace (0.000011 * ((k + 0.001) * u)) with (0.000011 * (k + 0.001) * u) by ring. apply Rmult_le_compat_r; lra. }
    assert (S : sqrt q * sqrt q = q) by now apply sqrt_sqrt. assert (S' : sqrt q' * sqrt q' = q') by now apply sqrt_sqrt. pose proof (sqrt_pos q) as P. pose proof (sqrt_pos q') as P'. set (r := sqrt q) in *. set (s := sqrt q') in *.
    assert (B1 : q' <= q + 2 * (k * u) * q + 16 * eta /\ q - 2 * (k * u) * q - 16 * eta <= q'). { apply abs_sq in E. destruct E as (_ & E). split; lra. } destruct B1 as (B1 & B2).
    apply Rabs_le. fold e. split.
    - apply Rnot_lt_le. intro L. assert (L2 : s < (1 - d) * r - e) by lra. assert (s * s < ((1 - d) * r - e) * ((1 - d) * r - e)) by (apply Rmult_le_0_lt_compat; lra).
      assert (e * e <= (1 - d) * r * e) by (apply Rmult_le_compat_r; lra). assert ((1 - d) * (1 - d) * (r * r) <= (1 - 2 * (k * u)) * (r * r)) by (apply Rmult_le_compat_r; [rewrite S; exact Q|lra]). rewrite S, S' in *.
      replace (((1 - d) * r - e) * ((1 - d) * r - e)) with ((1 - d) * (1 - d) * (r * r) - 2 * ((1 - d) * r * e) + e * e) in * by ring. rewrite S in *. lra.
    - apply Rnot_lt_le. intro L. assert (L2 : (1 + d) * r + e < s) by lra. assert (0 <= d * r) by (apply Rmult_le_pos; lra). assert (((1 + d) * r + e) * ((1 + d) * r + e) < s * s) by (apply Rmult_le_0_lt_compat; lra).
      assert (0 <= (1 + d) * r * e) by (apply Rmult_le_pos; lra). assert ((1 + 2 * (k * u)) * (r * r) <= (1 + d) * (1 + d) * (r * r)) by (apply Rmult_le_compat_r; [rewrite S; exact Q|]; assert (0 <= d * d) by (apply Rmult_le_pos; lra); lra).
      replace (((1 + d) * r + e) * ((1 + d) * r + e)) with ((1 + d) * (1 + d) * (r * r) + 2 * ((1 + d) * r * e) + e * e) in * by ring. rewrite S, S' in *. lra.
  Qed.
  Local Lemma rnd_pos x : 0 <= x < p2 (hi - 1) -> 0 <= rnd x.
  Proof using HP HR RN.
    intro H. rewrite <- (rnd_0 f rnd HP HR RN). apply (rnd_mono f rnd); try assumption; [rewrite Rabs_R0; apply p2_pos|rewrite Rabs_pos_eq; lra|lra].
  Qed.
  Variables x y t : R.
  Hypothesis HX : Rabs x <= B. Hypothesis HY : Rabs y <= B. Hypothesis HT : Rabs t <= B.
  Notation q := (vm2 x y t).
  Local Lemma squares : x * x <= B * B /\ y * y <= B * B /\ t * t <= B * B /\ 0 <= x * x /\ 0 <= y * y /\ 0 <= t * t.
  Proof using HX HY HT.
    destruct (abs_sq _ _ HX) as (A & _). destruct (abs_sq _ _ HY) as (C & _). destruct (abs_sq _ _ HT) as (D & _). repeat split; try assumption; apply Rle_0_sqr.
  Qed.
  Notation under := (fadd rnd (fsub rnd (fadd rnd (fsq rnd x) (fsq rnd y)) (fmul rnd x y)) (fmul rnd 3 (fsq rnd t))).
  Local Lemma u_le a : 0 <= a -> 0 <= u * a <= 0.000001 * a.
  Proof using HU. intro A. pose proof (p2_pos (- p)) as U. fold u in U. split; [apply Rmult_le_pos; lra|]. apply Rmult_le_compat_r; lra. Qed.
  Lemma vm_under : Rabs (under - q) <= 7.2 * (u * q) + 16 * eta /\ 0 <= under.
  Proof using HP HR RN HU HE HB HX HY HT.
    destruct sizes as (U & E & _ & _ & EW). destruct squares as (X & Y & T & X0 & Y0 & T0). destruct (vm2_parts x y t) as (Q0 & Q1 & Q2). set (h := x * x + y * y - x * y) in *.
    assert (QE : q = h + 3 * (t * t)) by reflexivity. pose proof (Rabs_pos (x * y)) as XY0. assert (H0 : 0 <= h) by lra.
    assert (XY : x * y <= Rabs (x * y)) by apply Rle_abs. assert (XYB : Rabs (x * y) <= B * B) by (rewrite Rabs_mult; apply Rmult_le_compat; try apply Rabs_pos; assumption).
    assert (XYM : - (x * y) <= Rabs (x * y)) by (rewrite <- Rabs_Ropp; apply Rle_abs). assert (HH : h <= 3 * (B * B)) by (unfold h in *; lra).
    pose proof (u_le _ X0) as UX. pose proof (u_le _ Y0) as UY. pose proof (u_le _ T0) as UT. pose proof (u_le _ XY0) as UXY. pose proof (u_le _ H0) as UH.
    assert (UXY2 : u * Rabs (x * y) <= u * h) by (apply Rmult_le_compat_l; lra).
    assert (US : u * (x * x) + u * (y * y) <= 2 * (u * h)). { assert (u * (x * x + y * y) <= u * (2 * h)) by (apply Rmult_le_compat_l; [lra|exact Q1]). lra. }
    assert (UQ : u * q = u * h + 3 * (u * (t * t))) by (rewrite QE; ring). pose proof (Rabs_pos x).
    assert (E6 : eta <= 0.000001) by lra.
    assert (A1 : Rabs (fsq rnd x - x * x) <= u * (x * x) + eta). { unfold fsq, fmul. eapply Rle_trans; [apply (step 0 (x * x)); [apply same|rewrite Rabs_pos_eq; lra|lra]|lra]. }
    assert (A2 : Rabs (fsq rnd y - y * y) <= u * (y * y) + eta). { unfold fsq, fmul. eapply Rle_trans; [apply (step 0 (y * y)); [apply same|rewrite Rabs_pos_eq; lra|lra]|lra]. }
    assert (A3 : Rabs (fsq rnd t - t * t) <= u * (t * t) + eta). { unfold fsq, fmul. eapply Rle_trans; [apply (step 0 (t * t)); [apply same|rewrite Rabs_pos_eq; lra|lra]|lra]. }
    assert (A4 : Rabs (fmul rnd x y - x * y) <= u * Rabs (x * y) + eta). { unfold fmul. eapply Rle_trans; [apply (step 0 (Rabs (x * y))); [apply same|lra|lra]|lra]. }
    assert (A5 : Rabs (fadd rnd (fsq rnd x) (fsq rnd y) - (x * x + y * y)) <= 2.00001 * (u * (x * x) + u * (y * y)) + 3.1 * eta).
    { unfold fadd. eapply Rle_trans; [eapply (step _ (x * x + y * y)); [apply (plus_err _ _ _ _ _ _ A1 A2)|rewrite Rabs_pos_eq; lra|lra]|]. lra. }
    assert (A6 : Rabs (fsub rnd (fadd rnd (fsq rnd x) (fsq rnd y)) (fmul rnd x y) - h) <= 6.1 * (u * h) + 5.2 * eta).
    { unfold fsub. eapply Rle_trans; [eapply (step _ h); [apply (minus_err _ _ _ _ _ _ A5 A4)|rewrite Rabs_pos_eq; lra|lra]|]. lra. }
    assert (A7 : Rabs (fmul rnd 3 (fsq rnd t) - 3 * (t * t)) <= 6.1 * (u * (t * t)) + 4.1 * eta).
    { unfold fmul. eapply Rle_trans; [eapply (step _ (3 * (t * t))); [apply (scale_err 3 _ _ _ ltac:(lra) A3)|rewrite Rabs_pos_eq; lra|lra]|]. lra. }
    split.
    - unfold fadd at 1. eapply Rle_trans; [eapply (step _ q); [rewrite QE; apply (plus_err _ _ _ _ _ _ A6 A7)|rewrite Rabs_pos_eq; lra|lra]|]. lra.
    - assert (big : forall z b, Rabs (z - b) <= 1 + b -> 0 <= b <= 9 * (B * B) -> Rabs z < p2 (hi - 1) /\ z <= 1 + 2 * b). { intros z b Hz Hb. apply abs_sq in Hz. destruct Hz as (_ & Hz). split; [apply Rabs_def1; lra|lra]. }
      assert (P1 : 0 <= fsq rnd x) by (apply rnd_pos; lra). assert (P2 : 0 <= fsq rnd y) by (apply rnd_pos; lra). assert (P3 : 0 <= fsq rnd t) by (apply rnd_pos; lra).
      destruct (big (fsq rnd x) (x * x) ltac:(lra) ltac:(lra)) as (G1 & G1'). destruct (big (fsq rnd y) (y * y) ltac:(lra) ltac:(lra)) as (G2 & G2'). destruct (big (fsq rnd t) (t * t) ltac:(lra) ltac:(lra)) as (G3 & G3').
      assert (M : fmul rnd x y <= fadd rnd (fsq rnd x) (fsq rnd y)).
      { assert (K : forall a, x * y <= a * a -> a * a <= B * B -> 0 <= a * a -> fmul rnd x y <= fsq rnd a). { intros a K1 K2 K3. unfold fsq, fmul. apply (rnd_mono f rnd); try assumption; [|rewrite Rabs_pos_eq; lra]. eapply Rle_lt_trans; [exact Q2|]. lra. }
        assert (R1 : representable f (fsq rnd x)) by (apply (rnd_rep f rnd); [assumption..|rewrite Rabs_pos_eq; lra]). assert (R2 : representable f (fsq rnd y)) by (apply (rnd_rep f rnd); [assumption..|rewrite Rabs_pos_eq; lra]).
        assert (SS : Rabs (fsq rnd x + fsq rnd y) < p2 (hi - 1)) by (rewrite Rabs_pos_eq; lra).
        destruct (Rle_or_lt (x * y) (x * x)) as [C|C].
        - apply Rle_trans with (fsq rnd x); [now apply K|]. unfold fadd. rewrite <- (rnd_exact f rnd RN (fsq rnd x) G1 R1) at 1. apply (rnd_mono f rnd); try assumption. lra.
        - apply Rle_trans with (fsq rnd y); [apply K; try assumption|]. { pose proof (Rle_0_sqr (x - y)) as Z. unfold Rsqr in Z. lra. } unfold fadd. rewrite <- (rnd_exact f rnd RN (fsq rnd y) G2 R2) at 1. apply (rnd_mono f rnd); try assumption. lra. }
      destruct (big (fadd rnd (fsq rnd x) (fsq rnd y)) (x * x + y * y) ltac:(lra) ltac:(lra)) as (G4 & G4').
      assert (G5 : - (1 + 2 * (B * B)) <= fmul rnd x y). { apply abs_sq in A4. destruct A4 as (_ & A4). lra. }
      assert (P4 : 0 <= fsub rnd (fadd rnd (fsq rnd x) (fsq rnd y)) (fmul rnd x y)) by (apply rnd_pos; lra).
      assert (P5 : 0 <= fmul rnd 3 (fsq rnd t)) by (apply rnd_pos; lra).
      match type of P4 with 0 <= ?z => destruct (big z h ltac:(lra) ltac:(lra)) as (G6 & G6') end. destruct (big (fmul rnd 3 (fsq rnd t)) (3 * (t * t)) ltac:(lra) ltac:(lra)) as (G7 & G7').
      apply rnd_pos. lra.
  Qed.
  Lemma root_le k : 0 <= k <= 6 * (B * B) -> 0 <= sqrt k <= 1 + 3 * (B * B).
  Proof using.
    intro K. split; [apply sqrt_pos|]. apply Rnot_lt_le. intro L. assert (0 <= B * B) by apply Rle_0_sqr. assert ((1 + 3 * (B * B)) * (1 + 3 * (B * B)) < sqrt k * sqrt k) by (apply Rmult_le_0_lt_compat; lra).
    rewrite sqrt_sqrt in * by lra. assert (0 <= B * B * (B * B)) by (apply Rmult_le_pos; assumption). lra.
  Qed.
  Theorem vm_rounded : Rabs (fsqrt rnd under - sqrt q) <= 5 * (u * sqrt q) + 5 * w.
  Proof using HP HR RN HU HE HB HX HY HT.
    destruct sizes as (U & E & W & _ & EW). destruct vm_under as (A & P). destruct (vm2_parts x y t) as (Q0 & Q1 & Q2). destruct squares as (X & Y & T & X0 & Y0 & T0).
    assert (QB : q <= 6 * (B * B)) by (unfold vm2 in *; assert (- (x * y) <= Rabs (x * y)) by (rewrite <- Rabs_Ropp; apply Rle_abs); assert (Rabs (x * y) <= B * B) by (rewrite Rabs_mult; apply Rmult_le_compat; try apply Rabs_pos; assumption); lra).
    destruct (root_le q ltac:(lra)) as (R0 & R1). pose proof (u_le _ R0) as UR.
    pose proof (root_err 3.6 q under ltac:(lra) Q0 P ltac:(lra)) as RE. assert (WB : w <= 0.001). { apply Rnot_lt_le. intro L. assert (0.001 * 0.001 < w * w) by (apply Rmult_le_0_lt_compat; lra). destruct sizes as (_ & _ & _ & S & _). lra. }
    unfold fsqrt. eapply Rle_trans; [eapply (step _ (sqrt q)); [exact RE|rewrite Rabs_pos_eq; lra|lra]|]. lra.
  Qed.
  Notation r := (sqrt (dev2 x y t)).
  Notation part1 := (fdiv rnd (fadd rnd x y) 2).
  Notation part2 := (fmul rnd (/ 2) (fsqrt rnd (fadd rnd (fsq rnd (fsub rnd x y)) (fmul rnd 4 (fsq rnd t))))).
  Local Lemma square_err d g : Rabs (g - d) <= u * Rabs d + eta -> Rabs (g * g - d * d) <= 3.01 * (u * (d * d)) + 0.01 * eta.
  Proof using HU HE.
    intro A. destruct sizes as (U & E & _). pose proof (Rabs_pos d) as D. replace (g * g - d * d) with ((g - d) * (2 * d + (g - d))) by ring. rewrite Rabs_mult.
    assert (T1 : Rabs (2 * d + (g - d)) <= 2 * Rabs d + (u * Rabs d + eta)). { apply Rle_trans with (1 := Rabs_triang _ _). rewrite Rabs_mult, (Rabs_pos_eq 2) by lra. lra. }
    apply Rle_trans with ((u * Rabs d + eta) * (2 * Rabs d + (u * Rabs d + eta))); [apply Rmult_le_compat; try apply Rabs_pos; assumption|].
    replace (d * d) with (Rabs d * Rabs d) by (rewrite <- Rabs_mult; apply Rabs_pos_eq, Rle_0_sqr). set (a := Rabs d) in *.
    assert (U2 : u * (u * (a * a)) <= 0.000001 * (u * (a * a))) by (apply Rmult_le_compat_r; [apply Rmult_le_pos; [lra|apply Rle_0_sqr]|lra]).
    assert (C : 2 * (a * eta) * (1 + u) <= 0.99 * (u * (a * a)) + 0.009 * eta).
    { assert (F : 0 <= a * eta) by (apply Rmult_le_pos; lra). assert (0 <= u * (a * eta) <= 0.000001 * (a * eta)) by (split; [apply Rmult_le_pos; lra|apply Rmult_le_compat_r; lra]).
      assert (G : 2 * (a * eta) <= 0.9 * (u * (a * a)) + 0.008 * eta); [|lra].
      pose proof (Rle_0_sqr (0.9 * (u * a) - eta)) as S. unfold Rsqr in S. assert (EE : eta * eta <= / 100000000 * u * eta) by (apply Rmult_le_compat_r; lra).
      assert (UE : 0 <= u * eta) by (apply Rmult_le_pos; lra). assert (K : 2 * (u * (a * eta)) <= u * (0.9 * (u * (a * a)) + 0.008 * eta)) by lra. apply (Rmult_le_reg_l u); lra. }
    assert (EE : eta * eta <= 0.0001 * eta) by (apply Rmult_le_compat_r; lra). assert (0 <= u * (a * a)) by (apply Rmult_le_pos; [lra|apply Rle_0_sqr]). lra.
  Qed.
  Theorem principal_rounded : let m := (x + y) / 2 in
    Rabs (fadd rnd part1 part2 - (m + r / 2)) <= 6 * (u * (Rabs m + r / 2)) + 5 * w /\ Rabs (fsub rnd part1 part2 - (m - r / 2)) <= 6 * (u * (Rabs m + r / 2)) + 5 * w /\ fsub rnd part1 part2 <= fadd rnd part1 part2.
  Proof using HP HR RN HU HE HB HX HY HT.
    intro m. destruct sizes as (U & E & W & WW & EW). destruct squares as (X & Y & T & X0 & Y0 & T0). assert (E6 : eta <= 0.000001) by lra. assert (WB : w <= 0.001). { apply Rnot_lt_le. intro L. assert (0.001 * 0.001 < w * w) by (apply Rmult_le_0_lt_compat; lra). lra. }
    set (d := x - y). pose proof (Rle_0_sqr d) as D0. unfold Rsqr in D0. assert (DB : d * d <= 4 * (B * B)). { pose proof (Rle_0_sqr (x + y)) as Z. unfold Rsqr in Z. unfold d. lra. }
    assert (small : forall a, a * a <= 4 * (B * B) -> Rabs a <= 1 + 4 * (B * B)). { intros a A. pose proof (Rle_0_sqr (Rabs a - 1)) as Z. unfold Rsqr in Z. replace (a * a) with (Rabs a * Rabs a) in A by (rewrite <- Rabs_mult; apply Rabs_pos_eq, Rle_0_sqr). pose proof (Rle_0_sqr (Rabs a)) as Z2. unfold Rsqr in Z2. lra. }
    pose proof (small d DB) as DA. pose proof (u_le _ (Rabs_pos d)) as UD. pose proof (u_le _ D0) as UDD. pose proof (u_le _ T0) as UT.
    assert (D2 : dev2 x y t = d * d + 4 * (t * t)) by reflexivity.
    assert (A1 : Rabs (fsub rnd x y - d) <= u * Rabs d + eta). { unfold fsub. eapply Rle_trans; [apply (step 0 (Rabs d)); [apply same|lra|lra]|lra]. }
    pose proof (square_err _ _ A1) as A2.
    assert (A3 : Rabs (fsq rnd (fsub rnd x y) - d * d) <= 4.1 * (u * (d * d)) + 1.1 * eta). { unfold fsq, fmul. eapply Rle_trans; [eapply (step _ (d * d)); [exact A2|rewrite Rabs_pos_eq; lra|lra]|lra]. }
    assert (A4 : Rabs (fsq rnd t - t * t) <= u * (t * t) + eta). { unfold fsq, fmul. eapply Rle_trans; [apply (step 0 (t * t)); [apply same|rewrite Rabs_pos_eq; lra|lra]|lra]. }
    assert (A5 : Rabs (fmul rnd 4 (fsq rnd t) - 4 * (t * t)) <= 8.1 * (u * (t * t)) + 5.1 * eta).
    { unfold fmul. eapply Rle_trans; [eapply (step _ (4 * (t * t))); [apply (scale_err 4 _ _ _ ltac:(lra) A4)|rewrite Rabs_pos_eq; lra|lra]|]. lra. }
    set (D := fadd rnd (fsq rnd (fsub rnd x y)) (fmul rnd 4 (fsq rnd t))) in *.
    assert (A6 : Rabs (D - dev2 x y t) <= 2 * 2.6 * (u * dev2 x y t) + 16 * eta).
    { unfold D, fadd. rewrite D2. eapply Rle_trans; [eapply (step _ (d * d + 4 * (t * t))); [apply (plus_err _ _ _ _ _ _ A3 A5)|rewrite Rabs_pos_eq; lra|lra]|]. lra. }
    assert (DP : 0 <= D).
    { assert (G1 : 0 <= fsub rnd x y * fsub rnd x y <= 1 + 5 * (B * B)) by (split; [apply Rle_0_sqr|apply abs_sq in A2; lra]). assert (P1 : 0 <= fsq rnd (fsub rnd x y)) by (apply rnd_pos; lra). assert (P2 : 0 <= fsq rnd t) by (apply rnd_pos; lra).
      assert (G2 : fsq rnd t <= 1 + 2 * (B * B)) by (apply abs_sq in A4; lra). assert (P3 : 0 <= fmul rnd 4 (fsq rnd t)) by (apply rnd_pos; lra).
      assert (G3 : fsq rnd (fsub rnd x y) <= 1 + 5 * (B * B)) by (apply abs_sq in A3; lra). assert (G4 : fmul rnd 4 (fsq rnd t) <= 1 + 5 * (B * B)) by (apply abs_sq in A5; lra).
      apply rnd_pos. lra. }
    assert (DD : 0 <= dev2 x y t <= 8 * (B * B)) by lra.
    assert (RB : 0 <= r <= 1 + 4 * (B * B)). { split; [apply sqrt_pos|]. apply Rnot_lt_le. intro L. assert (0 <= B * B) by apply Rle_0_sqr. assert ((1 + 4 * (B * B)) * (1 + 4 * (B * B)) < r * r) by (apply Rmult_le_0_lt_compat; lra). rewrite sqrt_sqrt in * by lra. assert (0 <= B * B * (B * B)) by (apply Rmult_le_pos; assumption). lra. }
    pose proof (u_le _ (proj1 RB)) as UR. pose proof (root_err 2.6 (dev2 x y t) D ltac:(lra) ltac:(lra) DP A6) as A7.
    assert (A8 : Rabs (fsqrt rnd D - r) <= 3.7 * (u * r) + 4.1 * w). { unfold fsqrt. eapply Rle_trans; [eapply (step _ r); [exact A7|rewrite Rabs_pos_eq; lra|lra]|]. lra. }
    assert (A9 : Rabs (fmul rnd (/ 2) (fsqrt rnd D) - / 2 * r) <= 2.4 * (u * r) + 2.1 * w). { unfold fmul. eapply Rle_trans; [eapply (step _ (/ 2 * r)); [apply (scale_err (/ 2) _ _ _ ltac:(lra) A8)|rewrite Rabs_pos_eq; lra|lra]|]. lra. }
    assert (SB : Rabs (x + y) <= 1 + 4 * (B * B)). { apply small. pose proof (Rle_0_sqr (x - y)) as Z. unfold Rsqr in Z. lra. }
    assert (MA : Rabs (x + y) = 2 * Rabs m). { replace (x + y) with (2 * m) by (unfold m; field). rewrite Rabs_mult, (Rabs_pos_eq 2) by lra. reflexivity. } pose proof (u_le _ (Rabs_pos m)) as UM.
    assert (B1 : Rabs (fadd rnd x y - (x + y)) <= 2 * (u * Rabs m) + eta). { unfold fadd. eapply Rle_trans; [apply (step 0 (Rabs (x + y))); [apply same|lra|lra]|]. rewrite MA. lra. }
    assert (B2 : Rabs (part1 - m) <= 2.1 * (u * Rabs m) + 1.6 * eta).
    { unfold fdiv. eapply Rle_trans; [eapply (step (/ 2 * (2 * (u * Rabs m) + eta)) (Rabs m)); [|lra|lra]|lra]. unfold m. replace (fadd rnd x y / 2 - (x + y) / 2) with (/ 2 * fadd rnd x y - / 2 * (x + y)) by field. apply scale_err; [lra|exact B1]. }
    assert (P2 : 0 <= fmul rnd (/ 2) (fsqrt rnd D)).
    { assert (0 <= fsqrt rnd D). { apply rnd_pos. pose proof (sqrt_pos D). split; [assumption|]. apply abs_sq in A7. lra. } apply rnd_pos. apply abs_sq in A8. lra. }
    assert (bs : Rabs (m + r / 2) <= Rabs m + r / 2 /\ Rabs (m - r / 2) <= Rabs m + r / 2). { split; [apply Rle_trans with (1 := Rabs_triang _ _)|apply Rle_trans with (1 := Rabs_triang _ (- (r / 2))); rewrite Rabs_Ropp]; rewrite (Rabs_pos_eq (r / 2)); lra. }
    replace (r / 2) with (/ 2 * r) in * by field. split; [|split].
    - unfold fadd at 1. eapply Rle_trans; [eapply (step _ (Rabs m + / 2 * r)); [apply (plus_err _ _ _ _ _ _ B2 A9)|apply bs|lra]|lra].
    - unfold fsub at 1. eapply Rle_trans; [eapply (step _ (Rabs m + / 2 * r)); [apply (minus_err _ _ _ _ _ _ B2 A9)|apply bs|lra]|lra].
    - pose proof (abs_sq _ _ B2) as (_ & L1). pose proof (abs_sq _ _ A9) as (_ & L2). pose proof (abs_sq m (Rabs m) ltac:(lra)) as (_ & L3). apply (rnd_mono f rnd); try assumption; [apply Rabs_def1; lra|apply Rabs_def1; lra|lra].
  Qed.
End Rounding.
