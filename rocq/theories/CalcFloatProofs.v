(** * CalcFloatProofs: error bounds of the rounded stresses. *)
From Coq Require Import Reals ZArith Lia Lra Psatz.
From Verif Require Import Base Nd Calc CalcSpec IeeeSpec IeeeFacts CalcFloat.
Open Scope R_scope.

Section Errors.
  Variables (f : format) (rnd : R -> R) (a b : Z).
  Notation p := (f_prec f). Notation lo := (f_low f). Notation hi := (f_high f).
  Notation u := (unit_of f).
  Hypothesis HP : (1 < p)%Z.
  Hypothesis HR : (lo + p < hi)%Z.
  Hypothesis RN : rounds f rnd.
  Hypothesis HU : u <= / 1000000.
  Hypothesis HA : (lo + p <= 2 * (a - p + 1))%Z.
  Hypothesis HA0 : (a - p + 2 <= 0)%Z.
  Hypothesis HB : (2 * b + 6 <= hi - 1)%Z.
  Hypothesis HB0 : (0 <= b)%Z.
  Notation L := (p2 (2 * (a - p + 1))).
  Notation B := (p2 (2 * b)).
  Definition mod_ (x : R) : Prop := representable f x /\ (x = 0 \/ p2 a <= Rabs x <= p2 b).
  Definition rel (k x y : R) : Prop := Rabs (y - x) <= k * u * Rabs x.
  Definition ranged (x : R) : Prop := (x = 0 \/ L <= Rabs x) /\ Rabs x <= 16 * B.

  Local Lemma up : 0 < u. Proof. apply p2_pos. Qed.
  Lemma rel_refl x : rel 0 x x.
  Proof. unfold rel. rewrite Rminus_diag_eq by reflexivity. rewrite Rabs_R0. lra. Qed.
  Lemma rel_weak k l x y : k <= l -> rel k x y -> rel l x y.
  Proof. unfold rel. intros K H. pose proof up. pose proof (Rabs_pos x). assert (0 <= u * Rabs x) by nra. nra. Qed.
  (** Half to twice the exact value. *)
  Lemma rel_size k x y : k <= 10 -> rel k x y -> / 2 * Rabs x <= Rabs y <= 2 * Rabs x.
  Proof.
    intros K H. apply rel_weak with (l := 10) in H; [|exact K]. unfold rel in H. pose proof up. pose proof (Rabs_pos x).
    pose proof (Rabs_triang_inv x y). pose proof (Rabs_triang_inv y x). rewrite (Rabs_minus_sym x y) in *. assert (10 * u * Rabs x <= / 2 * Rabs x) by nra. lra.
  Qed.
  Lemma size_rel k x y : rel k x y -> k <= 10 -> / 2 * Rabs x <= Rabs y <= 2 * Rabs x.
  Proof. intros H K. now apply rel_size with k. Qed.
  Lemma L_low : p2 (lo + p) <= L. Proof. apply p2_le. lia. Qed.
  Lemma B_high : 64 * B <= p2 (hi - 1).
  Proof. replace 64 with (p2 6); [|change (p2 6) with (2 * (2 * (2 * (2 * (2 * (2 * 1)))))); ring]. rewrite <- p2_add. apply p2_le. lia. Qed.
  Lemma near_ok k x y : 0 <= k <= 10 -> rel k x y -> ranged x -> Rabs (rnd y - y) <= u * Rabs y.
  Proof.
    intros [K0 K] H [[->|X] T].
    - unfold rel in H. rewrite Rabs_R0, Rmult_0_r, Rminus_0_r in H. assert (Y : y = 0). { destruct (Req_dec y 0) as [E|E]; [exact E|]. apply Rabs_pos_lt in E. lra. }
      rewrite Y, (rnd_0 f rnd HP HR RN), Rminus_0_r, Rabs_R0. pose proof up. nra.
    - destruct (rel_size k x y K H). pose proof L_low as LL. pose proof B_high. pose proof (p2_pos (2 * b)). apply rnd_normal; try assumption.
      replace (lo + p)%Z with (lo + p - 1 + 1)%Z in LL by lia. rewrite p2_S in LL. lra.
  Qed.
  Lemma rel_rnd k x y : 0 <= k <= 10 -> rel k x y -> ranged x -> rel (k + 1.001) x (rnd y).
  Proof.
    intros K H T. pose proof (near_ok k x y K H T) as N. unfold rel in *. pose proof up. pose proof (Rabs_pos x).
    assert (Rabs (rnd y - x) <= Rabs (rnd y - y) + Rabs (y - x)) by (replace (rnd y - x) with ((rnd y - y) + (y - x)) by ring; apply Rabs_triang).
    assert (Rabs y <= Rabs x + Rabs (y - x)) by (replace y with (x + (y - x)) at 1 by ring; apply Rabs_triang).
    assert (u * Rabs y <= u * (Rabs x + k * u * Rabs x)) by (apply Rmult_le_compat_l; lra).
    assert (0 <= u * Rabs x) by nra. assert (k * u <= 0.001) by nra. assert (u * (k * u * Rabs x) <= 0.001 * (u * Rabs x)) by nra. nra.
  Qed.
  Lemma rel_scale k c x y : rel k x y -> rel k (c * x) (c * y).
  Proof. unfold rel. intro H. replace (c * y - c * x) with (c * (y - x)) by ring. rewrite !Rabs_mult. pose proof (Rabs_pos c). nra. Qed.
  Lemma rel_plus k x1 x2 y1 y2 : 0 <= x1 -> 0 <= x2 -> rel k x1 y1 -> rel k x2 y2 -> rel k (x1 + x2) (y1 + y2).
  Proof.
    unfold rel. intros A1 A2 H1 H2. rewrite (Rabs_pos_eq (x1 + x2)) by lra. rewrite (Rabs_pos_eq x1) in H1 by lra. rewrite (Rabs_pos_eq x2) in H2 by lra.
    replace (y1 + y2 - (x1 + x2)) with ((y1 - x1) + (y2 - x2)) by ring. pose proof (Rabs_triang (y1 - x1) (y2 - x2)). lra.
  Qed.
  Lemma small k : 0 <= k <= 10 -> 0 <= k * u <= 10 * u /\ k * u <= 0.00001.
  Proof. intro K. pose proof up. split; [split; nra|]. apply Rle_trans with (10 * u); [nra|lra]. Qed.
  Lemma small_sq k : 0 <= k <= 10 -> k * u * (k * u) <= 0.0001 * u.
  Proof. intro K. pose proof up. destruct (small k K) as [[A1 A2] A3]. apply Rle_trans with (0.00001 * (10 * u)); [apply Rmult_le_compat; lra|lra]. Qed.
  Lemma rel_sq k x y : 0 <= k <= 10 -> rel k x y -> rel (2 * k + 0.001) (x * x) (y * y).
  Proof.
    unfold rel. intros K H. replace (y * y - x * x) with ((y - x) * (2 * x + (y - x))) by ring. rewrite !Rabs_mult. pose proof up. pose proof (Rabs_pos x). pose proof (Rabs_pos (y - x)).
    pose proof (Rabs_triang (2 * x) (y - x)) as T. rewrite Rabs_mult, (Rabs_pos_eq 2) in T by lra.
    assert (Rabs (y - x) * Rabs (2 * x + (y - x)) <= (k * u * Rabs x) * (2 * Rabs x + k * u * Rabs x)) by (apply Rmult_le_compat; try lra; apply Rabs_pos).
    pose proof (small_sq k K) as KK. assert (0 <= Rabs x * Rabs x) by nra. nra.
  Qed.
  Lemma rel_sqrt k x y : 0 <= k <= 10 -> 0 <= x -> rel k x y -> rel (k / 2 + 0.001) (sqrt x) (sqrt y).
  Proof.
    unfold rel. intros K X H. rewrite (Rabs_pos_eq x) in H by exact X. pose proof (sqrt_pos x) as S. rewrite (Rabs_pos_eq (sqrt x)) by exact S. pose proof up.
    destruct (small k K) as [[KU KV] KW]. pose proof (small_sq k K) as KK.
    set (c := (k / 2 + 0.001) * u) in *. assert (C0 : 0 <= c <= 1 / 2) by (unfold c; nra).
    assert (HL : x * (1 - k * u) <= y <= x * (1 + k * u)) by (unfold Rabs in H; destruct (Rcase_abs _) in H; lra).
    assert (Y : 0 <= y) by nra.
    assert (S1 : sqrt y <= (1 + c) * sqrt x).
    { rewrite <- (sqrt_square (1 + c)) by lra. rewrite <- sqrt_mult by nra. apply sqrt_le_1; try nra. assert (1 + k * u <= (1 + c) * (1 + c)) by (unfold c; nra). nra. }
    assert (S2 : (1 - c) * sqrt x <= sqrt y).
    { rewrite <- (sqrt_square (1 - c)) by lra. rewrite <- sqrt_mult by nra. apply sqrt_le_1; try nra. assert ((1 - c) * (1 - c) <= 1 - k * u) by (unfold c in *; nra). nra. }
    apply Rabs_le. lra.
  Qed.

  (** ** Ranges of the exact values *)
  Notation G := (p2 (a - p + 1)).
  Definition gap0 (x : R) : Prop := x = 0 \/ L <= Rabs x.
  Lemma G_sq : G * G = L. Proof. rewrite <- p2_add. f_equal. lia. Qed.
  Lemma G_low : 2 * L <= G.
  Proof. replace (2 * L) with (p2 (2 * (a - p + 1) + 1)) by apply p2_S. apply p2_le. lia. Qed.
  Lemma a_low : 4 * L <= p2 a * p2 a.
  Proof. rewrite <- p2_add. replace (4 * L) with (p2 (2 * (a - p + 1) + 1 + 1)) by (rewrite !p2_S; ring). apply p2_le. lia. Qed.
  Lemma B_sq : p2 b * p2 b = B. Proof. rewrite <- p2_add. f_equal. lia. Qed.
  Lemma B_one : 1 <= p2 b. Proof. now apply p2_ge1. Qed.
  Lemma mod_high x : mod_ x -> Rabs x <= p2 b.
  Proof. intros [_ [->|H]]; [rewrite Rabs_R0; apply Rlt_le, p2_pos|apply H]. Qed.
  Lemma mod_prod x y : mod_ x -> mod_ y -> (x * y = 0 \/ 4 * L <= Rabs (x * y)) /\ Rabs (x * y) <= B.
  Proof.
    intros MX MY. split.
    - destruct MX as [_ [->|HX]]; [left; ring|]. destruct MY as [_ [->|HY]]; [left; ring|]. right. rewrite Rabs_mult. pose proof a_low. pose proof (p2_pos a). nra.
    - rewrite Rabs_mult, <- B_sq. apply Rmult_le_compat; try apply Rabs_pos; now apply mod_high.
  Qed.
  Lemma mod_grid x : mod_ x -> exists n : Z, x = IZR n * G.
  Proof. intros [R H]. apply (on_grid f HP x a R); [lia|]. destruct H as [H|H]; [now left|right; lra]. Qed.
  Lemma mod_sum x y : mod_ x -> mod_ y -> x + y = 0 \/ G <= Rabs (x + y).
  Proof. intros MX MY. destruct (mod_grid x MX) as (n & ->). destruct (mod_grid y MY) as (m & ->). replace (IZR n * G + IZR m * G) with (IZR (n + m) * G) by (rewrite plus_IZR; ring). apply grid_low. Qed.
  Lemma mod_neg x : mod_ x -> mod_ (- x).
  Proof. intros [R H]. split; [now apply neg_rep|]. rewrite Rabs_Ropp. destruct H as [->|H]; [left; ring|now right]. Qed.
  Lemma gap_plus x y : 0 <= x -> 0 <= y -> gap0 x -> gap0 y -> gap0 (x + y).
  Proof. unfold gap0. intros X Y GX GY. rewrite (Rabs_pos_eq x) in GX by lra. rewrite (Rabs_pos_eq y) in GY by lra. rewrite (Rabs_pos_eq (x + y)) by lra. pose proof (p2_pos (2 * (a - p + 1))). destruct GX as [->|GX], GY as [->|GY]; [left; ring|right; lra|right; lra|right; lra]. Qed.
  Lemma gap_up x y : 0 < y -> 1 <= y -> gap0 x -> gap0 (y * x).
  Proof. unfold gap0. intros Y0 Y [->|X]; [left; ring|]. right. rewrite Rabs_mult, (Rabs_pos_eq y) by lra. pose proof (Rabs_pos x). nra. Qed.
  Lemma gap_sqrt x : 0 <= x -> gap0 x -> x <= 16 * B -> ranged (sqrt x) /\ (sqrt x = 0 \/ G <= sqrt x).
  Proof.
    intros X GX T. pose proof G_low. pose proof (p2_pos (2 * (a - p + 1))). pose proof (p2_pos (a - p + 1)).
    assert (HG : sqrt x = 0 \/ G <= sqrt x).
    { destruct GX as [->|GX]; [left; apply sqrt_0|]. right. rewrite (Rabs_pos_eq x) in GX by lra. rewrite <- (sqrt_square G) by lra. rewrite G_sq. apply sqrt_le_1; lra. }
    split; [|exact HG]. pose proof (sqrt_pos x). unfold ranged. rewrite (Rabs_pos_eq (sqrt x)) by assumption. split; [destruct HG; [now left|right; lra]|].
    pose proof B_sq. pose proof B_one. assert (1 <= B) by nra. rewrite <- (sqrt_square (16 * B)) by lra. apply sqrt_le_1; nra.
  Qed.

  (** ** von Mises *)
  Lemma sq_rel x : mod_ x -> rel 1.001 (x * x) (fsq rnd x).
  Proof.
    intro M. destruct (mod_prod x x M M) as [A1 A2]. pose proof (p2_pos (2 * (a - p + 1))). pose proof (p2_pos (2 * b)). unfold fsq, fmul. apply rel_weak with (0 + 1.001); [lra|].
    apply rel_rnd; [lra|apply rel_refl|]. split; [destruct A1; [now left|right; lra]|lra].
  Qed.
  Lemma vonmises_error x y z : mod_ x -> mod_ y -> mod_ z ->
    rel 5 (sqrt (x * x + y * y - x * y + 3 * (z * z))) (fsqrt rnd (fadd rnd (fsub rnd (fadd rnd (fsq rnd x) (fsq rnd y)) (fmul rnd x y)) (fmul rnd 3 (fsq rnd z)))).
  Proof.
    intros MX MY MZ. pose proof up as U. pose proof (p2_pos (2 * (a - p + 1))) as LP. pose proof (p2_pos (2 * b)) as BP.
    destruct (mod_prod x x MX MX) as [XG XB]. destruct (mod_prod y y MY MY) as [YG YB]. destruct (mod_prod z z MZ MZ) as [ZG ZB]. destruct (mod_prod x y MX MY) as [CG CB].
    assert (X0 : 0 <= x * x) by nra. assert (Y0 : 0 <= y * y) by nra. assert (Z0 : 0 <= z * z) by nra.
    rewrite (Rabs_pos_eq (x * x)) in * by exact X0. rewrite (Rabs_pos_eq (y * y)) in * by exact Y0. rewrite (Rabs_pos_eq (z * z)) in * by exact Z0.
    set (s := x * x + y * y). set (m := s - x * y). assert (SM : s <= 2 * m) by (unfold m, s; pose proof (Rle_0_sqr (x - y)) as Q; unfold Rsqr in Q; lra). assert (S0 : 0 <= s) by (unfold s; lra).
    assert (CS : 2 * Rabs (x * y) <= s) by (pose proof (Rle_0_sqr (x - y)) as Q; pose proof (Rle_0_sqr (x + y)) as Q2; unfold Rsqr in Q, Q2; unfold s, Rabs; destruct (Rcase_abs _); lra).
    assert (SG : s = 0 \/ 4 * L <= s) by (unfold s; destruct XG, YG; (left; lra) || (right; lra)). assert (SB : s <= 2 * B) by (unfold s; lra).
    assert (MB : m <= 3 * B). { unfold m. pose proof (Rle_abs (- (x * y))) as Q. rewrite Rabs_Ropp in Q. lra. }
    assert (E1 : rel 2.002 s (fadd rnd (fsq rnd x) (fsq rnd y))).
    { apply rel_weak with (1.001 + 1.001); [lra|]. unfold fadd. apply rel_rnd; [lra|apply rel_plus; try assumption; now apply sq_rel|]. unfold ranged. rewrite (Rabs_pos_eq s) by exact S0. split; [destruct SG; [now left|right; lra]|lra]. }
    assert (E2 : rel 1.001 (x * y) (fmul rnd x y)).
    { apply rel_weak with (0 + 1.001); [lra|]. unfold fmul. apply rel_rnd; [lra|apply rel_refl|]. split; [destruct CG; [now left|right; lra]|lra]. }
    assert (M0 : 0 <= m) by lra.
    assert (MG : gap0 m). { unfold gap0. rewrite (Rabs_pos_eq m) by exact M0. destruct SG as [SG|SG]; [|right; lra]. left. unfold m. rewrite SG in *. pose proof (Rabs_pos (x * y)). assert (Q : Rabs (x * y) = 0) by lra. destruct (Req_dec (x * y) 0) as [->|N]; [ring|]. apply Rabs_pos_lt in N. lra. }
    assert (E3 : rel 6.02 m (fsub rnd (fadd rnd (fsq rnd x) (fsq rnd y)) (fmul rnd x y))).
    { apply rel_weak with (5.01 + 1.001); [lra|]. unfold fsub. apply rel_rnd; [lra| |split; [exact MG|rewrite (Rabs_pos_eq m) by exact M0; lra]].
      unfold rel in *. rewrite (Rabs_pos_eq m) by exact M0. rewrite (Rabs_pos_eq s) in E1 by exact S0. set (s1 := fadd rnd _ _) in *. set (c1 := fmul rnd _ _) in *.
      replace (s1 - c1 - m) with ((s1 - s) + - (c1 - x * y)) by (unfold m; ring). apply Rle_trans with (1 := Rabs_triang _ _). rewrite Rabs_Ropp.
      assert (u * s <= u * (2 * m)) by (apply Rmult_le_compat_l; lra). assert (u * (2 * Rabs (x * y)) <= u * s) by (apply Rmult_le_compat_l; lra). assert (0 <= u * m) by nra. nra. }
    assert (E4 : rel 2.002 (3 * (z * z)) (fmul rnd 3 (fsq rnd z))).
    { apply rel_weak with (1.001 + 1.001); [lra|]. unfold fmul at 1. apply rel_rnd; [lra|apply rel_scale; now apply sq_rel|]. unfold ranged. rewrite (Rabs_pos_eq (3 * (z * z))) by lra. split; [destruct ZG as [ZG|ZG]; [left; lra|right; lra]|lra]. }
    assert (VG : gap0 (m + 3 * (z * z))). { apply gap_plus; [exact M0|lra|exact MG|]. unfold gap0. rewrite (Rabs_pos_eq (3 * (z * z))) by lra. destruct ZG as [ZG|ZG]; [left; lra|right; lra]. }
    assert (V0 : 0 <= m + 3 * (z * z)) by lra. destruct (gap_sqrt _ V0 VG ltac:(lra)) as [RS _].
    change (x * x + y * y) with s. change (s - x * y) with m. unfold fsqrt. apply rel_weak with (7.03 / 2 + 0.001 + 1.001); [lra|]. apply rel_rnd; [lra|apply rel_sqrt; [lra|exact V0|]|exact RS].
    apply rel_weak with (6.02 + 1.001); [lra|]. unfold fadd at 1. apply rel_rnd; [lra| |split; [exact VG|rewrite (Rabs_pos_eq (m + _)) by exact V0; lra]].
    apply rel_plus; [exact M0|lra|exact E3|]. apply rel_weak with (2.002); [lra|exact E4].
  Qed.

  (** ** Principal stresses *)
  Lemma half_exact w : representable f w -> w = 0 \/ L <= Rabs w -> Rabs w <= 32 * B -> rnd (/ 2 * w) = / 2 * w.
  Proof.
    intros RW LW HW. pose proof B_high as BH. pose proof (p2_pos (2 * b)). apply (rnd_exact f rnd RN); [rewrite Rabs_mult, (Rabs_pos_eq (/ 2)) by lra; pose proof (Rabs_pos w); lra|].
    destruct LW as [->|LW]; [rewrite Rmult_0_r; now apply zero_rep|]. destruct RW as (m & e & M & E & ->). exists m, (e - 1)%Z. split; [exact M|]. split.
    - split; [|lia]. assert (lo < e)%Z; [|lia]. apply p2_lt_inv. apply Rmult_lt_reg_l with (p2 p); [apply p2_pos|]. rewrite <- p2_add. replace (p + lo)%Z with (lo + p)%Z by lia. apply Rle_lt_trans with (1 := L_low). apply Rle_lt_trans with (1 := LW).
      rewrite Rabs_mult, (Rabs_pos_eq (p2 e)) by (apply Rlt_le, p2_pos). apply Rmult_lt_compat_r; [apply p2_pos|]. rewrite p2_nat by lia. rewrite <- abs_IZR. now apply IZR_lt.
    - replace (p2 e) with (2 * p2 (e - 1)) by (rewrite <- p2_S; f_equal; lia). field.
  Qed.
  Lemma principal_error x y z : mod_ x -> mod_ y -> mod_ z ->
    let q1 := (x + y) / 2 in
    let q2 := / 2 * sqrt ((x - y) * (x - y) + 4 * (z * z)) in
    let r1 := fdiv rnd (fadd rnd x y) 2 in
    let r2 := fmul rnd (/ 2) (fsqrt rnd (fadd rnd (fsq rnd (fsub rnd x y)) (fmul rnd 4 (fsq rnd z)))) in
    Rabs (fadd rnd r1 r2 - (q1 + q2)) <= 5 * u * (Rabs q1 + q2) /\
    Rabs (fsub rnd r1 r2 - (q1 - q2)) <= 5 * u * (Rabs q1 + q2) /\
    fsub rnd r1 r2 <= fadd rnd r1 r2.
  Proof.
    intros MX MY MZ. cbv zeta. pose proof up as U. pose proof (p2_pos (2 * (a - p + 1))) as LP. pose proof (p2_pos (2 * b)) as BP. pose proof G_low as GL. pose proof B_sq as BS. pose proof B_one as B1. pose proof B_high as BH.
    assert (BB : p2 b <= B) by nra. pose proof (mod_high x MX) as HX. pose proof (mod_high y MY) as HY. destruct (mod_prod z z MZ MZ) as [ZG ZB]. assert (Z0 : 0 <= z * z) by nra. rewrite (Rabs_pos_eq (z * z)) in * by exact Z0.
    pose proof (mod_sum x y MX MY) as SG. pose proof (Rabs_triang x y) as ST.
    pose proof (mod_sum x (- y) MX (mod_neg y MY)) as DG. change (x + - y) with (x - y) in DG. pose proof (Rabs_triang x (- y)) as DT. change (x + - y) with (x - y) in DT. rewrite Rabs_Ropp in DT.
    set (r1 := fdiv rnd _ _). set (w := fsqrt rnd _). set (D := (x - y) * (x - y)).
    assert (E1 : rel 2.002 ((x + y) / 2) r1).
    { apply rel_weak with (1.001 + 1.001); [lra|]. unfold r1, fdiv. apply rel_rnd; [lra| |].
      - unfold Rdiv. rewrite (Rmult_comm (x + y)), (Rmult_comm (fadd _ _ _)). apply rel_scale. apply rel_weak with (0 + 1.001); [lra|]. unfold fadd. apply rel_rnd; [lra|apply rel_refl|]. split; [destruct SG; [now left|right; lra]|lra].
      - unfold Rdiv. split; [|rewrite Rabs_mult, (Rabs_pos_eq (/ 2)) by lra; lra]. destruct SG as [->|SG]; [left; ring|right]. rewrite Rabs_mult, (Rabs_pos_eq (/ 2)) by lra. lra. }
    assert (D0 : 0 <= D) by apply Rle_0_sqr.
    assert (DB : D <= 4 * B). { unfold D. rewrite <- (Rabs_pos_eq ((x - y) * (x - y))) by exact D0. rewrite Rabs_mult, <- BS. replace (4 * (p2 b * p2 b)) with ((2 * p2 b) * (2 * p2 b)) by ring. apply Rmult_le_compat; try apply Rabs_pos; lra. }
    assert (DL : D = 0 \/ L <= D). { unfold D. destruct DG as [->|DG]; [left; ring|right]. rewrite <- (Rabs_pos_eq ((x - y) * (x - y))) by exact D0. rewrite Rabs_mult, <- G_sq. apply Rmult_le_compat; try lra; apply Rlt_le, p2_pos. }
    assert (E2 : rel 3.01 D (fsq rnd (fsub rnd x y))).
    { apply rel_weak with (2 * 1.001 + 0.001 + 1.001); [lra|]. unfold fsq, fmul. apply rel_rnd; [lra| |].
      - apply rel_sq; [lra|]. apply rel_weak with (0 + 1.001); [lra|]. unfold fsub. apply rel_rnd; [lra|apply rel_refl|]. split; [destruct DG; [now left|right; lra]|lra].
      - split; rewrite ?(Rabs_pos_eq D) by exact D0; [exact DL|lra]. }
    assert (Z4 : 4 * (z * z) = 0 \/ L <= 4 * (z * z)) by (destruct ZG; [left; lra|right; lra]).
    assert (E3 : rel 2.002 (4 * (z * z)) (fmul rnd 4 (fsq rnd z))).
    { apply rel_weak with (1.001 + 1.001); [lra|]. unfold fmul at 1. apply rel_rnd; [lra|apply rel_scale; now apply sq_rel|]. split; rewrite ?(Rabs_pos_eq (4 * (z * z))) by lra; [exact Z4|lra]. }
    assert (V0 : 0 <= D + 4 * (z * z)) by lra.
    assert (VG : gap0 (D + 4 * (z * z))) by (apply gap_plus; [exact D0|lra| |]; unfold gap0; rewrite Rabs_pos_eq by lra; assumption).
    destruct (gap_sqrt _ V0 VG ltac:(lra)) as [RS RG]. set (S := sqrt (D + 4 * (z * z))) in *. assert (S0 : 0 <= S) by apply sqrt_pos.
    assert (KW : rel (4.02 / 2 + 0.001) S (sqrt (fadd rnd (fsq rnd (fsub rnd x y)) (fmul rnd 4 (fsq rnd z))))).
    { apply rel_sqrt; [lra|exact V0|]. apply rel_weak with (3.01 + 1.001); [lra|]. unfold fadd at 1. apply rel_rnd; [lra| |split; [exact VG|rewrite Rabs_pos_eq by exact V0; lra]].
      apply rel_plus; [exact D0|lra|exact E2|]. apply rel_weak with 2.002; [lra|exact E3]. }
    assert (E4 : rel 3.02 S w) by (apply rel_weak with (4.02 / 2 + 0.001 + 1.001); [lra|]; unfold w, fsqrt; apply rel_rnd; [lra|exact KW|exact RS]).
    destruct (size_rel _ _ _ KW ltac:(lra)) as [_ WB]. destruct (size_rel _ _ _ E4 ltac:(lra)) as [W1 W2]. destruct RS as [_ SB]. rewrite (Rabs_pos_eq S) in * by exact S0.
    assert (RW : representable f w) by (unfold w, fsqrt; apply (rnd_rep f rnd RN); lra).
    assert (HW : fmul rnd (/ 2) w = / 2 * w). { unfold fmul. apply half_exact; [exact RW| |lra]. destruct RG as [RG|RG]; [left|right; lra]. rewrite RG in W2. pose proof (Rabs_pos w). assert (N : Rabs w = 0) by lra. destruct (Req_dec w 0) as [E|E]; [exact E|]. apply Rabs_pos_lt in E. lra. }
    assert (RH : representable f (/ 2 * w)). { rewrite <- HW. unfold fmul. apply (rnd_rep f rnd RN). rewrite Rabs_mult, (Rabs_pos_eq (/ 2)) by lra. lra. }
    rewrite HW.
    assert (W0 : 0 <= w). { unfold w, fsqrt. rewrite <- (rnd_0 f rnd HP HR RN). apply (rnd_mono f rnd RN); [rewrite Rabs_R0; apply p2_pos|lra|apply sqrt_pos]. }
    assert (SUM : Rabs ((x + y) / 2) <= 4 * B). { unfold Rdiv. rewrite Rabs_mult, (Rabs_pos_eq (/ 2)) by lra. lra. }
    destruct (size_rel _ _ _ E1 ltac:(lra)) as [_ R1B].
    assert (RR1 : representable f r1). { unfold r1, fdiv. apply (rnd_rep f rnd RN).
      assert (E0 : rel 1.001 ((x + y) / 2) (fadd rnd x y / 2)). { unfold Rdiv. rewrite (Rmult_comm (x + y)), (Rmult_comm (fadd _ _ _)). apply rel_scale. apply rel_weak with (0 + 1.001); [lra|]. unfold fadd. apply rel_rnd; [lra|apply rel_refl|]. split; [destruct SG; [now left|right; lra]|lra]. }
      destruct (size_rel _ _ _ E0 ltac:(lra)). lra. }
    assert (ER1 : Rabs (r1 - (x + y) / 2) <= 2.002 * u * Rabs ((x + y) / 2)) by exact E1.
    assert (ER2 : Rabs (w - S) <= 3.02 * u * S) by (unfold rel in E4; rewrite (Rabs_pos_eq S) in E4 by exact S0; exact E4).
    assert (AW : Rabs w = w) by now apply Rabs_pos_eq. rewrite AW in *. set (q := Rabs ((x + y) / 2)) in *. assert (Q0 : 0 <= q) by apply Rabs_pos.
    assert (UQ : 0 <= u * q) by (apply Rmult_le_pos; lra). assert (US : 0 <= u * S) by (apply Rmult_le_pos; lra).
    assert (T1 : Rabs (r1 + / 2 * w) <= 32 * B /\ Rabs (r1 - / 2 * w) <= 32 * B). { pose proof (Rabs_triang r1 (/ 2 * w)) as A1. pose proof (Rabs_triang r1 (- (/ 2 * w))) as A2. rewrite Rabs_Ropp in A2. rewrite Rabs_mult, (Rabs_pos_eq (/ 2)), AW in * by lra. unfold Rminus. split; [apply Rle_trans with (1 := A1)|apply Rle_trans with (1 := A2)]. all: lra. }
    destruct T1 as [T1 T2]. assert (SMALL : u * u <= 0.00001 * u) by (apply Rmult_le_compat_r; lra).
    assert (T3 : Rabs r1 + / 2 * w <= (1 + 4 * u) * (q + / 2 * S)).
    { assert (Rabs r1 <= q + 2.002 * u * q) by (pose proof (Rabs_triang_inv r1 ((x + y) / 2)) as A; change (Rabs ((x + y) / 2)) with q in A; lra). assert (w <= S + 3.02 * u * S) by (unfold Rabs in ER2; destruct (Rcase_abs _) in ER2; lra). lra. }
    assert (UU : u * ((1 + 4 * u) * (q + / 2 * S)) <= 1.001 * u * (q + / 2 * S)).
    { assert (0 <= q + / 2 * S) by lra. replace (u * ((1 + 4 * u) * (q + / 2 * S))) with ((u + 4 * (u * u)) * (q + / 2 * S)) by ring. apply Rmult_le_compat_r; lra. }
    split; [|split].
    - unfold fadd. pose proof (rnd_sum f rnd HP HR RN r1 (/ 2 * w) RR1 RH ltac:(lra)) as N.
      assert (NA : u * Rabs (r1 + / 2 * w) <= u * ((1 + 4 * u) * (q + / 2 * S))). { apply Rmult_le_compat_l; [lra|]. apply Rle_trans with (2 := T3). apply Rle_trans with (1 := Rabs_triang _ _). rewrite Rabs_mult, (Rabs_pos_eq (/ 2)), AW by lra. lra. }
      replace (rnd (r1 + / 2 * w) - ((x + y) / 2 + / 2 * S)) with ((rnd (r1 + / 2 * w) - (r1 + / 2 * w)) + ((r1 - (x + y) / 2) + / 2 * (w - S))) by ring.
      apply Rle_trans with (1 := Rabs_triang _ _). pose proof (Rabs_triang (r1 - (x + y) / 2) (/ 2 * (w - S))) as A. rewrite (Rabs_mult (/ 2)), (Rabs_pos_eq (/ 2)) in A by lra. lra.
    - unfold fsub. pose proof (rnd_diff f rnd HP HR RN r1 (/ 2 * w) RR1 RH ltac:(lra)) as N.
      assert (NA : u * Rabs (r1 - / 2 * w) <= u * ((1 + 4 * u) * (q + / 2 * S))). { apply Rmult_le_compat_l; [lra|]. apply Rle_trans with (2 := T3). unfold Rminus. apply Rle_trans with (1 := Rabs_triang _ _). rewrite Rabs_Ropp, Rabs_mult, (Rabs_pos_eq (/ 2)), AW by lra. lra. }
      replace (rnd (r1 - / 2 * w) - ((x + y) / 2 - / 2 * S)) with ((rnd (r1 - / 2 * w) - (r1 - / 2 * w)) + ((r1 - (x + y) / 2) + - (/ 2 * (w - S)))) by ring.
      apply Rle_trans with (1 := Rabs_triang _ _). pose proof (Rabs_triang (r1 - (x + y) / 2) (- (/ 2 * (w - S)))) as A. rewrite Rabs_Ropp, (Rabs_mult (/ 2)), (Rabs_pos_eq (/ 2)) in A by lra. lra.
    - unfold fsub, fadd. apply (rnd_mono f rnd RN); lra.
  Qed.
End Errors.
