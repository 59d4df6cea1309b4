(** * HydroNum: errors of the periods, the headings in degrees and the elevations. *)
From Verif Require Import Base Flt H5 IeeeSpec IeeeFacts FltValue FloatReal FloatArith PiBound HydroFloat.
From Coq Require Import Reals ZArith Lia Lra.
Open Scope R_scope.

Lemma u_val : u = / 16777216.
Proof. pose proof (p2_add (-24) 24) as E. change (-24 + 24)%Z with 0%Z in E. rewrite (p2_nat 24) in E by lia. change (p2 0) with 1 in E. change (2 ^ 24)%Z with 16777216%Z in E. lra. Qed.
Lemma p2_val n z : (0 <= n)%Z -> (2 ^ n = z)%Z -> p2 (- n) = / IZR z.
Proof.
  intros H <-. pose proof (p2_add (- n) n) as E. replace (- n + n)%Z with 0%Z in E by lia. change (p2 0) with 1 in E. rewrite (p2_nat n) in E by exact H.
  pose proof (Z.pow_pos_nonneg 2 n ltac:(lia) H). assert (0 < IZR (2 ^ n)) by (apply (IZR_lt 0); lia). apply Rmult_eq_reg_r with (IZR (2 ^ n)); [|lra]. rewrite Rinv_l; lra.
Qed.
Definition two_pi32 : flt := FFin false 13176795 (-21).
Definition pi32 : flt := FFin false 13176795 (-22).
Lemma two_pi32_is : round32 (fmul round64 (f_of_Z 2) np_pi) = two_pi32. Proof. reflexivity. Qed.
Lemma pi32_is : round32 np_pi = pi32. Proof. reflexivity. Qed.
Lemma d180_is : round32 (f_of_Z 180) = FFin false 45 2. Proof. reflexivity. Qed.
Lemma two_pi32_val : value two_pi32 = 13176795 / 2097152.
Proof. unfold two_pi32. cbn [value]. change (-21)%Z with (- (21))%Z. rewrite (p2_val 21 2097152) by lia. lra. Qed.
Lemma pi32_val : value pi32 = 13176795 / 4194304.
Proof. unfold pi32. cbn [value]. change (-22)%Z with (- (22))%Z. rewrite (p2_val 22 4194304) by lia. lra. Qed.
Lemma d180_val : value (FFin false 45 2) = 180.
Proof. cbn [value]. rewrite p2_nat by lia. change (2 ^ 2)%Z with 4%Z. lra. Qed.

Lemma Rabs_le_add x y z e f : Rabs (x - y) <= e -> Rabs (y - z) <= f -> Rabs (x - z) <= e + f.
Proof. intros. replace (x - z) with (x - y + (y - z)) by ring. eapply Rle_trans; [apply Rabs_triang|]. lra. Qed.
Lemma Rabs_bound_l x y e : Rabs (x - y) <= e -> Rabs x <= Rabs y + e.
Proof. intros. replace x with (x - y + y) by ring. eapply Rle_trans; [apply Rabs_triang|]. lra. Qed.
Lemma abs_nonzero x a : 0 < a -> a <= Rabs x -> x <> 0.
Proof. intros H L ->. rewrite Rabs_R0 in L. lra. Qed.

(** Quotients by numbers of moderate size. *)
Lemma quotient_size a y lo hi b : 0 < p2 lo -> p2 lo <= Rabs y <= p2 hi -> Rabs a < p2 b -> Rabs (a / y) < p2 (b - lo).
Proof.
  intros P (L & _) A. unfold Rdiv. rewrite Rabs_mult, Rabs_inv. assert (0 < Rabs y) by lra.
  apply Rmult_lt_reg_r with (Rabs y); [assumption|]. rewrite Rmult_assoc, Rinv_l, Rmult_1_r by lra. eapply Rlt_le_trans; [exact A|].
  replace b with (b - lo + lo)%Z at 1 by lia. rewrite p2_add. apply Rmult_le_compat_l; [apply Rlt_le, p2_pos|exact L].
Qed.
Lemma quotient_low a y lo hi b : 0 < p2 lo -> p2 lo <= Rabs y <= p2 hi -> p2 b <= Rabs a -> p2 (b - hi) <= Rabs (a / y).
Proof.
  intros P (L & U) A. unfold Rdiv. rewrite Rabs_mult, Rabs_inv. assert (0 < Rabs y) by lra.
  apply Rmult_le_reg_r with (Rabs y); [assumption|]. rewrite Rmult_assoc, Rinv_l, Rmult_1_r by lra. eapply Rle_trans; [|exact A].
  replace b with (b - hi + hi)%Z at 2 by lia. rewrite p2_add. apply Rmult_le_compat_l; [apply Rlt_le, p2_pos|exact U].
Qed.

Lemma period_err w : number_of w -> p2 (-100) <= Rabs (value w) <= p2 100 ->
  number_of (period32 w) /\ Rabs (value (period32 w) - 2 * PI / value w) <= 3 / 2 * u * Rabs (2 * PI / value w).
Proof.
  intros Hw R. unfold period32. rewrite two_pi32_is. set (y := value w) in *. pose proof (p2_pos (-100)) as P0. pose proof (abs_nonzero y _ P0 (proj1 R)) as Y0.
  pose proof pi_digits as PB.
  assert (CA : Rabs (value two_pi32) = 13176795 / 2097152) by (rewrite two_pi32_val; apply Rabs_pos_eq; lra).
  assert (S1 : Rabs (value two_pi32 / y) < p2 (3 - -100)) by (apply (quotient_size _ _ (-100) 100); trivial; rewrite CA, p2_nat by lia; change (2 ^ 3)%Z with 8%Z; lra).
  assert (S2 : p2 (2 - 100) <= Rabs (value two_pi32 / y)) by (apply (quotient_low _ _ (-100) 100); trivial; rewrite CA, p2_nat by lia; change (2 ^ 2)%Z with 4%Z; lra).
  destruct (div32_err two_pi32 w I Hw Y0) as (A & E).
  { split; [eapply Rle_trans; [|exact S2]; apply p2_le; lia|eapply Rlt_le_trans; [exact S1|]; apply p2_le; lia]. }
  split; [exact A|]. set (k := value two_pi32 / (2 * PI)). set (X := 2 * PI / y) in *.
  assert (EX : value two_pi32 / y = k * X) by (unfold k, X; field; split; [exact Y0|lra]). fold y in E. rewrite EX in E.
  assert (K1 : 1 <= k <= 1 + 0.49 * u).
  { unfold k. rewrite two_pi32_val, u_val. split.
    - apply Rmult_le_reg_r with (2 * PI); [lra|]. replace (13176795 / 2097152 / (2 * PI) * (2 * PI)) with (13176795 / 2097152) by (field; lra). lra.
    - apply Rmult_le_reg_r with (2 * PI); [lra|]. replace (13176795 / 2097152 / (2 * PI) * (2 * PI)) with (13176795 / 2097152) by (field; lra). lra. }
  assert (KX : Rabs (k * X) = k * Rabs X) by (rewrite Rabs_mult, (Rabs_pos_eq k) by lra; reflexivity). rewrite KX in E.
  eapply Rle_trans; [apply (Rabs_le_add _ (k * X)); [exact E|]|].
  - replace (k * X - X) with ((k - 1) * X) by ring. rewrite Rabs_mult, (Rabs_pos_eq (k - 1)) by lra. apply Rle_refl.
  - pose proof (Rabs_pos X) as XP. assert (k * Rabs X <= (1 + 0.49 * u) * Rabs X) by (apply Rmult_le_compat_r; lra). rewrite u_val in *. lra.
Qed.

Lemma degrees_err d : number_of d -> Rabs (value d) <= p2 100 ->
  number_of (degrees32 d) /\ Rabs (value (degrees32 d) - value d * 180 / PI) <= 5 / 2 * u * Rabs (value d * 180 / PI) + 2 * tiny.
Proof.
  intros Hd R. unfold degrees32. rewrite d180_is, pi32_is. set (x := value d) in *. pose proof pi_digits as PB. pose proof (p2_pos (-150)) as TP.
  assert (T1 : tiny <= 1) by (change 1 with (p2 0); apply p2_le; lia).
  assert (B1 : Rabs (x * 180) < p2 108).
  { rewrite Rabs_mult, (Rabs_pos_eq 180) by lra. replace 108%Z with (100 + 8)%Z by lia. rewrite p2_add, (p2_nat 8) by lia. change (2 ^ 8)%Z with 256%Z. pose proof (p2_pos 100). lra. }
  destruct (mul32_err d (FFin false 45 2) Hd I) as (A1 & E1).
  { rewrite d180_val. eapply Rlt_trans; [exact B1|]. apply p2_lt. lia. }
  rewrite d180_val in E1. fold x in E1. set (t := mul32 d (FFin false 45 2)) in *.
  assert (B2 : Rabs (value t) < p2 110).
  { apply Rabs_bound_l in E1. replace 110%Z with (108 + 2)%Z by lia. rewrite p2_add, (p2_nat 2) by lia. change (2 ^ 2)%Z with 4%Z. pose proof (p2_ge1 108 ltac:(lia)). rewrite u_val in E1. lra. }
  assert (PV : value pi32 <> 0) by (rewrite pi32_val; lra).
  assert (HP : Rabs (value pi32) = 13176795 / 4194304) by (rewrite pi32_val; apply Rabs_pos_eq; lra).
  assert (B3 : Rabs (value t / value pi32) < p2 127).
  { eapply Rlt_le_trans; [apply (quotient_size _ _ 0 2 110); [apply p2_pos| |exact B2]|apply p2_le; lia].
    rewrite HP. change (p2 0) with 1. rewrite p2_nat by lia. change (2 ^ 2)%Z with 4%Z. lra. }
  destruct (div32_any t pi32 A1 I PV B3) as (A2 & E2). split; [exact A2|].
  set (X := x * 180 / PI). set (k := PI / value pi32). set (v := value t) in *.
  assert (K1 : 1 - 0.49 * u <= k <= 1).
  { unfold k. rewrite pi32_val, u_val. lra. }
  assert (K0 : 0 <= k) by (rewrite u_val in K1; lra).
  assert (XP : 0 <= Rabs X) by apply Rabs_pos.
  assert (E3 : Rabs (v / value pi32 - k * X) <= u * Rabs X + / 3 * tiny).
  { replace (v / value pi32 - k * X) with ((v - x * 180) * / value pi32) by (unfold X, k; field; split; [lra|exact PV]).
    rewrite Rabs_mult, Rabs_inv, HP.
    assert (EQ : Rabs (x * 180) = Rabs X * PI) by (replace (x * 180) with (X * PI) by (unfold X; field; lra); rewrite Rabs_mult, (Rabs_pos_eq PI) by lra; reflexivity).
    rewrite EQ in E1. assert (u * (Rabs X * PI) <= u * (Rabs X * (13176795 / 4194304))).
    { apply Rmult_le_compat_l; [rewrite u_val; lra|]. apply Rmult_le_compat_l; lra. }
    apply Rmult_le_reg_r with (13176795 / 4194304); [lra|]. rewrite Rmult_assoc, Rinv_l by lra. lra. }
  assert (E4 : Rabs (k * X - X) <= 0.49 * u * Rabs X).
  { replace (k * X - X) with (- ((1 - k) * X)) by ring. rewrite Rabs_Ropp, Rabs_mult, (Rabs_pos_eq (1 - k)) by lra. apply Rmult_le_compat_r; lra. }
  pose proof (Rabs_le_add _ _ _ _ _ E3 E4) as E5. pose proof (Rabs_bound_l _ _ _ E5) as E6.
  eapply Rle_trans; [apply (Rabs_le_add _ (v / value pi32)); [exact E2|exact E5]|].
  assert (u * Rabs (v / value pi32) <= u * (Rabs X + (u * Rabs X + / 3 * tiny + 0.49 * u * Rabs X))) by (apply Rmult_le_compat_l; [rewrite u_val; lra|exact E6]).
  rewrite u_val in *. lra.
Qed.

(** One division of a complex number by a real one. *)
Lemma smith_err a b c : number_of a -> number_of b -> number_of c -> p2 (-30) <= Rabs (value c) <= p2 30 -> Rabs (value a) < p2 70 -> Rabs (value b) < p2 70 ->
  exists x y, smith a b c (FZero false) = (x, y) /\ number_of x /\ number_of y /\
    Rabs (value x - value a / value c) <= (2 * u + u * u) * Rabs (value a / value c) + tiny /\
    Rabs (value y - value b / value c) <= (2 * u + u * u) * Rabs (value b / value c) + tiny.
Proof.
  intros Ha Hb Hc R BA BB. pose proof (abs_nonzero _ _ (p2_pos (-30)) (proj1 R)) as C0. destruct c as [| |t|t n f]; try contradiction.
  set (c := FFin t n f) in *. pose proof (p2_pos (-150)) as TP. assert (U0 : 0 <= u) by (rewrite u_val; lra).
  unfold smith. replace (flt_lt (fabs c) (fabs (FZero false))) with false.
  2:{ symmetry. unfold c, flt_lt, fcmp. cbn [fabs fexp]. unfold scaled. replace (Z.shiftl (Zpos n) (f - Z.min f 0) ?= 0)%Z with Gt; [reflexivity|].
      symmetry. apply Z.compare_gt_iff. rewrite Z.shiftl_mul_pow2 by lia. pose proof (Z.pow_pos_nonneg 2 (f - Z.min f 0) ltac:(lia) ltac:(lia)). lia. }
  replace (negb (truthy c) && negb (truthy (FZero false)))%bool with false by reflexivity.
  set (rat := div32 (FZero false) c). assert (RV : number_of rat /\ value rat = 0) by (unfold rat, c, div32, fdiv; split; [exact I|reflexivity]). destruct RV as (RN & RV).
  assert (ZM : forall z, number_of z -> number_of (mul32 z rat) /\ value (mul32 z rat) = 0).
  { intros z Hz. destruct (zero_value rat RN RV) as (s0 & ->). destruct z; try contradiction; split; trivial; exact I. }
  assert (CZ : add32 c (mul32 (FZero false) rat) = c) by (destruct (zero_value rat RN RV) as (s0 & ->); reflexivity). rewrite CZ.
  assert (F1 : value f1 = 1) by (unfold f1; cbn; lra).
  destruct (div32_err f1 c I Hc C0) as (SN & SE).
  { rewrite F1. split; [eapply Rle_trans; [|apply (quotient_low 1 _ (-30) 30 0); trivial; [apply p2_pos|rewrite Rabs_R1; apply Rle_refl]]; apply p2_le; lia|].
    eapply Rlt_le_trans; [apply (quotient_size 1 _ (-30) 30 1); trivial; [apply p2_pos|rewrite Rabs_R1, p2_1; lra]|]. apply p2_le. lia. }
  set (scl := div32 f1 c) in *. rewrite F1 in SE.
  assert (ONE : forall z z', number_of z' -> value z' = value z -> Rabs (value z) < p2 70 ->
    number_of (mul32 z' scl) /\ Rabs (value (mul32 z' scl) - value z / value c) <= (2 * u + u * u) * Rabs (value z / value c) + tiny).
  { intros z z' Hz Ez Bz. set (X := value z / value c).
    assert (D1 : Rabs (value z' * value scl - X) <= u * Rabs X).
    { rewrite Ez. replace (value z * value scl - X) with (value z * (value scl - 1 / value c)) by (unfold X; field; exact C0). rewrite Rabs_mult.
      eapply Rle_trans; [apply Rmult_le_compat_l; [apply Rabs_pos|exact SE]|].
      replace X with (value z * (1 / value c)) by (unfold X; field; exact C0). rewrite Rabs_mult. apply Req_le. ring. }
    assert (BX : Rabs X < p2 100) by (replace 100%Z with (70 - -30)%Z by lia; apply (quotient_size _ _ (-30) 30); trivial; apply p2_pos).
    pose proof (Rabs_bound_l _ _ _ D1) as D2. pose proof (Rabs_pos X) as XP. pose proof (p2_pos 100).
    destruct (mul32_err z' scl Hz SN) as (MN & ME).
    { eapply Rle_lt_trans; [exact D2|]. apply Rlt_le_trans with (2 * p2 100); [rewrite u_val; lra|]. rewrite <- p2_S. apply p2_le. lia. }
    split; [exact MN|]. eapply Rle_trans; [apply (Rabs_le_add _ _ _ _ _ ME D1)|].
    assert (u * Rabs (value z' * value scl) <= u * (Rabs X + u * Rabs X)) by (apply Rmult_le_compat_l; assumption). lra. }
  destruct (ZM a Ha) as (ZA1 & ZA2). destruct (ZM b Hb) as (ZB1 & ZB2).
  destruct (add32_zero a _ Ha ZB1 ZB2) as (PA1 & PA2). destruct (sub32_zero b _ Hb ZA1 ZA2) as (PB1 & PB2).
  destruct (ONE a _ PA1 PA2 BA) as (OA1 & OA2). destruct (ONE b _ PB1 PB2 BB) as (OB1 & OB2).
  do 2 eexists. split; [reflexivity|]. auto.
Qed.
(** Two of them. *)
Lemma elevation_err a b ro g : number_of a -> number_of b -> number_of ro -> number_of g ->
  p2 (-30) <= Rabs (value ro) <= p2 30 -> p2 (-30) <= Rabs (value g) <= p2 30 -> Rabs (value a) <= p2 30 -> Rabs (value b) <= p2 30 ->
  exists x y, divide32 (divide32 (CC a b) (CF ro)) (CF g) = CC x y /\ number_of x /\ number_of y /\
    Rabs (value x - value a / (value ro * value g)) <= (4 + / 1000) * u * Rabs (value a / (value ro * value g)) + tiny * (1 + 2 / Rabs (value g)) /\
    Rabs (value y - value b / (value ro * value g)) <= (4 + / 1000) * u * Rabs (value b / (value ro * value g)) + tiny * (1 + 2 / Rabs (value g)).
Proof.
  intros Ha Hb Hr Hg RR RG BA BB. pose proof (abs_nonzero _ _ (p2_pos (-30)) (proj1 RR)) as R0. pose proof (abs_nonzero _ _ (p2_pos (-30)) (proj1 RG)) as G0.
  assert (TP : 0 < tiny) by apply p2_pos. assert (T1 : tiny <= 1) by (change 1 with (p2 0); apply p2_le; lia).
  assert (P30 : p2 30 < p2 31) by (apply p2_lt; lia).
  assert (P70 : p2 31 < p2 70) by (apply p2_lt; lia).
  destruct (smith_err a b ro Ha Hb Hr RR ltac:(lra) ltac:(lra)) as (x & y & E1 & NX & NY & EX & EY).
  assert (BD : forall v z, Rabs (value v) <= p2 30 -> Rabs (value z - value v / value ro) <= (2 * u + u * u) * Rabs (value v / value ro) + tiny -> Rabs (value z) < p2 70).
  { intros v z Bv Ez. apply Rabs_bound_l in Ez. assert (B : Rabs (value v / value ro) < p2 (31 - -30)) by (apply (quotient_size _ _ (-30) 30); trivial; [apply p2_pos|lra]).
    change (31 - -30)%Z with 61%Z in B. apply Rlt_trans with (4 * p2 61).
    - pose proof (p2_ge1 61 ltac:(lia)). rewrite u_val in Ez. lra.
    - replace 4 with (p2 2) by (rewrite p2_nat by lia; reflexivity). rewrite <- p2_add. apply p2_lt. lia. }
  destruct (smith_err x y g NX NY Hg RG (BD a x BA EX) (BD b y BB EY)) as (x2 & y2 & E2 & NX2 & NY2 & EX2 & EY2).
  exists x2, y2. split; [cbn [divide32]; rewrite E1; cbn [divide32]; now rewrite E2|]. split; [exact NX2|]. split; [exact NY2|].
  assert (FIN : forall v z z2, Rabs (value z - value v / value ro) <= (2 * u + u * u) * Rabs (value v / value ro) + tiny ->
    Rabs (value z2 - value z / value g) <= (2 * u + u * u) * Rabs (value z / value g) + tiny ->
    Rabs (value z2 - value v / (value ro * value g)) <= (4 + / 1000) * u * Rabs (value v / (value ro * value g)) + tiny * (1 + 2 / Rabs (value g))).
  { intros v z z2 Q1 Q2. set (X := value v / (value ro * value g)). assert (GP : 0 < Rabs (value g)) by now apply Rabs_pos_lt.
    assert (GI : 0 < / Rabs (value g)) by now apply Rinv_0_lt_compat.
    assert (D1 : Rabs (value z / value g - X) <= (2 * u + u * u) * Rabs X + tiny * / Rabs (value g)).
    { replace (value z / value g - X) with ((value z - value v / value ro) * / value g) by (unfold X; field; auto). rewrite Rabs_mult, Rabs_inv.
      replace X with (value v / value ro * / value g) by (unfold X; field; auto). rewrite Rabs_mult, Rabs_inv.
      eapply Rle_trans; [apply Rmult_le_compat_r; [lra|exact Q1]|]. apply Req_le. ring. }
    pose proof (Rabs_bound_l _ _ _ D1) as D2. pose proof (Rabs_pos X) as XP. pose proof (Rabs_le_add _ _ _ _ _ Q2 D1) as D3.
    assert (TG : 0 < tiny * / Rabs (value g)) by now apply Rmult_lt_0_compat.
    assert (M : (2 * u + u * u) * Rabs (value z / value g) <= (2 * u + u * u) * (Rabs X + ((2 * u + u * u) * Rabs X + tiny * / Rabs (value g)))) by (apply Rmult_le_compat_l; [rewrite u_val; lra|exact D2]).
    set (G := tiny * / Rabs (value g)) in *. replace (tiny * (1 + 2 / Rabs (value g))) with (tiny + 2 * G) by (unfold G, Rdiv; ring).
    rewrite u_val in *. lra. }
  split; [exact (FIN a x x2 EX EX2)|exact (FIN b y y2 EY EY2)].
Qed.
