(** * ElemFloatNum: rounding errors of the matrices and of the surface values. *)
From Coq Require Import Reals List ZArith Lia Lra Psatz.
From Verif Require Import IeeeSpec IeeeFacts DotSpec DotProofs CalcFloat Elem ElemFloat.
Import ListNotations.
Open Scope R_scope.

Definition close (e x y : R) : Prop := Rabs (y - x) <= e.
Lemma close_refl e x : 0 <= e -> close e x x.
Proof. unfold close. now rewrite Rminus_diag_eq, Rabs_R0. Qed.
Lemma close_le e e' x y : e <= e' -> close e x y -> close e' x y.
Proof. unfold close. lra. Qed.
Lemma close_add e1 e2 x y x' y' : close e1 x x' -> close e2 y y' -> close (e1 + e2) (x + y) (x' + y').
Proof. unfold close. intros. replace (x' + y' - (x + y)) with ((x' - x) + (y' - y)) by ring. apply Rle_trans with (1 := Rabs_triang _ _). lra. Qed.
Lemma close_sub e1 e2 x y x' y' : close e1 x x' -> close e2 y y' -> close (e1 + e2) (x - y) (x' - y').
Proof. unfold close. intros. replace (x' - y' - (x - y)) with ((x' - x) + - (y' - y)) by ring. apply Rle_trans with (1 := Rabs_triang _ _). rewrite Rabs_Ropp. lra. Qed.
Lemma close_mul e1 e2 bx by_ x y x' y' : Rabs x <= bx -> Rabs y' <= by_ -> close e1 x x' -> close e2 y y' -> close (e1 * by_ + bx * e2) (x * y) (x' * y').
Proof.
  unfold close. intros. replace (x' * y' - x * y) with ((x' - x) * y' + x * (y' - y)) by ring. apply Rle_trans with (1 := Rabs_triang _ _). rewrite !Rabs_mult.
  apply Rplus_le_compat; apply Rmult_le_compat; try apply Rabs_pos; assumption.
Qed.
Lemma close_trans e1 e2 x y z : close e1 x y -> close e2 y z -> close (e1 + e2) x z.
Proof. unfold close. intros. replace (z - x) with ((y - x) + (z - y)) by ring. apply Rle_trans with (1 := Rabs_triang _ _). lra. Qed.
Lemma close_abs e b x y : Rabs x <= b -> close e x y -> Rabs y <= b + e.
Proof. unfold close. intros. replace y with (x + (y - x)) by ring. apply Rle_trans with (1 := Rabs_triang _ _). lra. Qed.
Lemma root3 : 1.732 <= sqrt 3 <= 1.7321.
Proof.
  pose proof (sqrt_sqrt 3 ltac:(lra)) as S. pose proof (sqrt_pos 3) as P. split.
  - destruct (Rle_or_lt 1.732 (sqrt 3)); [assumption|]. assert (sqrt 3 * sqrt 3 < 1.732 * 1.732) by (apply Rmult_le_0_lt_compat; lra). lra.
  - destruct (Rle_or_lt (sqrt 3) 1.7321); [assumption|]. assert (1.7321 * 1.7321 < sqrt 3 * sqrt 3) by (apply Rmult_le_0_lt_compat; lra). lra.
Qed.

Definition u1 : R := p2 (-24).
Definition u2 : R := p2 (-53).
Definition low1 : R := p2 (-149).
Definition low2 : R := p2 (-1074).
Definition large : R := p2 120.
Lemma u1_size : / 20000000 <= u1 <= / 10000000.
Proof. unfold u1. replace (-24)%Z with (- (24))%Z by reflexivity. pose proof (p2_add (-24) 24) as E. change (-24 + 24)%Z with 0%Z in E. rewrite (p2_nat 24) in E by lia. change (p2 0) with 1 in E. change (2 ^ 24)%Z with 16777216%Z in E. change (- (24))%Z with (-24)%Z. lra. Qed.
Lemma u2_u1 : 0 < u2 /\ 500000000 * u2 <= u1 /\ u2 <= / 1000000000000000.
Proof.
  unfold u2, u1. pose proof (p2_add (-53) 29) as E. change (-53 + 29)%Z with (-24)%Z in E. rewrite (p2_nat 29) in E by lia. change (2 ^ 29)%Z with 536870912%Z in E. pose proof (p2_pos (-53)). fold (p2 (-53)). split; [assumption|]. split; [lra|].
  pose proof (p2_add (-53) 53) as E2. change (-53 + 53)%Z with 0%Z in E2. rewrite (p2_nat 53) in E2 by lia. change (p2 0) with 1 in E2. change (2 ^ 53)%Z with 9007199254740992%Z in E2. lra.
Qed.
Lemma low2_small : 0 < low2 /\ 1000000 * low2 <= low1 /\ 1000000 * low2 <= u2 /\ low1 <= u2.
Proof.
  assert (H1 : p2 (-1074) * 1000000 <= p2 (-149)). { replace (-149)%Z with (-1074 + 925)%Z by reflexivity. rewrite p2_add. apply Rmult_le_compat_l; [apply Rlt_le, p2_pos|]. apply Rle_trans with (p2 20); [|apply p2_le; lia]. rewrite p2_nat by lia. apply IZR_le. vm_compute. discriminate. }
  assert (H2 : p2 (-149) <= p2 (-53)) by (apply p2_le; lia). pose proof u2_u1 as (U & _ & U'). unfold low1, low2, u2 in *. pose proof (p2_pos (-1074)). lra.
Qed.
Lemma large_size : 1000 <= large.
Proof. unfold large. apply Rle_trans with (p2 10); [|apply p2_le; lia]. rewrite p2_nat by lia. apply IZR_le. vm_compute. discriminate. Qed.

(** A rounding at least as good as one to single, to double precision *)
Definition good (u low : R) (rnd : R -> R) : Prop := forall x, Rabs x < large -> Rabs (rnd x - x) <= u * Rabs x + / 2 * low.
Lemma good_single rnd : rounds single rnd -> good u1 low1 rnd.
Proof. intros H x L. apply (rnd_any single rnd); [reflexivity|reflexivity|exact H|]. eapply Rlt_trans; [exact L|]. apply p2_lt. reflexivity. Qed.
Lemma good_double rnd : rounds double rnd -> good u2 low2 rnd.
Proof. intros H x L. apply (rnd_any double rnd); [reflexivity|reflexivity|exact H|]. eapply Rlt_trans; [exact L|]. apply p2_lt. reflexivity. Qed.
Lemma good_weak rnd : good u2 low2 rnd -> good u1 low1 rnd.
Proof. intros H x L. specialize (H x L). pose proof u2_u1. pose proof low2_small. pose proof (Rabs_pos x). assert (u2 * Rabs x <= u1 * Rabs x) by (apply Rmult_le_compat_r; lra). lra. Qed.
Lemma good_close u low rnd e b x y : 0 <= u -> good u low rnd -> Rabs x <= b -> close e x y -> b + e < large -> close (e + (u * (b + e) + / 2 * low)) x (rnd y).
Proof.
  intros U G B C L. pose proof (close_abs _ _ _ _ B C) as Y. apply (close_trans _ _ _ y); [exact C|]. unfold close. specialize (G y ltac:(lra)). assert (u * Rabs y <= u * (b + e)) by (apply Rmult_le_compat_l; lra). lra.
Qed.

Definition matclose (e : R) (a b : list (list R)) : Prop := Forall2 (Forall2 (close e)) a b.
Section Constants.
  Variable rd : R -> R.
  Hypothesis RD : rounds double rd.
  Notation s3 := (sqrt 3).
  Lemma lit x m e : x = IZR m * powerRZ 2 e -> (Z.abs m < 16)%Z -> (-4 <= e <= 0)%Z -> rd x = x.
  Proof using RD.
    intros E M K. apply (rnd_exact double rd RD).
    - rewrite E, Rabs_mult, (Rabs_right (powerRZ 2 e)) by (apply Rle_ge, Rlt_le, p2_pos). rewrite <- abs_IZR. apply Rle_lt_trans with (16 * 1).
      + apply Rmult_le_compat; [apply IZR_le; lia|apply Rlt_le, p2_pos|apply IZR_le; lia|apply (p2_le e 0); lia].
      + rewrite Rmult_1_r. apply Rlt_le_trans with (p2 5); [rewrite p2_nat by lia; apply IZR_lt; reflexivity|apply p2_le; cbn; lia].
    - exists m, e. split; [cbn [f_prec double]; lia|]. split; [cbn; lia|exact E].
  Qed.
  Lemma p2_m1 : powerRZ 2 (-1) = / 2. Proof. pose proof (p2_S (-1)) as E. change (p2 (-1 + 1)) with 1 in E. lra. Qed.
  Lemma p2_m2 : powerRZ 2 (-2) = / 4. Proof. pose proof (p2_S (-2)) as E. change (p2 (-2 + 1)) with (powerRZ 2 (-1)) in E. rewrite p2_m1 in E. lra. Qed.
  Ltac litR := try lia; try change (powerRZ 2 0) with 1; rewrite ?p2_m1, ?p2_m2; lra.
  Lemma lit2 : fadd rd 1 1 = 2.
  Proof using RD. unfold fadd. rewrite (lit (1 + 1) 2 0); litR. Qed.
  Lemma lit_half : fdiv rd 1 (fadd rd 1 1) = / 2.
  Proof using RD. rewrite lit2. unfold fdiv. rewrite (lit (1 / 2) 1 (-1)); litR. Qed.
  Lemma lit_quarter : fdiv rd 1 (fmul rd (fadd rd 1 1) (fadd rd 1 1)) = / 4.
  Proof using RD. rewrite lit2. unfold fmul, fdiv. rewrite (lit (2 * 2) 4 0); [|litR|lia|lia]. rewrite (lit (1 / (2 * 2)) 1 (-2)); litR. Qed.
  Lemma lit3 : fadd rd (fadd rd 1 1) 1 = 3.
  Proof using RD. rewrite lit2. unfold fadd. rewrite (lit (2 + 1) 3 0); litR. Qed.
  Lemma lit5 : fadd rd (fadd rd (fadd rd 1 1) 1) (fadd rd 1 1) = 5.
  Proof using RD. rewrite lit3, lit2. unfold fadd. rewrite (lit (3 + 2) 5 0); litR. Qed.

  Lemma near b e x y : Rabs x <= b -> b <= 8 -> e <= 1000 * u2 -> close e x y -> close (e + (b + 0.1) * u2) x (rd y).
  Proof using RD.
    intros B B8 E C. pose proof u2_u1. pose proof low2_small. pose proof large_size. eapply close_le; [|apply (good_close u2 low2 rd e b x y); [lra|apply good_double, RD|exact B|exact C|lra]].
    pose proof (Rabs_pos (y - x)). unfold close in C. assert (u2 * e <= u2 * 0.01) by (apply Rmult_le_compat_l; lra). lra.
  Qed.
  Lemma s3_near : close (2 * u2) s3 (s3_fl rd).
  Proof using RD.
    pose proof root3. pose proof u2_u1. unfold s3_fl, fsqrt. eapply close_le; [|apply (near 1.7321 0 s3 s3); [rewrite Rabs_right; lra|lra|lra|apply close_refl; lra]]. lra.
  Qed.
  Lemma plus_near : close (5 * u2) (1 + s3) (fadd rd 1 (s3_fl rd)).
  Proof using RD.
    pose proof root3. pose proof u2_u1. eapply close_le; [|apply (near 2.7321 (0 + 2 * u2)); [rewrite Rabs_right; lra|lra|lra|apply close_add; [apply close_refl; lra|exact s3_near]]]. lra.
  Qed.
  Lemma minus_near : close (3 * u2) (1 - s3) (fsub rd 1 (s3_fl rd)).
  Proof using RD.
    pose proof root3. pose proof u2_u1. eapply close_le; [|apply (near 0.7321 (0 + 2 * u2)); [rewrite Rabs_left; lra|lra|lra|apply close_sub; [apply close_refl; lra|exact s3_near]]]. lra.
  Qed.
  Lemma times e1 e2 b1 b2 x y x' y' : Rabs x <= b1 -> Rabs y <= b2 -> b1 <= 2.8 -> b2 <= 2.8 -> 0 <= e1 <= 10 * u2 -> 0 <= e2 <= 10 * u2 -> close e1 x x' -> close e2 y y' ->
    close (e1 * (b2 + 0.01) + b1 * e2 + 8 * u2) (x * y) (fmul rd x' y').
  Proof using RD.
    intros B1 B2 L1 L2 E1 E2 C1 C2. pose proof u2_u1. pose proof (Rabs_pos x). pose proof (Rabs_pos y). assert (B : Rabs (x * y) <= 7.84) by (rewrite Rabs_mult; apply Rle_trans with (b1 * b2); [apply Rmult_le_compat; lra|nra]).
    pose proof (close_abs _ _ _ _ B2 C2). unfold fmul. eapply close_le; [|apply (near 7.84 (e1 * (b2 + 0.01) + b1 * e2)); [exact B|lra| |apply close_mul; [exact B1|lra|exact C1|exact C2]]]; [lra|].
    assert (e1 * (b2 + 0.01) <= 10 * u2 * 3) by (apply Rmult_le_compat; lra). assert (b1 * e2 <= 2.8 * (10 * u2)) by (apply Rmult_le_compat; lra). lra.
  Qed.
  Lemma by_half b e x x' : Rabs x <= b -> b <= 2.8 -> 0 <= e <= 10 * u2 -> close e x x' -> close (e / 2 + 1.6 * u2) (x * (1 / (1 + 1))) (fmul rd x' (/ 2)).
  Proof using RD.
    intros B L E C. pose proof u2_u1. pose proof (Rabs_pos x). unfold fmul. replace (x * (1 / (1 + 1))) with (x / 2) by lra. eapply close_le; [|apply (near 1.4 (e / 2)); [|lra|lra|]]; [lra| |].
    - unfold Rdiv. rewrite Rabs_mult, (Rabs_right (/ 2)) by lra. lra.
    - unfold close in *. replace (x' * / 2 - x / 2) with ((x' - x) * / 2) by lra. rewrite Rabs_mult, (Rabs_right (/ 2)) by lra. lra.
  Qed.
  Lemma by_quarter e x x' : Rabs x <= 7.9 -> 0 <= e <= 100 * u2 -> close e x x' -> close (e / 4 + 2.1 * u2) (x * (1 / ((1 + 1) * (1 + 1)))) (fmul rd x' (/ 4)).
  Proof using RD.
    intros B E C. pose proof u2_u1. pose proof (Rabs_pos x). unfold fmul. replace (x * (1 / ((1 + 1) * (1 + 1)))) with (x / 4) by lra. eapply close_le; [|apply (near 1.975 (e / 4)); [|lra|lra|]]; [lra| |].
    - unfold Rdiv. rewrite Rabs_mult, (Rabs_right (/ 4)) by lra. lra.
    - unfold close in *. replace (x' * / 4 - x / 4) with ((x' - x) * / 4) by lra. rewrite Rabs_mult, (Rabs_right (/ 4)) by lra. lra.
  Qed.
  Lemma one_near : close 0 1 1. Proof. apply close_refl. lra. Qed.
  Lemma abs_plus : Rabs (1 + s3) <= 2.7321. Proof. pose proof root3. rewrite Rabs_right; lra. Qed.
  Lemma abs_minus : Rabs (1 - s3) <= 0.7321. Proof. pose proof root3. rewrite Rabs_left; lra. Qed.
  Notation two := (1 + 1).
  Theorem xbm3_near : matclose (5 * u2) (xbm3 1 Rplus Rmult Rminus Rdiv s3) (xbm3_fl rd).
  Proof using RD.
    pose proof u2_u1. unfold xbm3_fl, xbm3, half, Elem.two. rewrite lit_half. cbn [scale map].
    assert (P : close (5 * u2) ((1 + s3) * (1 / two)) (fmul rd (fadd rd 1 (s3_fl rd)) (/ 2))) by (eapply close_le; [|apply (by_half 2.7321 (5 * u2)); [exact abs_plus|lra|lra|exact plus_near]]; lra).
    assert (Q : close (5 * u2) ((1 - s3) * (1 / two)) (fmul rd (fsub rd 1 (s3_fl rd)) (/ 2))) by (eapply close_le; [|apply (by_half 0.7321 (3 * u2)); [exact abs_minus|lra|lra|exact minus_near]]; lra).
    assert (S : close (5 * u2) (1 * (1 / two)) (fmul rd 1 (/ 2))) by (eapply close_le; [|apply (by_half 1 0); [rewrite Rabs_right; lra|lra|lra|exact one_near]]; lra).
    repeat (constructor; [repeat (constructor; [assumption|]); constructor|]). constructor.
  Qed.
  Theorem xquad_near : matclose (15 * u2) (xquad 1 Rplus Rmult Rminus Rdiv s3) (xquad_fl rd).
  Proof using RD.
    pose proof u2_u1. unfold xquad_fl, xquad, quarter, Elem.two. rewrite lit_quarter. cbn [scale map].
    assert (K : forall e1 e2 b1 b2 x y x' y', Rabs x <= b1 -> Rabs y <= b2 -> b1 <= 2.8 -> b2 <= 2.8 -> 0 <= e1 <= 5 * u2 -> 0 <= e2 <= 5 * u2 -> close e1 x x' -> close e2 y y' -> close (15 * u2) (x * y * (1 / (two * two))) (fmul rd (fmul rd x' y') (/ 4))).
    { intros e1 e2 b1 b2 x y x' y' X Y X' Y' E1 E2 C1 C2. pose proof (Rabs_pos x). pose proof (Rabs_pos y). pose proof (times e1 e2 b1 b2 x y x' y' X Y X' Y' ltac:(lra) ltac:(lra) C1 C2) as T.
      assert (e1 * (b2 + 0.01) <= 5 * u2 * 2.81) by (apply Rmult_le_compat; lra). assert (b1 * e2 <= 2.8 * (5 * u2)) by (apply Rmult_le_compat; lra). apply (close_le _ (37 * u2)) in T; [|lra].
      eapply close_le; [|apply (by_quarter (37 * u2)); [|lra|exact T]]; [lra|]. rewrite Rabs_mult. apply Rle_trans with (2.8 * 2.8); [apply Rmult_le_compat; lra|lra]. }
    pose proof abs_plus as AP. pose proof abs_minus as AM. pose proof plus_near as PN. pose proof minus_near as MN.
    assert (PP := K (5 * u2) (5 * u2) 2.7321 2.7321 _ _ _ _ AP AP ltac:(lra) ltac:(lra) ltac:(lra) ltac:(lra) PN PN). assert (PM := K (5 * u2) (3 * u2) 2.7321 0.7321 _ _ _ _ AP AM ltac:(lra) ltac:(lra) ltac:(lra) ltac:(lra) PN MN).
    assert (MP := K (3 * u2) (5 * u2) 0.7321 2.7321 _ _ _ _ AM AP ltac:(lra) ltac:(lra) ltac:(lra) ltac:(lra) MN PN). assert (MM := K (3 * u2) (3 * u2) 0.7321 0.7321 _ _ _ _ AM AM ltac:(lra) ltac:(lra) ltac:(lra) ltac:(lra) MN MN).
    assert (P : close (15 * u2) ((1 + s3) * (1 / (two * two))) (fmul rd (fadd rd 1 (s3_fl rd)) (/ 4))) by (eapply close_le; [|apply (by_quarter (5 * u2)); [lra|lra|exact PN]]; lra).
    assert (M : close (15 * u2) ((1 - s3) * (1 / (two * two))) (fmul rd (fsub rd 1 (s3_fl rd)) (/ 4))) by (eapply close_le; [|apply (by_quarter (3 * u2)); [lra|lra|exact MN]]; lra).
    repeat (constructor; [repeat (constructor; [assumption|]); constructor|]). constructor.
  Qed.
  Theorem xtri_near : matclose (2 * u2) (xtri 1 Rplus Ropp Rdiv) (xtri_fl rd).
  Proof using RD.
    pose proof u2_u1. unfold xtri_fl, xtri, five, three, Elem.two. rewrite lit5, lit3, lit2.
    assert (K : forall x y, x = y -> Rabs x <= 1.67 -> close (2 * u2) x (rd y)). { intros x y <- X. eapply close_le; [|apply (near 1.67 0 x x); [exact X|lra|lra|apply close_refl; lra]]. lra. }
    assert (F : close (2 * u2) ((1 + 1 + 1 + (1 + 1)) / (1 + 1 + 1)) (fdiv rd 5 3)) by (apply K; [lra|rewrite Rabs_right; lra]).
    assert (T : close (2 * u2) ((1 + 1) / (1 + 1 + 1)) (fdiv rd 2 3)) by (apply K; [lra|rewrite Rabs_right; lra]).
    assert (O : close (2 * u2) (- (1) / (1 + 1 + 1)) (fdiv rd (- (1)) 3)) by (apply K; [lra|rewrite Rabs_left; lra]).
    repeat (constructor; [repeat (constructor; [assumption|]); constructor|]). constructor.
  Qed.
End Constants.
Section Surface.
  Variables rs rd ra : R -> R.
  Hypothesis RD : rounds double rd.
  Hypothesis GS : good u1 low1 rs.
  Hypothesis GA : good u1 low1 ra.
  Notation s3 := (sqrt 3).
  Notation a := (s3 / 3).
  Lemma a_size : 0.577 <= a <= 0.5774. Proof. pose proof root3. lra. Qed.
  Lemma a_near : close (2 * u2) a (a_fl rd).
  Proof using RD.
    pose proof a_size. pose proof u2_u1. unfold a_fl, fdiv. eapply close_le; [|apply (near rd RD 0.5774 (2 * u2 / 3)); [rewrite Rabs_right; lra|lra|lra|]]; [lra|].
    pose proof (s3_near rd RD) as C. unfold close in *. replace (s3_fl rd / 3 - s3 / 3) with ((s3_fl rd - s3) * / 3) by lra. rewrite Rabs_mult, (Rabs_right (/ 3)) by lra. lra.
  Qed.
  Lemma twice_near : close (6 * u2) (2 * a) (fmul rd 2 (a_fl rd)).
  Proof using RD.
    pose proof a_size. pose proof u2_u1. unfold fmul. eapply close_le; [|apply (near rd RD 1.1548 (4 * u2)); [rewrite Rabs_right; lra|lra|lra|]]; [lra|].
    pose proof a_near as C. unfold close in *. replace (2 * a_fl rd - 2 * a) with (2 * (a_fl rd - a)) by lra. rewrite Rabs_mult, (Rabs_right 2) by lra. lra.
  Qed.
  Lemma ratio_near n N e : Rabs N <= 1.5774 -> e <= 4 * u2 -> close e N n -> Rabs (N / (2 * a)) <= 1.37 -> close (20 * u2) (N / (2 * a)) (fdiv rd n (fmul rd 2 (a_fl rd))).
  Proof using RD.
    intros NB E C Q. pose proof a_size. pose proof u2_u1. pose proof twice_near as D. set (d := fmul rd 2 (a_fl rd)) in *. unfold fdiv. eapply close_le; [|apply (near rd RD 1.37 (15 * u2)); [exact Q|lra|lra|]]; [lra|].
    unfold close in *. apply Rabs_le_between in D || apply Rabs_def2 in D || idtac. assert (D' : 1.15 <= d). { pose proof (Rle_abs (2 * a - d)). rewrite Rabs_minus_sym in D. lra. }
    replace (n / d - N / (2 * a)) with (((n - N) - N / (2 * a) * (d - 2 * a)) * / d) by (field; lra). rewrite Rabs_mult, (Rabs_right (/ d)) by (apply Rle_ge, Rlt_le, Rinv_0_lt_compat; lra).
    assert (/ d <= / 1.15) by (apply Rinv_le_contravar; lra). assert (Rabs (n - N - N / (2 * a) * (d - 2 * a)) <= 4 * u2 + 1.37 * (6 * u2)).
    { apply Rle_trans with (1 := Rabs_triang _ _). rewrite Rabs_Ropp, Rabs_mult. apply Rplus_le_compat; [lra|]. apply Rmult_le_compat; try apply Rabs_pos; assumption. }
    apply Rle_trans with ((4 * u2 + 1.37 * (6 * u2)) * / 1.15); [|lra]. apply Rmult_le_compat; [apply Rabs_pos|apply Rlt_le, Rinv_0_lt_compat; lra|assumption|assumption].
  Qed.
  Lemma lower_size : -0.367 <= (-1 + a) / (2 * a) <= -0.365.
  Proof. pose proof a_size. replace ((-1 + a) / (2 * a)) with (/ 2 - / (2 * a)) by (field; lra). assert (/ (2 * a) <= / 1.154) by (apply Rinv_le_contravar; lra). assert (/ 1.1548 <= / (2 * a)) by (apply Rinv_le_contravar; lra). lra. Qed.
  Lemma upper_size : 1.365 <= (1 + a) / (2 * a) <= 1.367.
  Proof. pose proof a_size. replace ((1 + a) / (2 * a)) with (/ 2 + / (2 * a)) by (field; lra). assert (/ (2 * a) <= / 1.154) by (apply Rinv_le_contravar; lra). assert (/ 1.1548 <= / (2 * a)) by (apply Rinv_le_contravar; lra). lra. Qed.
  Lemma c_lower_near : close (20 * u2) ((-1 + a) / (2 * a)) (c_lower rd).
  Proof using RD.
    pose proof lower_size. pose proof a_size. pose proof u2_u1. apply (ratio_near _ _ (4 * u2)); [rewrite Rabs_left; lra|lra| |rewrite Rabs_left; lra]. unfold fadd. eapply close_le; [|apply (near rd RD 0.43 (0 + 2 * u2)); [rewrite Rabs_left; lra|lra|lra|apply close_add; [apply close_refl; lra|exact a_near]]]. lra.
  Qed.
  Lemma c_upper_near : close (20 * u2) ((1 + a) / (2 * a)) (c_upper rd).
  Proof using RD.
    pose proof upper_size. pose proof a_size. pose proof u2_u1. apply (ratio_near _ _ (4 * u2)); [rewrite Rabs_right; lra|lra| |rewrite Rabs_right; lra]. unfold fadd. eapply close_le; [|apply (near rd RD 1.5774 (0 + 2 * u2)); [rewrite Rabs_right; lra|lra|lra|apply close_add; [apply close_refl; lra|exact a_near]]]. lra.
  Qed.
  (** One value at a surface from those at the two points *)
  Lemma surface_near M c c' lp up : 0 <= M -> 100 * M < large -> Rabs lp <= M -> Rabs up <= M -> Rabs c <= 1.367 -> Rabs (1 - c) + Rabs c <= 1.74 -> close (20 * u2) c c' ->
    close ((6.2 * Rabs c + 3.6) * (u1 * M + low1)) (lp + c * (up - lp)) (surface_fl rs ra c' lp up).
  Proof using GS GA.
    intros M0 ML LP UP C1 C2 CC. pose proof u1_size as U. pose proof u2_u1 as (W0 & W1 & W2). pose proof low2_small as (L0 & L1 & L2 & L3). pose proof large_size as LS.
    assert (UM : 0 <= u1 * M) by (apply Rmult_le_pos; lra). assert (UU : u1 * M * u1 <= u1 * M * / 10000000) by (apply Rmult_le_compat_l; lra). pose proof (Rabs_pos c) as CP. set (q := Rabs c) in *.
    assert (LW : 0 <= low1) by lra. assert (UL : u1 * low1 <= / 10000000 * low1) by (apply Rmult_le_compat_r; lra). assert (UMM : u1 * M <= / 10000000 * M) by (apply Rmult_le_compat_r; lra).
    (* difference *)
    assert (DB : Rabs (up - lp) <= 2 * M). { unfold Rminus. apply Rle_trans with (1 := Rabs_triang _ _). rewrite Rabs_Ropp. lra. }
    assert (D : close (2 * (u1 * M) + / 2 * low1) (up - lp) (fsub rs up lp)). { unfold fsub. eapply close_le; [|apply (good_close u1 low1 rs 0 (2 * M) (up - lp) (up - lp)); [lra|exact GS|exact DB|apply close_refl; lra|lra]]. lra. }
    assert (DF : Rabs (fsub rs up lp) <= 2.001 * M + low1) by (eapply Rle_trans; [exact (close_abs _ _ _ _ DB D)|lra]).
    (* the factor *)
    assert (UW : u1 * u2 <= / 10000000 * u2) by (apply Rmult_le_compat_r; lra).
    assert (F : close (u1 * (q + 0.000001)) c (ra c')).
    { eapply close_le; [|apply (good_close u1 low1 ra (20 * u2) q c c'); [lra|exact GA|apply Rle_refl|exact CC|lra]]. lra. }
    (* the product *)
    set (d := fsub rs up lp) in *. assert (QM : q * (u1 * M) <= 1.367 * (u1 * M)) by (apply Rmult_le_compat_r; lra). assert (QM0 : 0 <= q * (u1 * M)) by (apply Rmult_le_pos; lra).
    assert (QL : q * low1 <= 1.367 * low1) by (apply Rmult_le_compat_r; lra). assert (QL0 : 0 <= q * low1) by (apply Rmult_le_pos; lra). assert (QMM : q * M <= 1.367 * M) by (apply Rmult_le_compat_r; lra).
    assert (QUU : 0 <= q * (u1 * M) * u1 <= q * (u1 * M) * / 10000000) by (split; [apply Rmult_le_pos; lra|apply Rmult_le_compat_l; lra]).
    assert (QUL : 0 <= q * low1 * u1 <= q * low1 * / 10000000) by (split; [apply Rmult_le_pos; lra|apply Rmult_le_compat_l; lra]).
    assert (P0 : close (4.002 * (q * (u1 * M)) + 0.00001 * (u1 * M) + 0.51 * (q * low1) + 0.0001 * low1) (c * (up - lp)) (ra c' * d)).
    { eapply close_le; [|apply (close_mul (u1 * (q + 0.000001)) (2 * (u1 * M) + / 2 * low1) q (2.001 * M + low1)); [apply Rle_refl|exact DF|exact F|exact D]]. lra. }
    set (e0 := 4.002 * (q * (u1 * M)) + 0.00001 * (u1 * M) + 0.51 * (q * low1) + 0.0001 * low1) in *. assert (E0 : 0 <= e0 /\ u1 * e0 <= / 10000000 * e0) by (assert (0 <= e0) by (unfold e0; lra); split; [assumption|apply Rmult_le_compat_r; lra]).
    assert (PB : Rabs (c * (up - lp)) <= q * (2 * M)) by (rewrite Rabs_mult; apply Rmult_le_compat; [apply Rabs_pos|apply Rabs_pos|apply Rle_refl|exact DB]).
    assert (P1 : close (1.000001 * e0 + 2 * (q * (u1 * M)) + / 2 * low1) (c * (up - lp)) (fmul ra (ra c') d)).
    { unfold fmul. eapply close_le; [|apply (good_close u1 low1 ra e0 (q * (2 * M))); [lra|exact GA|exact PB|exact P0|unfold e0; lra]]. lra. }
    set (e1 := 1.000001 * e0 + 2 * (q * (u1 * M)) + / 2 * low1) in *. assert (E1 : 0 <= e1 /\ u1 * e1 <= / 10000000 * e1) by (assert (0 <= e1) by (unfold e1; lra); split; [assumption|apply Rmult_le_compat_r; lra]).
    (* the sum, stored *)
    assert (SB : Rabs (lp + c * (up - lp)) <= 1.74 * M).
    { replace (lp + c * (up - lp)) with ((1 - c) * lp + c * up) by ring. apply Rle_trans with (1 := Rabs_triang _ _). rewrite !Rabs_mult. fold q. assert (Rabs (1 - c) * Rabs lp <= Rabs (1 - c) * M) by (apply Rmult_le_compat_l; [apply Rabs_pos|exact LP]). assert (q * Rabs up <= q * M) by (apply Rmult_le_compat_l; assumption).
      assert ((Rabs (1 - c) + q) * M <= 1.74 * M) by (apply Rmult_le_compat_r; assumption). lra. }
    assert (S0 : close (0 + e1) (lp + c * (up - lp)) (lp + fmul ra (ra c') d)) by (apply close_add; [apply close_refl; lra|exact P1]).
    assert (E1s : e1 <= M + 10 * low1) by (unfold e1, e0; lra).
    assert (S1 : close (1.000001 * e1 + 1.74 * (u1 * M) + / 2 * low1) (lp + c * (up - lp)) (fadd ra lp (fmul ra (ra c') d))).
    { unfold fadd. eapply close_le; [|apply (good_close u1 low1 ra (0 + e1) (1.74 * M)); [lra|exact GA|exact SB|exact S0|lra]]. lra. }
    set (e2 := 1.000001 * e1 + 1.74 * (u1 * M) + / 2 * low1) in *. assert (E2 : 0 <= e2 /\ u1 * e2 <= / 10000000 * e2) by (assert (0 <= e2) by (unfold e2; lra); split; [assumption|apply Rmult_le_compat_r; lra]).
    unfold surface_fl. fold d. eapply close_le; [|apply (good_close u1 low1 rs e2 (1.74 * M)); [lra|exact GS|exact SB|exact S1|unfold e2; lra]].
    apply Rle_trans with (1.000001 * e2 + 1.74 * (u1 * M) + / 2 * low1); [lra|]. unfold e2, e1, e0. lra.
  Qed.
  Definition lower_c : R := (-1 + a) / (2 * a).
  Definition upper_c : R := (1 + a) / (2 * a).
  Lemma lower_near M lp up : 0 <= M -> 100 * M < large -> Rabs lp <= M -> Rabs up <= M -> close (6 * (u1 * M + low1)) (to_lower 1 Rplus Rmult Rminus Ropp Rdiv s3 lp up) (surface_fl rs ra (c_lower rd) lp up).
  Proof using RD GS GA.
    intros M0 ML LP UP. pose proof lower_size as L. fold lower_c in L. pose proof u1_size. pose proof low2_small. assert (0 <= u1 * M) by (apply Rmult_le_pos; lra).
    assert (E : to_lower 1 Rplus Rmult Rminus Ropp Rdiv s3 lp up = lp + lower_c * (up - lp)). { unfold to_lower, lower_c, three, Elem.two. pose proof root3. field. lra. } rewrite E.
    eapply close_le; [|apply (surface_near M lower_c _ lp up M0 ML LP UP); [rewrite Rabs_left; lra|rewrite (Rabs_right (1 - lower_c)), (Rabs_left lower_c); lra|exact c_lower_near]].
    rewrite (Rabs_left lower_c) by lra. assert (- lower_c * (u1 * M + low1) <= 0.367 * (u1 * M + low1)) by (apply Rmult_le_compat_r; lra). lra.
  Qed.
  Lemma upper_near M lp up : 0 <= M -> 100 * M < large -> Rabs lp <= M -> Rabs up <= M -> close (12.1 * (u1 * M + low1)) (to_upper 1 Rplus Rmult Rminus Rdiv s3 lp up) (surface_fl rs ra (c_upper rd) lp up).
  Proof using RD GS GA.
    intros M0 ML LP UP. pose proof upper_size as L. fold upper_c in L. pose proof u1_size. pose proof low2_small. assert (0 <= u1 * M) by (apply Rmult_le_pos; lra).
    assert (E : to_upper 1 Rplus Rmult Rminus Rdiv s3 lp up = lp + upper_c * (up - lp)). { unfold to_upper, upper_c, three, Elem.two. pose proof root3. field. lra. } rewrite E.
    eapply close_le; [|apply (surface_near M upper_c _ lp up M0 ML LP UP); [rewrite Rabs_right; lra|rewrite (Rabs_left (1 - upper_c)), (Rabs_right upper_c); lra|exact c_upper_near]].
    rewrite (Rabs_right upper_c) by lra. assert (upper_c * (u1 * M + low1) <= 1.367 * (u1 * M + low1)) by (apply Rmult_le_compat_r; lra). lra.
  Qed.
  Lemma surface_sizes M lp up : 0 <= M -> Rabs lp <= M -> Rabs up <= M -> Rabs (to_lower 1 Rplus Rmult Rminus Ropp Rdiv s3 lp up) <= 1.74 * M /\ Rabs (to_upper 1 Rplus Rmult Rminus Rdiv s3 lp up) <= 1.74 * M.
  Proof.
    intros M0 LP UP. pose proof upper_size as Q. fold upper_c in Q. pose proof lower_size as L. fold lower_c in L.
    assert (K : forall c, Rabs (1 - c) + Rabs c <= 1.74 -> Rabs (lp + c * (up - lp)) <= 1.74 * M).
    { intros c C. replace (lp + c * (up - lp)) with ((1 - c) * lp + c * up) by ring. apply Rle_trans with (1 := Rabs_triang _ _). rewrite !Rabs_mult. assert (Rabs (1 - c) * Rabs lp <= Rabs (1 - c) * M) by (apply Rmult_le_compat_l; [apply Rabs_pos|exact LP]). assert (Rabs c * Rabs up <= Rabs c * M) by (apply Rmult_le_compat_l; [apply Rabs_pos|assumption]).
      assert ((Rabs (1 - c) + Rabs c) * M <= 1.74 * M) by (apply Rmult_le_compat_r; assumption). lra. }
    split.
    - replace (to_lower 1 Rplus Rmult Rminus Ropp Rdiv s3 lp up) with (lp + lower_c * (up - lp)); [apply K; rewrite (Rabs_right (1 - lower_c)), (Rabs_left lower_c); lra|]. unfold to_lower, lower_c, three, Elem.two. pose proof root3. field. lra.
    - replace (to_upper 1 Rplus Rmult Rminus Rdiv s3 lp up) with (lp + upper_c * (up - lp)); [apply K; rewrite (Rabs_left (1 - upper_c)), (Rabs_right upper_c); lra|]. unfold to_upper, upper_c, three, Elem.two. pose proof root3. field. lra.
  Qed.
End Surface.
