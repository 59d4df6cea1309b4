(** * FloatArith: products, quotients and sums of floats as real numbers. *)
From Coq Require Import Reals ZArith Lia Lra.
From Verif Require Import Base Flt FltProofs RoundSpec RoundProofs IeeeSpec IeeeFacts IeeeExists FltValue FloatReal FloatOps HydroFloat.
Open Scope R_scope.

Lemma fin_value s m e : value (FFin s m e) = sg s * (IZR (Zpos m) * p2 e). Proof. cbn [value]. unfold sg. ring. Qed.
Lemma fin_pos m e : 0 < IZR (Zpos m) * p2 e.
Proof. apply Rmult_lt_0_compat; [apply (IZR_lt 0); lia|apply p2_pos]. Qed.
Lemma fin_nonzero s m e : value (FFin s m e) <> 0.
Proof. rewrite fin_value. pose proof (fin_pos m e). destruct s; unfold sg; lra. Qed.
Lemma sg_xor s t : sg (xorb s t) = sg s * sg t. Proof. destruct s, t; unfold sg; cbn [xorb]; lra. Qed.
Lemma nearest_0 : nearest single 0 0.
Proof.
  split; [exists 0%Z, (-149)%Z; cbn; repeat split; try lia; ring|]. intros z _. replace (0 - 0) with 0 by ring. rewrite Rabs_R0. apply Rabs_pos.
Qed.

Lemma mul32_near a b : number_of a -> number_of b -> Rabs (value a * value b) < p2 127 ->
  number_of (mul32 a b) /\ nearest single (value a * value b) (value (mul32 a b)).
Proof.
  intros Ha Hb HB. destruct a as [| |s|s m e]; try contradiction; destruct b as [| |t|t n f]; try contradiction; unfold mul32, fmul;
    try (cbn [value]; rewrite ?Rmult_0_l, ?Rmult_0_r; split; [exact I|apply nearest_0]).
  cbn [fsign]. rewrite !fin_value in *. replace (sg s * (IZR (Zpos m) * p2 e) * (sg t * (IZR (Zpos n) * p2 f))) with (sg (xorb s t) * real_of (mkNum (Zpos (m * n)) 1 (e + f))) in *.
  - apply rounded_near; cbn [x_den x_num]; try lia; [apply fmk_rounded; lia|]. rewrite sg_abs in HB. eapply Rle_lt_trans; [apply Rle_abs|exact HB].
  - unfold real_of. cbn [x_num x_den x_exp]. rewrite sg_xor, p2_add. change (Zpos (m * n)) with (Zpos m * Zpos n)%Z. rewrite mult_IZR. field.
Qed.
Lemma div32_near a b : number_of a -> number_of b -> value b <> 0 -> Rabs (value a / value b) < p2 127 ->
  number_of (div32 a b) /\ nearest single (value a / value b) (value (div32 a b)).
Proof.
  intros Ha Hb H0 HB. destruct b as [| |t|t n f]; try contradiction. destruct a as [| |s|s m e]; try contradiction; unfold div32, fdiv.
  { cbn [value]. unfold Rdiv. rewrite Rmult_0_l. split; [exact I|apply nearest_0]. }
  cbn [fsign]. rewrite !fin_value in *. pose proof (fin_pos n f) as P. pose proof (p2_pos f) as Pf. assert (IZR (Zpos n) <> 0) by (apply not_0_IZR; lia).
  replace (sg s * (IZR (Zpos m) * p2 e) / (sg t * (IZR (Zpos n) * p2 f))) with (sg (xorb s t) * real_of (mkNum (Zpos m) (Zpos n) (e - f))) in *.
  - apply rounded_near; cbn [x_den x_num]; try lia; [apply quot_rounded; lia|]. rewrite sg_abs in HB. eapply Rle_lt_trans; [apply Rle_abs|exact HB].
  - unfold real_of. cbn [x_num x_den x_exp]. rewrite sg_xor. replace (p2 e) with (p2 (e - f) * p2 f) by (rewrite <- p2_add; f_equal; lia).
    assert (sg t <> 0) by (destruct t; unfold sg; lra). replace (sg s * sg t) with (sg s * (sg t * sg t) / sg t) by (field; assumption). rewrite sg_sq. field. repeat split; lra || assumption.
Qed.
(** Sums with a zero. *)
Lemma add32_zero a z : number_of a -> number_of z -> value z = 0 -> number_of (add32 a z) /\ value (add32 a z) = value a.
Proof.
  intros Ha Hz H0. destruct z as [| |t|t n f]; try contradiction; [|now apply fin_nonzero in H0]. destruct a as [| |s|s m e]; try contradiction; split; trivial; exact I.
Qed.
Lemma fneg_value a : number_of a -> number_of (fneg a) /\ value (fneg a) = - value a.
Proof. destruct a as [| |s|s m e]; intro H; try contradiction; (split; [exact I|]); cbn [fneg value]; [ring|]. destruct s; cbn [negb]; ring. Qed.
Lemma sub32_zero a z : number_of a -> number_of z -> value z = 0 -> number_of (sub32 a z) /\ value (sub32 a z) = value a.
Proof. intros Ha Hz H0. destruct (fneg_value z Hz) as (A & B). apply add32_zero; trivial. rewrite B, H0. ring. Qed.
(** Sums of single-precision numbers. *)
Lemma scaled_value f e0 : number_of f -> (match f with FFin _ _ e => e0 <= e | _ => True end)%Z -> value f = IZR (scaled f e0) * p2 e0.
Proof.
  intros H L. destruct f as [| |s|s m e]; try contradiction; cbn [value scaled]; [ring|].
  replace (IZR (if s then - Z.shiftl (Zpos m) (e - e0) else Z.shiftl (Zpos m) (e - e0))) with (sg s * (IZR (Zpos m) * p2 (e - e0))).
  - replace (p2 e) with (p2 (e - e0) * p2 e0) by (rewrite <- p2_add; f_equal; lia). destruct s; unfold sg; ring.
  - rewrite Z.shiftl_mul_pow2 by lia. pose proof (p2_Z (e - e0) 0 ltac:(lia)) as K. rewrite Z.add_0_r in K. change (p2 0) with 1 in K.
    destruct s; rewrite ?opp_IZR, mult_IZR, K; unfold sg; ring.
Qed.
Lemma nearest_self x : representable single x -> nearest single x x.
Proof. intro H. split; [exact H|]. intros z _. replace (x - x) with 0 by ring. rewrite Rabs_R0. apply Rabs_pos. Qed.
Lemma add32_near a b : number_of a -> number_of b -> representable single (value a) -> representable single (value b) -> Rabs (value a + value b) < p2 127 ->
  number_of (add32 a b) /\ nearest single (value a + value b) (value (add32 a b)).
Proof.
  intros Ha Hb Ra Rb HB. destruct a as [| |s|s m e]; try contradiction; destruct b as [| |t|t n f]; try contradiction; unfold add32, fplus.
  - cbn [value]. rewrite Rplus_0_l. split; [exact I|apply nearest_0].
  - replace (value (FZero s) + value (FFin t n f)) with (value (FFin t n f)) by (cbn [value]; ring). split; [exact I|now apply nearest_self].
  - replace (value (FFin s m e) + value (FZero t)) with (value (FFin s m e)) by (cbn [value]; ring). split; [exact I|now apply nearest_self].
  - cbn [fexp]. cbv zeta. set (e0 := Z.min e f). pose proof (scaled_value (FFin s m e) e0 I ltac:(cbn; lia)) as Va. pose proof (scaled_value (FFin t n f) e0 I ltac:(cbn; lia)) as Vb.
    rewrite Va, Vb, <- Rmult_plus_distr_r, <- plus_IZR in *. destruct (scaled (FFin s m e) e0 + scaled (FFin t n f) e0)%Z as [|p|p].
    + cbn [value]. rewrite Rmult_0_l. split; [exact I|apply nearest_0].
    + replace (IZR (Zpos p) * p2 e0) with (sg false * real_of (mkNum (Zpos p) 1 e0)) in * by (unfold sg, real_of; cbn [x_num x_den x_exp]; field).
      apply rounded_near; cbn [x_den x_num]; try lia; [apply fmk_rounded; lia|]. rewrite sg_abs in HB. eapply Rle_lt_trans; [apply Rle_abs|exact HB].
    + replace (IZR (Zneg p) * p2 e0) with (sg true * real_of (mkNum (Zpos p) 1 e0)) in * by (unfold sg, real_of; cbn [x_num x_den x_exp]; change (Zneg p) with (- Zpos p)%Z; rewrite opp_IZR; field).
      apply rounded_near; cbn [x_den x_num]; try lia; [apply fmk_rounded; lia|]. rewrite sg_abs in HB. eapply Rle_lt_trans; [apply Rle_abs|exact HB].
Qed.
Lemma sub32_near a b : number_of a -> number_of b -> representable single (value a) -> representable single (value b) -> Rabs (value a - value b) < p2 127 ->
  number_of (sub32 a b) /\ nearest single (value a - value b) (value (sub32 a b)).
Proof.
  intros Ha Hb Ra Rb HB. destruct (fneg_value b Hb) as (A & B). replace (value a - value b) with (value a + value (fneg b)) in * by (rewrite B; ring).
  apply (add32_near a (fneg b)); trivial. rewrite B. destruct Rb as (m & e & M & E & ->). exists (- m)%Z, e. rewrite Z.abs_opp, opp_IZR. repeat split; try assumption; try apply E. ring.
Qed.
Lemma zero_value a : number_of a -> value a = 0 -> exists s, a = FZero s.
Proof. destruct a as [| |s|s m e]; intros H V; try contradiction; [eauto|]. now apply fin_nonzero in V. Qed.

(** With errors. *)
Notation u := (p2 (-24)).
Notation tiny := (p2 (-150)).
Lemma half_low : / 2 * p2 (-149) = tiny. Proof. replace (-149)%Z with (-150 + 1)%Z by lia. rewrite p2_S. lra. Qed.
Lemma mul32_err a b : number_of a -> number_of b -> Rabs (value a * value b) < p2 127 ->
  number_of (mul32 a b) /\ Rabs (value (mul32 a b) - value a * value b) <= u * Rabs (value a * value b) + tiny.
Proof.
  intros Ha Hb HB. destruct (mul32_near a b Ha Hb HB) as (A & N). split; [exact A|].
  pose proof (near_any single ltac:(cbn; lia) ltac:(cbn; lia) _ _ N HB) as E. cbn [f_low single] in E. rewrite half_low in E. exact E.
Qed.
Lemma div32_err a b : number_of a -> number_of b -> value b <> 0 -> p2 (-126) <= Rabs (value a / value b) < p2 127 ->
  number_of (div32 a b) /\ Rabs (value (div32 a b) - value a / value b) <= u * Rabs (value a / value b).
Proof.
  intros Ha Hb H0 (HL & HB). destruct (div32_near a b Ha Hb H0 HB) as (A & N). split; [exact A|].
  exact (near_normal single ltac:(cbn; lia) ltac:(cbn; lia) _ _ N (conj HL HB)).
Qed.
Lemma div32_any a b : number_of a -> number_of b -> value b <> 0 -> Rabs (value a / value b) < p2 127 ->
  number_of (div32 a b) /\ Rabs (value (div32 a b) - value a / value b) <= u * Rabs (value a / value b) + tiny.
Proof.
  intros Ha Hb H0 HB. destruct (div32_near a b Ha Hb H0 HB) as (A & N). split; [exact A|].
  pose proof (near_any single ltac:(cbn; lia) ltac:(cbn; lia) _ _ N HB) as E. cbn [f_low single] in E. rewrite half_low in E. exact E.
Qed.
