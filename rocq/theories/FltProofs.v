(** * FltProofs: exactness of the float model. *)
From Verif Require Import Base Flt.
From Coq Require Import ZifyBool ZifyNat.
Open Scope Z_scope.
Open Scope list_scope.

Lemma strip2_odd m e m' e' :
  strip2 m e = (m', e') ->
  Z.odd (Zpos m') = true /\ e <= e' /\ Zpos m = Zpos m' * 2 ^ (e' - e).
Proof.
  revert e. induction m as [p IH|p IH|]; intros e H; cbn in H.
  - injection H as <- <-. rewrite Z.sub_diag. cbn. repeat split; lia.
  - apply IH in H as (H1 & H2 & H3). repeat split; [exact H1|lia|].
    rewrite Pos2Z.inj_xO, H3.
    replace (e' - e) with (Z.succ (e' - (e + 1))) by lia.
    rewrite Z.pow_succ_r by lia. lia.
  - injection H as <- <-. rewrite Z.sub_diag. cbn. repeat split; lia.
Qed.

Lemma odd_pow_unique a b : forall i j, Z.odd a = true -> Z.odd b = true -> 0 <= i -> 0 <= j ->
  a * 2 ^ i = b * 2 ^ j -> a = b /\ i = j.
Proof.
  assert (Aux : forall x y i j, Z.odd x = true -> 0 <= i -> i < j -> x * 2 ^ i = y * 2 ^ j -> False).
  { intros x y i j Hx Hi Hij H.
    replace j with (i + (j - i)) in H by lia.
    rewrite Z.pow_add_r in H by lia.
    assert (x = y * 2 ^ (j - i)).
    { assert (0 < 2 ^ i) by (apply Z.pow_pos_nonneg; lia). nia. }
    replace (j - i) with (Z.succ (j - i - 1)) in H0 by lia.
    rewrite Z.pow_succ_r in H0 by lia.
    rewrite H0, !Z.odd_mul in Hx. cbn in Hx. now rewrite andb_comm in Hx. }
  intros i j Ha Hb Hi Hj H.
  destruct (Z.lt_trichotomy i j) as [L|[->|L]].
  - exfalso. eapply Aux with (x:=a) (i:=i) (j:=j); eauto.
  - split; [|reflexivity]. assert (0 < 2 ^ j) by (apply Z.pow_pos_nonneg; lia). nia.
  - exfalso. eapply Aux with (x:=b) (i:=j) (j:=i); eauto.
Qed.

Lemma fmk_spec s p e m e' :
  Z.odd (Zpos m) = true -> e <= e' -> Zpos m * 2 ^ (e' - e) = Zpos p ->
  fmk s p e = FFin s m e'.
Proof.
  intros Ho He H. unfold fmk. destruct (strip2 p e) as [m1 e1] eqn:E.
  apply strip2_odd in E as (H1 & H2 & H3).
  rewrite H3 in H. apply odd_pow_unique in H as [Hm He1]; try assumption; try lia.
  injection Hm as ->. f_equal. lia.
Qed.

Lemma nbits_log2 p : nbits p = Z.log2 (Zpos p) + 1.
Proof. unfold nbits. destruct p; cbn; rewrite ?Pos.add_1_r; reflexivity. Qed.
Lemma nbits_bound p : 2 ^ (nbits p - 1) <= Zpos p < 2 ^ nbits p.
Proof.
  rewrite nbits_log2. replace (Z.log2 (Zpos p) + 1 - 1) with (Z.log2 (Zpos p)) by lia.
  rewrite Z.add_1_r. apply Z.log2_spec. lia.
Qed.
Lemma nbits_pos p : 1 <= nbits p.
Proof. unfold nbits. lia. Qed.
Lemma nbits_le p k : Zpos p < 2 ^ k -> nbits p <= k.
Proof.
  intro H. pose proof (nbits_bound p) as [B _].
  destruct (Z_lt_le_dec k (nbits p)) as [L|]; [|assumption]. exfalso.
  assert (2 ^ k <= 2 ^ (nbits p - 1)); [|lia].
  destruct (Z_lt_le_dec k 0).
  - rewrite Z.pow_neg_r by lia. apply Z.pow_nonneg. lia.
  - apply Z.pow_le_mono_r; lia.
Qed.

(** A number already in the format is not changed by rounding. *)
Lemma fround_exact prec emin emax s m e :
  nbits m <= prec -> emin <= e -> nbits m + e <= emax ->
  fround prec emin emax (FFin s m e) = FFin s m e.
Proof.
  intros H1 H2 H3. unfold fround. cbv zeta.
  replace (Z.max (nbits m + e - prec) emin <=? e) with true by lia.
  replace (emax <? nbits m + e) with false by lia. reflexivity.
Qed.

Lemma fmk_fin s p e : exists m e', fmk s p e = FFin s m e' /\ Z.odd (Zpos m) = true /\ e <= e' /\
  Zpos p = Zpos m * 2 ^ (e' - e).
Proof.
  unfold fmk. destruct (strip2 p e) as [m e'] eqn:E. apply strip2_odd in E. exists m, e'. tauto.
Qed.

(** Same value, same number: m1 * 2^e1 = m2 * 2^e2. *)
Lemma fmk_shift s p e k : 0 <= k -> forall q, Zpos q = Zpos p * 2 ^ k -> fmk s q (e - k) = fmk s p e.
Proof.
  intros Hk q Hq. destruct (fmk_fin s p e) as (m & e' & -> & Ho & He & Hp).
  apply fmk_spec; [exact Ho|lia|]. rewrite Hq, Hp, <- Z.mul_assoc, <- Z.pow_add_r by lia.
  f_equal. f_equal. lia.
Qed.

(** Whole numbers below 2^53 are exact doubles. *)
Lemma round64_int s p : Zpos p < 2 ^ 53 -> round64 (fmk s p 0) = fmk s p 0.
Proof.
  intro H. destruct (fmk_fin s p 0) as (m & e & -> & Ho & He & Hp).
  rewrite Z.sub_0_r in Hp.
  assert (Hpow : 0 < 2 ^ e) by (apply Z.pow_pos_nonneg; lia).
  assert (Zpos m <= Zpos p) by nia.
  apply fround_exact.
  - apply nbits_le. lia.
  - lia.
  - assert (2 ^ (nbits m - 1 + e) <= Zpos p).
    { rewrite Z.pow_add_r by (pose proof (nbits_pos m); lia).
      rewrite Hp. pose proof (nbits_bound m). nia. }
    destruct (Z_lt_le_dec 1024 (nbits m + e)) as [L|]; [|assumption]. exfalso.
    assert (2 ^ 53 <= 2 ^ (nbits m - 1 + e)) by (apply Z.pow_le_mono_r; lia). lia.
Qed.

(** The value (-1)^s * n of a whole number with the sign written. *)
Definition signed_int (s : bool) (n : Z) : flt :=
  match n with Zpos p => fmk s p 0 | _ => FZero s end.

(** [m * 10^x = n] *)
Definition dec_is (m x n : Z) : Prop :=
  if 0 <=? x then m * 10 ^ x = n else m = n * 10 ^ (- x).

Lemma dec_to_flt_int s m x n :
  0 <= m -> dec_is m x n -> 0 <= n < 2 ^ 53 -> dec_to_flt s m x = signed_int s n.
Proof.
  intros Hm Hd Hn. unfold dec_is in Hd. unfold dec_to_flt.
  destruct m as [|p|p]; [| |lia].
  - replace n with 0; [reflexivity|]. destruct (0 <=? x) eqn:E; [lia|].
    assert (0 < 10 ^ (- x)) by (apply Z.pow_pos_nonneg; lia). nia.
  - destruct (0 <=? x) eqn:E.
    + rewrite Hd. destruct n as [|q|q]; try reflexivity.
      cbn [signed_int]. apply round64_int. lia.
    + set (d := 10 ^ (- x)) in *.
      assert (Hdp : 0 < d) by (apply Z.pow_pos_nonneg; lia).
      cbv zeta. set (sh := Z.max 0 (56 + Z.log2 d - Z.log2 (Zpos p))).
      assert (Hsh : 0 <= sh) by (subst sh; lia).
      rewrite Z.shiftl_mul_pow2 by exact Hsh.
      assert (Hpow : 0 < 2 ^ sh) by (apply Z.pow_pos_nonneg; lia).
      assert (Hq : Zpos p * 2 ^ sh / d = n * 2 ^ sh).
      { rewrite Hd. replace (n * d * 2 ^ sh) with (n * 2 ^ sh * d) by ring.
        apply Z.div_mul. lia. }
      rewrite Hq.
      replace (Zpos p * 2 ^ sh - n * 2 ^ sh * d) with 0 by (rewrite Hd; ring).
      cbn [Z.eqb]. rewrite Z.add_0_r.
      destruct n as [|q|q]; [lia| |lia].
      destruct (2 * (Zpos q * 2 ^ sh)) as [|k|k] eqn:Ek; try nia.
      cbn [signed_int].
      replace (- sh - 1) with (0 - (sh + 1)) by lia.
      rewrite (fmk_shift s q 0 (sh + 1)).
      * apply round64_int. lia.
      * lia.
      * rewrite <- Ek, Z.pow_add_r by lia. ring.
Qed.

Lemma signed_int_f_of_Z s n : n <> 0 -> 0 <= n -> signed_int s n = f_of_Z (if s then - n else n).
Proof. destruct n; [congruence| |lia]. now destruct s. Qed.

Lemma int_of_fmk s p : int_of (fmk s p 0) = Ok (if s then - Zpos p else Zpos p).
Proof.
  destruct (fmk_fin s p 0) as (m & e & -> & Ho & He & Hp). cbn [int_of].
  replace (0 <=? e) with true by lia. rewrite Z.shiftl_mul_pow2 by lia.
  rewrite Z.sub_0_r in Hp. now rewrite <- Hp.
Qed.
Lemma int_of_f_of_Z n : int_of (f_of_Z n) = Ok n.
Proof. destruct n; cbn [f_of_Z]; [reflexivity|apply int_of_fmk|apply int_of_fmk]. Qed.
Lemma int_of_signed_int s n : 0 <= n -> int_of (signed_int s n) = Ok (if s then - n else n).
Proof.
  destruct n; [|intros _; apply int_of_fmk|lia]. intros _. destruct s; reflexivity.
Qed.
