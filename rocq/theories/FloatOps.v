(** * FloatOps: products and quotients are rounded to the nearest. *)
From Verif Require Import Base Flt FltProofs RoundSpec RoundProofs HydroFloat.
From Coq Require Import ZifyBool.
Open Scope Z_scope.

Lemma fmk_rounded prec emin emax s p e : 1 <= prec -> rounded prec emin emax (mkNum (Zpos p) 1 e) s (fround prec emin emax (fmk s p e)).
Proof.
  intros Hp. destruct (fmk_fin s p e) as (m & e' & E & O & L & HP). rewrite E, HP. apply rounded_shift; [lia|].
  replace (e + (e' - e)) with e' by lia. now apply fround_rounded.
Qed.

Lemma quot_core prec emin emax s p d x sh N q k st Q : 1 <= prec -> 0 < d -> 0 <= sh -> N = Zpos p * 2 ^ sh -> 0 <= N -> q = N / d -> 0 <= st <= 1 -> 2 * q + st = Zpos k ->
  1 <= Q + sh - x -> emin <= Q ->
  nbits k <= prec + 1 + (Q + sh - x) -> (Q = emin \/ Q + sh - x + 1 + (prec - 1) = nbits k - 1) -> 2 ^ (nbits k - 1) <= Zpos k < 2 ^ nbits k ->
  rounded prec emin emax (mkNum (Zpos p) d x) s (finish emax s Q (half_even N (d * 2 ^ (Q + sh - x)))).
Proof.
  intros Hp Hd Hsh EN HN Eq Hst K HQ1 HQ2 HQ3 HQ4 BK. set (j := Q + sh - x) in *. pose proof (pow2_pos j ltac:(lia)) as PD.
  assert (0 < d * 2 ^ j) as DD by (apply Z.mul_pos_pos; assumption).
  pose proof (pow2_pos (j + 1) ltac:(lia)) as PD1.
  assert (FL : N / (d * 2 ^ j) = Zpos k / 2 ^ (j + 1)).
  { rewrite <- Z.div_div by lia. rewrite <- Eq, <- K, (Z.pow_add_r 2 j 1), (Z.mul_comm _ (2 ^ 1)) by lia. change (2 ^ 1) with 2. rewrite <- Z.div_div by lia.
    f_equal. apply (Z.div_unique_pos _ _ _ st); lia. }
  assert (BL : N / (d * 2 ^ j) < 2 ^ prec).
  { rewrite FL. clear FL. apply Z.div_lt_upper_bound; [exact PD1|]. rewrite <- Z.pow_add_r by lia. apply Z.lt_le_trans with (2 ^ nbits k); [apply BK|]. apply Z.pow_le_mono_r; lia. }
  assert (N0 : 0 <= N / (d * 2 ^ j)) by (apply Z.div_pos; assumption).
  apply finish_rounded.
  - eapply Z.le_trans; [exact N0|]. apply (half_even_bounds N _ DD).
  - apply nearest_intro; cbn [x_num x_den x_exp]; try assumption.
    + intros i H1 H2. subst N. clear - Hsh HQ1 H1 H2. subst j.
      transitivity (Zpos p * d * (2 ^ (x + i) * 2 ^ (Q + sh - x))); [ring|].
      transitivity (Zpos p * d * (2 ^ sh * 2 ^ (Q + i))); [|ring]. rewrite <- !Z.pow_add_r by lia. do 2 f_equal. lia.
    + destruct HQ4 as [->|HQ4]; [left; reflexivity|right]. rewrite FL. apply Z.div_le_lower_bound; [exact PD1|].
      rewrite <- Z.pow_add_r by (clear - HQ1 Hp; lia). rewrite HQ4. apply BK.
Qed.
Lemma quot_rounded prec emin emax s p d x : 1 <= prec <= 53 -> let sh := Z.max 0 (56 + Z.log2 (Zpos d) - Z.log2 (Zpos p)) in
  let N := Z.shiftl (Zpos p) sh in let q := N / Zpos d in
  rounded prec emin emax (mkNum (Zpos p) (Zpos d) x) s
    (match 2 * q + (if N - q * Zpos d =? 0 then 0 else 1) with Zpos k => fround prec emin emax (fmk s k (x - sh - 1)) | _ => FZero s end).
Proof.
  intros Hp. cbv zeta. set (sh := Z.max 0 (56 + Z.log2 (Zpos d) - Z.log2 (Zpos p))). rewrite Z.shiftl_mul_pow2 by lia. set (N := Zpos p * 2 ^ sh).
  pose proof (pow2_pos sh ltac:(lia)) as Psh. set (q := N / Zpos d). set (r := N - q * Zpos d).
  pose proof (Z.div_mod N (Zpos d) ltac:(lia)) as DM. pose proof (Z.mod_pos_bound N (Zpos d) ltac:(lia)) as RB.
  assert (R : r = N mod Zpos d) by (unfold r, q; lia).
  assert (HQ : 2 ^ 55 <= q).
  { unfold q. apply Z.div_le_lower_bound; [lia|]. pose proof (Z.log2_spec (Zpos d) ltac:(lia)) as (_ & D2). pose proof (Z.log2_spec (Zpos p) ltac:(lia)) as (D1 & _).
    pose proof (Z.log2_nonneg (Zpos d)). pose proof (Z.log2_nonneg (Zpos p)). unfold N.
    apply Z.le_trans with (2 ^ (Z.log2 (Zpos p)) * 2 ^ sh); [|apply Z.mul_le_mono_nonneg_r; lia]. rewrite <- Z.pow_add_r by lia.
    apply Z.le_trans with (2 ^ (Z.succ (Z.log2 (Zpos d))) * 2 ^ 55); [apply Z.mul_le_mono_nonneg_r; lia|]. rewrite <- Z.pow_add_r by lia. apply Z.pow_le_mono_r; lia. }
  set (st := if r =? 0 then 0 else 1). assert (0 <= st <= 1) by (unfold st; destruct (r =? 0); lia).
  destruct (2 * q + st) as [|k|k] eqn:K; [lia| |lia].
  assert (NK : 57 <= nbits k).
  { rewrite nbits_log2. assert (56 <= Z.log2 (Zpos k)); [|lia]. rewrite <- (Z.log2_pow2 56) by lia. apply Z.log2_le_mono. change (2 ^ 56) with (2 * 2 ^ 55). lia. }
  set (Q := Z.max (nbits k + (x - sh - 1) - prec) emin).
  assert (HQ1 : 1 <= Q + sh - x) by lia. assert (HQ2 : emin <= Q) by lia. assert (HQ3 : nbits k <= prec + 1 + (Q + sh - x)) by lia.
  assert (HQ4 : Q = emin \/ Q + sh - x + 1 + (prec - 1) = nbits k - 1) by lia. assert (HQ5 : x - sh - 1 < Q) by lia.
  rewrite fround_fmk by exact HQ5. fold Q. rewrite <- K. replace (Q - (x - sh - 1)) with (Q + sh - x + 1) by lia. unfold st. rewrite R in *. fold q in DM.
  pose proof (Z.div_pos N (Zpos d) ltac:(unfold N; lia) ltac:(lia)) as Q0. fold q in Q0.
  rewrite (half_even_sticky q (Zpos d) (N mod Zpos d) (Q + sh - x) Q0 ltac:(lia) RB HQ1). replace (q * Zpos d + N mod Zpos d) with N by lia.
  pose proof (nbits_bound k) as BK. apply quot_core with (q := q) (k := k) (st := st); try assumption; try reflexivity; unfold N; lia.
Qed.
