(** * NumeralMore: lines of numerals, and single precision *)
From Verif Require Import Base Flt FltProofs RoundSpec RoundProofs SeqFile SeqSpec ListFacts SeqProofs NumeralSpec NumeralProofs.
From Coq Require Import ZifyBool ZifyNat.
Open Scope string_scope.
Open Scope Z_scope.
Open Scope list_scope.

Lemma chunks16 ps : fields16 ps -> forall fuel, (length (concat ps) <= fuel)%nat -> chunks_aux fuel 16 (concat ps) = ps.
Proof.
  induction 1 as [|p H|p ps Hp H IH]; intros fuel Hf.
  - destruct fuel; reflexivity.
  - cbn [concat] in *. rewrite app_nil_r in *. destruct fuel as [|fuel]; [lia|]. destruct p as [|c p]; [cbn [length] in H; lia|].
    cbn [chunks_aux]. rewrite (firstn_all2 (c :: p)), (skipn_all2 (c :: p)) by lia. destruct fuel; reflexivity.
  - cbn [concat] in *. rewrite app_length in Hf. destruct fuel as [|fuel]; [lia|]. cbn [chunks_aux].
    destruct (p ++ concat ps) eqn:E; [apply app_eq_nil in E as (-> & _); discriminate|]. rewrite <- E, firstn_app_exact, skipn_app_exact by exact Hp.
    rewrite IH by lia. reflexivity.
Qed.
Lemma fields16_cut l : exists ps, fields16 ps /\ concat ps = l.
Proof.
  remember (length l) as n eqn:E. revert l E. induction n as [n IH] using lt_wf_ind. intros l ->. destruct l as [|c l]; [exists []; split; [constructor|reflexivity]|].
  destruct (le_lt_dec (length (c :: l)) 16) as [L|L].
  - exists [c :: l]. split; [constructor; cbn [length] in *; lia|]. cbn [concat]. apply app_nil_r.
  - destruct (IH (length (skipn 16 (c :: l))) ltac:(rewrite skipn_length; lia) _ eq_refl) as (ps & F & C).
    exists (firstn 16 (c :: l) :: ps). split; [constructor; [rewrite firstn_length; lia|exact F]|]. cbn [concat]. rewrite C. apply firstn_skipn.
Qed.
Lemma rmap_reads ps vs : rmap parse_float ps = Ok vs <-> Forall2 reads ps vs.
Proof.
  revert vs. induction ps as [|p ps IH]; intros vs; cbn [rmap].
  - split; [intros E; injection E as <-; constructor|inversion 1; reflexivity].
  - split.
    + destruct (parse_float p) as [v|] eqn:E; [|discriminate]. destruct (rmap parse_float ps) as [ws|] eqn:F; [|discriminate]. intros G. injection G as <-.
      constructor; [now apply parse_float_reads|now apply IH].
    + inversion 1 as [|? v ? ws H1 H2]; subst. apply parse_float_reads in H1 as ->. apply IH in H2 as ->. reflexivity.
Qed.
Lemma tofloatrec_reads ps vs : fields16 ps -> (tofloatrec Fmt (concat ps) = Ok vs <-> Forall2 reads ps vs).
Proof. intros H. unfold tofloatrec, chunks. rewrite chunks16 by (auto; lia). apply rmap_reads. Qed.
Lemma skipn_8 (nb l : list ascii) : length nb = 8%nat -> skipn 8 (nb ++ l) = l.
Proof. intros H. now apply skipn_app_exact. Qed.
Theorem line_reads nb ps vs tail h fr : length nb = 8%nat -> fields16 ps -> ~ In nl (nb ++ concat ps) ->
  ((exists s, read_floatrec 8 (mkIn Fmt ((nb ++ concat ps) ++ nl :: tail) h fr) = Ok (vs, s)) <-> Forall2 reads ps vs) /\
  ((exists n s, read_headerrec (mkIn Fmt ((nb ++ concat ps) ++ nl :: tail) h fr) = Ok ((n, vs), s)) <-> Forall2 reads ps vs).
Proof.
  intros H8 Hp Hn. pose proof (read_stringrec_frame Fmt _ _ h fr tail (frame_fmt _ Hn)) as R. rewrite <- app_assoc in R. cbn [app] in R.
  pose proof (tofloatrec_reads ps vs Hp) as T. split.
  - unfold read_floatrec, sbind. rewrite R. cbn [f_kind]. unfold slift. rewrite skipn_8 by exact H8. rewrite <- T.
    destruct (tofloatrec Fmt (concat ps)) as [ws|e]; (split; [intros (s & E); congruence|intros E]); [|discriminate]. injection E as ->. eexists. reflexivity.
  - unfold read_headerrec, sbind. rewrite R. cbn [f_kind]. unfold slift, as_header, strip_recname, rbind. rewrite skipn_8 by exact H8. rewrite <- T.
    destruct (tofloatrec Fmt (concat ps)) as [ws|e]; (split; [intros (n & s & E); congruence|intros E]); [|discriminate]. injection E as ->. eexists. eexists. reflexivity.
Qed.
Lemma reads_unique l v w : reads l v -> reads l w -> v = w.
Proof. intros H1 H2. apply parse_float_reads in H1, H2. congruence. Qed.

(** ** Single precision *)
Definition canonical (v : flt) : Prop := match v with FFin _ m _ => Z.odd (Zpos m) = true | _ => True end.
Lemma single_canonical bs v : single_bytes bs v -> canonical v.
Proof. intros (b0 & b1 & b2 & b3 & s & ex & fr & _ & _ & _ & _ & H). destruct H; cbn; auto. Qed.
Lemma rounded_canonical prec emin emax x s v : rounded prec emin emax x s v -> canonical v.
Proof. intros (n & q & _ & _ & [([(_ & ->)|(m & e & -> & O & _)] & _)|(-> & _)]); cbn; auto. Qed.
Lemma reads_canonical l v : reads l v -> canonical v.
Proof. intros [p t0 q w0 _ _ H]. destruct H as [sg s t ip fp m et x w _ _ _ _ _ H| |]; cbn; auto. exact (rounded_canonical _ _ _ _ _ _ H). Qed.
Lemma round32_rounded v : canonical v -> match v with FFin s m e => rounded32 (mkNum (Zpos m) 1 e) s (round32 v) | _ => round32 v = v end.
Proof. destruct v as [|s|s|s m e]; cbn [canonical]; try reflexivity. intros H. apply fround_rounded; [lia|exact H]. Qed.
Lemma round32_single bs v : single_bytes bs v -> round32 v = v.
Proof.
  intros (b0 & b1 & b2 & b3 & s & ex & fr & _ & Hex & Hfr & _ & H). destruct H as [| | |s fr m e Hf O He E|s ex fr m e Hx O He E]; try reflexivity; apply fround_exact; try lia.
  - apply nbits_le. pose proof (pow2_pos (e + 149) ltac:(lia)). change (2 ^ 24) with 16777216. nia.
  - pose proof (pow2_pos (e + 149) ltac:(lia)) as P. destruct (Z_lt_le_dec 128 (nbits m + e)) as [L|L]; [|lia]. exfalso.
    pose proof (nbits_bound m) as (B & _). pose proof (nbits_pos m).
    assert (2 ^ 24 <= Zpos m * 2 ^ (e + 149)); [|change (2 ^ 24) with 16777216 in *; lia].
    apply Z.le_trans with (2 ^ (nbits m - 1) * 2 ^ (e + 149)); [|apply Z.mul_le_mono_nonneg_r; lia]. rewrite <- Z.pow_add_r by lia. apply Z.pow_le_mono_r; lia.
  - apply nbits_le. pose proof (pow2_pos (e - (ex - 150)) ltac:(lia)). change (2 ^ 24) with 16777216. nia.
  - pose proof (pow2_pos (e - (ex - 150)) ltac:(lia)) as P. destruct (Z_lt_le_dec 128 (nbits m + e)) as [L|L]; [|lia]. exfalso.
    pose proof (nbits_bound m) as (B & _). pose proof (nbits_pos m).
    assert (2 ^ 24 <= Zpos m * 2 ^ (e - (ex - 150))); [|change (2 ^ 24) with 16777216 in *; lia].
    apply Z.le_trans with (2 ^ (nbits m - 1) * 2 ^ (e - (ex - 150))); [|apply Z.mul_le_mono_nonneg_r; lia]. rewrite <- Z.pow_add_r by lia. apply Z.pow_le_mono_r; lia.
Qed.
