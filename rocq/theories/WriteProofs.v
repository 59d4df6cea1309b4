(** * WriteProofs: the text written, number by number; reading it again *)
From Verif Require Import Base Flt SeqFile RoundSpec SeqSpec ListFacts FltProofs RoundProofs SeqProofs NumProofs Write WriteSpec WriteNum.
Open Scope string_scope.
Open Scope Z_scope.
Open Scope list_scope.
Open Scope monad_scope.

(** One number more on the file: on a new line if the line is full. *)
Definition put (s : outtext) (v : flt) : outtext :=
  if o_places s =? 0 then mkOut (o_text s ++ blanks8 ++ format_e8 v) 3
  else if o_places s =? 1 then mkOut (o_text s ++ format_e8 v ++ [nl]) 0
  else mkOut (o_text s ++ format_e8 v) (o_places s - 1).
(** A header. *)
Definition begin (s : outtext) (h : list ascii) : outtext :=
  mkOut ((if o_places s =? 0 then o_text s else o_text s ++ [nl]) ++ ljust8 h) 4.

Lemma puts_line vs : forall s, (length vs <= Z.to_nat (o_places s))%nat -> vs <> [] ->
  fold_left put vs s = mkOut (o_text s ++ flat_map format_e8 vs ++ (if o_places s =? Zlen vs then [nl] else [])) (o_places s - Zlen vs).
Proof.
  induction vs as [|v vs IH]; intros [t p] L N; [congruence|]. cbn [fold_left flat_map o_text o_places length] in *.
  unfold Zlen in *. cbn [length] in *. unfold put at 2. cbn [o_text o_places]. replace (p =? 0) with false by lia.
  destruct vs as [|v' vs].
  - cbn [fold_left length flat_map]. rewrite app_nil_r. destruct (p =? 1) eqn:E.
    + replace (p =? Z.of_nat 1) with true by lia. f_equal. lia.
    + replace (p =? Z.of_nat 1) with false by lia. rewrite app_nil_r. f_equal.
  - cbn [length] in L. replace (p =? 1) with false by lia. rewrite IH; [|cbn [o_places length]; lia|discriminate].
    cbn [o_text o_places length]. replace (p - 1 =? Z.of_nat (S (length vs))) with (p =? Z.of_nat (S (S (length vs)))) by lia.
    rewrite <- !app_assoc. f_equal. lia.
Qed.

Section Repaired.
  Let W := Some fwrite.

  Lemma write_line_puts h vs s : (length vs <= 4)%nat -> write_line W h vs s = Ok (tt, fold_left put vs (begin s h)).
  Proof using.
    intros L. unfold write_line, W, sbind, fwrite, sret. unfold begin.
    assert (E : forall t, fold_left put vs (mkOut t 4) = mkOut (t ++ flat_map format_e8 vs ++ (if 4 =? Zlen vs then [nl] else [])) (4 - Zlen vs)).
    { intros t. destruct vs as [|v vs]; [cbn; now rewrite app_nil_r|]. apply (puts_line (v :: vs) (mkOut t 4)); [exact L|discriminate]. }
    rewrite E. unfold Zlen in *. cbv zeta.
    destruct (o_places s =? 0); cbn [o_text o_places]; (destruct (4 - Z.of_nat (length vs) =? 0) eqn:F;
      [replace (4 =? Z.of_nat (length vs)) with true by lia|replace (4 =? Z.of_nat (length vs)) with false by lia; rewrite app_nil_r]);
      cbn [o_text o_places]; rewrite <- ?app_assoc; reflexivity.
  Qed.

  (** A full line, then more. *)
  Definition ended (s : outtext) : outtext := if o_places s =? 0 then s else mkOut (o_text s ++ [nl]) 0.
  Lemma begin_ended s h : begin s h = begin (ended s) h.
  Proof using. unfold ended. destruct (o_places s =? 0) eqn:E; [reflexivity|]. unfold begin. cbn [o_places o_text]. now rewrite E. Qed.
  Lemma begin_put s v : o_places s = 0 -> put s v = put (begin s blanks8) v.
  Proof using. intros E. unfold put, begin. cbn [o_places o_text]. rewrite E. change (ljust8 blanks8) with blanks8. cbn [Z.eqb Pos.eqb]. rewrite <- app_assoc. reflexivity. Qed.
  Lemma begin_puts s vs : o_places s = 0 -> vs <> [] -> fold_left put vs s = fold_left put vs (begin s blanks8).
  Proof using. intros E N. destruct vs as [|v vs]; [congruence|]. cbn [fold_left]. now rewrite begin_put. Qed.

  Lemma chunks_aux_more {A} (f : nat) : forall g n (l : list A), (0 < n)%nat -> (length l <= f)%nat -> (length l <= g)%nat -> chunks_aux f n l = chunks_aux g n l.
  Proof using.
    induction f as [|f IH]; intros g n l H H1 H2.
    - destruct l; [|cbn in H1; lia]. now destruct g.
    - destruct l as [|a l]; [now destruct g|]. destruct g as [|g]; [cbn in H2; lia|]. cbn [chunks_aux]. f_equal. apply IH; [exact H| |]; rewrite skipn_length; cbn [length] in *; lia.
  Qed.
  Lemma chunks_cons {A} n (l : list A) : (0 < n)%nat -> l <> [] -> chunks n l = firstn n l :: chunks n (skipn n l).
  Proof using.
    intros H N. unfold chunks. destruct l as [|a l]; [congruence|]. cbn [length chunks_aux]. f_equal.
    apply chunks_aux_more; [exact H| |lia]. rewrite skipn_length. cbn [length]. lia.
  Qed.

  Lemma write_lines_puts k : forall vs s, (length vs <= k)%nat -> vs <> [] -> write_lines W (chunks 4 vs) s = Ok (tt, fold_left put vs (ended s)).
  Proof using.
    induction k as [|k IH]; intros vs s L N.
    - destruct vs; [congruence|cbn in L; lia].
    - rewrite chunks_cons by (lia || exact N). cbn [write_lines]. unfold sbind. rewrite write_line_puts by (rewrite firstn_length; lia).
      assert (E0 : o_places (ended s) = 0) by (unfold ended; destruct (o_places s =? 0) eqn:E; [lia|reflexivity]).
      rewrite begin_ended. rewrite <- begin_puts; [|exact E0|destruct vs; [congruence|discriminate]].
      destruct (skipn 4 vs) as [|a r] eqn:S.
      + rewrite firstn_all2; [reflexivity|]. apply (f_equal (@length _)) in S. rewrite skipn_length in S. cbn [length] in S. lia.
      + rewrite IH; [| |discriminate].
        2:{ rewrite <- S, skipn_length. destruct vs; [congruence|cbn [length] in *; lia]. }
        assert (L4 : length (firstn 4 vs) = 4%nat). { rewrite firstn_length. apply (f_equal (@length _)) in S. rewrite skipn_length in S. cbn [length] in S. lia. }
        assert (E4 : o_places (fold_left put (firstn 4 vs) (ended s)) = 0).
        { rewrite begin_puts; [|exact E0|destruct vs; [congruence|discriminate]]. rewrite puts_line; [|unfold begin; cbn [o_places]; rewrite L4; cbn; lia|destruct vs; [congruence|discriminate]].
          cbn [o_places begin]. unfold Zlen. rewrite L4. reflexivity. }
        unfold ended at 1. rewrite E4. cbn [Z.eqb]. rewrite <- fold_left_app. rewrite <- S, firstn_skipn. reflexivity.
  Qed.

  Lemma write_floats_puts vs s : 0 <= o_places s -> write_floats W vs s = Ok (tt, fold_left put vs s).
  Proof using.
    intros P. destruct vs as [|v0 vs0] eqn:EV; [reflexivity|]. unfold write_floats. rewrite <- EV. assert (N : vs <> []) by (rewrite EV; discriminate).
    cbv zeta. destruct (o_places s =? 0) eqn:E.
    - replace (o_places s) with 0 by lia. change (slice_from 0 vs) with (slice_from (Zlen (@nil flt)) ([] ++ vs)). rewrite slice_from_app.
      rewrite (write_lines_puts (length vs)); [|lia|exact N]. unfold ended. now rewrite E.
    - unfold fwrite. cbn [o_text o_places].
      assert (Hl : 0 < Zlen vs) by (unfold Zlen; destruct vs; [congruence|cbn [length]; lia]).
      destruct (Zlen vs <? o_places s) eqn:E1.
      + assert (S : slice_to (o_places s) vs = vs).
        { unfold slice_to, clamp. replace (o_places s <? 0) with false by lia. apply firstn_all2. unfold Zlen in *. lia. }
        rewrite S, puts_line; [|unfold Zlen in *; lia|exact N]. replace (o_places s =? Zlen vs) with false by lia. now rewrite app_nil_r.
      + destruct (o_places s =? Zlen vs) eqn:E2.
        * assert (S : slice_to (o_places s) vs = vs).
          { unfold slice_to, clamp. replace (o_places s <? 0) with false by lia. apply firstn_all2. unfold Zlen in *. lia. }
          rewrite S, puts_line; [|unfold Zlen in *; lia|exact N]. rewrite E2. rewrite <- app_assoc. do 3 f_equal. lia.
        * set (a := firstn (Z.to_nat (o_places s)) vs). set (b := skipn (Z.to_nat (o_places s)) vs).
          assert (AB : vs = a ++ b) by (unfold a, b; now rewrite firstn_skipn).
          assert (LA : Zlen a = o_places s) by (unfold a, Zlen in *; rewrite firstn_length; lia).
          rewrite AB, <- LA, slice_to_app, slice_from_app.
          assert (NB : b <> []). { intro Z0. rewrite Z0, app_nil_r in AB. rewrite AB in *. lia. }
          assert (NA : a <> []). { intro Z0. rewrite Z0 in LA. cbn in LA. lia. }
          rewrite (write_lines_puts (length b)); [|lia|exact NB]. rewrite fold_left_app. do 2 f_equal. f_equal.
          rewrite puts_line; [|unfold Zlen in LA; lia|exact NA]. unfold ended. cbn [o_places o_text].
          replace (Zlen a =? 0) with false by lia. replace (o_places s =? Zlen a) with true by lia. rewrite <- app_assoc. f_equal. lia.
  Qed.

  Lemma put_places s v : 0 <= o_places s -> 0 <= o_places (put s v).
  Proof using. intros H. unfold put. destruct (o_places s =? 0) eqn:E; [cbn; lia|]. destruct (o_places s =? 1) eqn:F; cbn [o_places]; lia. Qed.
  Lemma puts_places vs : forall s, 0 <= o_places s -> 0 <= o_places (fold_left put vs s).
  Proof using. induction vs as [|v vs IH]; intros s H; [exact H|]. cbn [fold_left]. apply IH, put_places, H. Qed.

  Theorem write_record_puts n vs s : write_record W n vs s = Ok (tt, fold_left put vs (begin s n)).
  Proof using.
    unfold write_record, sbind.
    assert (S1 : slice_to 4 vs = firstn 4 vs) by (unfold slice_to, clamp, Zlen; cbn [Z.ltb Z.compare]; destruct (Z_le_gt_dec 4 (Z.of_nat (length vs))); [rewrite Z.min_l by lia; reflexivity|rewrite Z.min_r by lia; rewrite Nat2Z.id, !firstn_all2 by lia; reflexivity]).
    assert (S2 : slice_from 4 vs = skipn 4 vs) by (unfold slice_from, clamp, Zlen; cbn [Z.ltb Z.compare]; destruct (Z_le_gt_dec 4 (Z.of_nat (length vs))); [rewrite Z.min_l by lia; reflexivity|rewrite Z.min_r by lia; rewrite Nat2Z.id, !skipn_all2 by lia; reflexivity]).
    rewrite S1, S2, write_line_puts by (rewrite firstn_length; lia).
    rewrite write_floats_puts by (apply puts_places; cbn; lia). now rewrite <- fold_left_app, firstn_skipn.
  Qed.
End Repaired.

(** ** The lines *)
Definition complete (s : outtext) : list ascii := if o_places s =? 0 then o_text s else o_text s ++ [nl].
Lemma puts_from4 vs t : (length vs <= 4)%nat -> complete (fold_left put vs (mkOut t 4)) = t ++ flat_map format_e8 vs ++ [nl].
Proof.
  intros L. destruct vs as [|v vs]; [reflexivity|]. rewrite puts_line; [|exact L|discriminate]. unfold complete. cbn [o_places o_text].
  unfold Zlen in *. cbn [length] in *. destruct (4 =? Z.of_nat (S (length vs))) eqn:E.
  - replace (4 - Z.of_nat (S (length vs)) =? 0) with true by lia. reflexivity.
  - replace (4 - Z.of_nat (S (length vs)) =? 0) with false by lia. now rewrite app_nil_r, <- app_assoc.
Qed.
Lemma four_places vs t : length vs = 4%nat -> o_places (fold_left put vs (mkOut t 4)) = 0.
Proof. intros L. rewrite puts_line; [|cbn [o_places]; lia|destruct vs; [discriminate L|discriminate]]. cbn [o_places]. unfold Zlen. rewrite L. reflexivity. Qed.

Definition written (v w : flt) : Prop := enc_num Fmt (format_e8 v) w.
Lemma written_nums vs ws : Forall2 written vs ws -> enc_nums Fmt ws (flat_map format_e8 vs).
Proof. induction 1; cbn [flat_map]; constructor; assumption. Qed.
Lemma f2_firstn {A B} (R : A -> B -> Prop) n : forall l m, Forall2 R l m -> Forall2 R (firstn n l) (firstn n m).
Proof. induction n as [|n IH]; intros l m H; [constructor|]. destruct H; cbn [firstn]; constructor; auto. Qed.
Lemma f2_skipn {A B} (R : A -> B -> Prop) n : forall l m, Forall2 R l m -> Forall2 R (skipn n l) (skipn n m).
Proof. induction n as [|n IH]; intros l m H; [exact H|]. destruct H; cbn [skipn]; [constructor|auto]. Qed.

Lemma cont_lines k : forall vs ws s, (length vs <= k)%nat -> Forall2 written vs ws -> o_places s = 0 ->
  exists cs bs, complete (fold_left put vs s) = o_text s ++ bs /\ enc_conts Fmt Lead8 cs bs /\ legal_cut Fmt cs /\ concat cs = ws /\ Forall (fun c => c <> []) cs.
Proof.
  induction k as [|k IH]; intros vs ws s L F P.
  - destruct F; [|cbn in L; lia]. exists [], []. cbn [fold_left]. unfold complete. rewrite P. cbn [Z.eqb]. rewrite app_nil_r.
    repeat split; constructor.
  - destruct vs as [|v vs'].
    { inversion F; subst. exists [], []. cbn [fold_left]. unfold complete. rewrite P. cbn [Z.eqb]. rewrite app_nil_r. repeat split; constructor. }
    set (vs := v :: vs') in *. assert (N : vs <> []) by discriminate. clearbody vs. clear v vs'.
    pose proof (Forall2_len _ _ _ F) as LF. pose proof (f2_firstn _ 4 _ _ F) as F1. pose proof (f2_skipn _ 4 _ _ F) as F2.
    rewrite begin_puts by assumption. rewrite <- (firstn_skipn 4 vs), fold_left_app. unfold begin. rewrite P. cbn [Z.eqb]. change (ljust8 blanks8) with blanks8.
    assert (LN : (0 < length vs)%nat) by (destruct vs; [congruence|cbn; lia]).
    assert (X : enc_cont Fmt Lead8 (firstn 4 ws) (blanks8 ++ flat_map format_e8 (firstn 4 vs) ++ [nl])).
    { rewrite app_assoc. apply (enc_cont_intro Fmt Lead8 _ (flat_map format_e8 (firstn 4 vs))); [now apply written_nums|].
      constructor. apply graph_nonl, Forall_app. split; [apply Forall_repeat; now right|]. apply enc_nums_nonl with (1 := written_nums _ _ F1). }
    assert (C4 : complete (fold_left put (firstn 4 vs) (mkOut (o_text s ++ blanks8) 4)) = o_text s ++ blanks8 ++ flat_map format_e8 (firstn 4 vs) ++ [nl])
      by (rewrite puts_from4 by (rewrite firstn_length; lia); now rewrite <- app_assoc).
    assert (N1 : firstn 4 ws <> []) by (destruct ws; [cbn in LF; lia|discriminate]).
    destruct (le_lt_dec (length vs) 4) as [L4|L4].
    + rewrite (skipn_all2 vs) by lia. cbn [fold_left]. exists [firstn 4 ws], (blanks8 ++ flat_map format_e8 (firstn 4 vs) ++ [nl]).
      split; [exact C4|]. split; [rewrite <- (app_nil_r (_ ++ _ ++ [nl])); constructor; [exact X|constructor]|].
      split; [cbn [legal_cut]; rewrite firstn_length; lia|]. split; [cbn [concat]; rewrite app_nil_r; apply firstn_all2; lia|]. repeat constructor; exact N1.
    + assert (E4 : o_places (fold_left put (firstn 4 vs) (mkOut (o_text s ++ blanks8) 4)) = 0) by (apply four_places; rewrite firstn_length; lia).
      unfold complete in C4. rewrite E4 in C4. cbn [Z.eqb] in C4.
      destruct (IH (skipn 4 vs) (skipn 4 ws) (fold_left put (firstn 4 vs) (mkOut (o_text s ++ blanks8) 4))) as (cs & bs & H1 & H2 & H3 & H4 & H5);
        [rewrite skipn_length; lia|exact F2|exact E4|].
      exists (firstn 4 ws :: cs), ((blanks8 ++ flat_map format_e8 (firstn 4 vs) ++ [nl]) ++ bs). rewrite H1, C4. split; [now rewrite <- !app_assoc|].
      split; [constructor; assumption|]. split.
      * destruct cs; [cbn [legal_cut]; rewrite firstn_length; lia|]. split; [rewrite firstn_length; lia|exact H3].
      * split; [cbn [concat]; rewrite H4; apply firstn_skipn|]. constructor; assumption.
Qed.
Lemma last_nonempty {A} (cs : list (list A)) : Forall (fun c => c <> []) cs -> cs = [] \/ (0 < length (last cs []))%nat.
Proof.
  intros H. destruct cs as [|c cs]; [now left|right]. assert (In (last (c :: cs) []) (c :: cs)).
  { clear H. revert c. induction cs as [|d cs IH]; intros c; [now left|]. right. apply IH. }
  rewrite Forall_forall in H. specialize (H _ H0). destruct (last (c :: cs) []); [congruence|cbn; lia].
Qed.

Lemma record_text n vs ws s : good_name n -> Forall2 written vs ws -> exists hb db,
  complete (fold_left put vs (begin s (s2l n))) = complete s ++ hb ++ db /\
  enc_header Fmt n (firstn 4 ws) hb /\ enc_data Fmt Lead8 (skipn 4 ws) db.
Proof.
  intros (G1 & G2 & G3) F. pose proof (Forall2_len _ _ _ F) as LF. pose proof (f2_firstn _ 4 _ _ F) as F1. pose proof (f2_skipn _ 4 _ _ F) as F2.
  set (hb := ljust8 (s2l n) ++ flat_map format_e8 (firstn 4 vs) ++ [nl]).
  assert (B : begin s (s2l n) = mkOut (complete s ++ ljust8 (s2l n)) 4) by reflexivity.
  assert (N8 : name8 n (ljust8 (s2l n))).
  { unfold ljust8. apply (name8_intro n 0); [exact G1|exact G2|lia]. }
  assert (X : enc_header Fmt n (firstn 4 ws) hb).
  { unfold hb. rewrite app_assoc. apply (enc_header_intro Fmt n (ljust8 (s2l n)) (firstn 4 ws) (flat_map format_e8 (firstn 4 vs))); [exact N8|now apply written_nums|].
    constructor. apply graph_nonl, Forall_app. split; [exact (name8_graph _ _ N8)|]. apply enc_nums_nonl with (1 := written_nums _ _ F1). }
  assert (C4 : complete (fold_left put (firstn 4 vs) (begin s (s2l n))) = complete s ++ hb).
  { rewrite B, puts_from4 by (rewrite firstn_length; lia). unfold hb. now rewrite <- app_assoc. }
  rewrite <- (firstn_skipn 4 vs), fold_left_app. destruct (le_lt_dec (length vs) 4) as [L4|L4].
  - exists hb, []. rewrite (skipn_all2 vs) by lia. rewrite (skipn_all2 ws) by lia. cbn [fold_left]. rewrite app_nil_r. split; [exact C4|]. split; [exact X|].
    exists [], []. split; [|constructor]. split; [exact Logic.I|]. split; [reflexivity|now left].
  - assert (E4 : o_places (fold_left put (firstn 4 vs) (begin s (s2l n))) = 0) by (rewrite B; apply four_places; rewrite firstn_length; lia).
    destruct (cont_lines _ (skipn 4 vs) (skipn 4 ws) _ (le_n _) F2 E4) as (cs & bs & H1 & H2 & H3 & H4 & H5).
    unfold complete at 1 in C4. rewrite E4 in C4. cbn [Z.eqb] in C4.
    exists hb, bs. rewrite H1, C4. split; [now rewrite <- app_assoc|]. split; [exact X|]. exists [], cs. split; [|exact H2].
    split; [exact H3|]. split; [rewrite app_nil_r; exact H4|]. exact (last_nonempty cs H5).
Qed.

(** ** No carriage return *)
Definition clean (l : list ascii) : Prop := Forall (fun c => graphic c \/ c = blank \/ c = nl) l.
Lemma universal_clean l : clean l -> universal_newlines l = l.
Proof.
  induction 1 as [|c l H _ IH]; [reflexivity|]. cbn [universal_newlines]. replace (Ascii.eqb c "013") with false; [now rewrite IH|].
  symmetry. apply Ascii.eqb_neq. intros ->. destruct H as [H|[H|H]]; [unfold graphic in H; change (code "013") with 13 in H; lia|discriminate|discriminate].
Qed.
Lemma clean_app a b : clean a -> clean b -> clean (a ++ b).
Proof. intros. apply Forall_app. now split. Qed.
Lemma clean_nl : clean [nl]. Proof. constructor; [now right; right|constructor]. Qed.
Lemma clean_graph l : Forall (fun c => graphic c \/ c = blank) l -> clean l.
Proof. apply Forall_impl. tauto. Qed.
Lemma format_clean v w : written v w -> clean (format_e8 v).
Proof. intros H. apply clean_graph. rewrite <- (app_nil_r (format_e8 v)). apply (enc_nums_nonl [w]). constructor; [exact H|constructor]. Qed.
Lemma puts_clean vs ws : Forall2 written vs ws -> forall s, clean (o_text s) -> clean (o_text (fold_left put vs s)).
Proof.
  induction 1 as [|v w vs ws H _ IH]; intros s C; [exact C|]. cbn [fold_left]. apply IH. pose proof (format_clean v w H).
  unfold put. destruct (o_places s =? 0); [|destruct (o_places s =? 1)]; cbn [o_text]; (apply clean_app; [exact C|]).
  - apply clean_app; [apply clean_graph, Forall_repeat; now right|assumption].
  - apply clean_app; [assumption|apply clean_nl].
  - assumption.
Qed.
Lemma complete_clean s : clean (o_text s) -> clean (complete s).
Proof. intros H. unfold complete. destruct (o_places s =? 0); [exact H|apply clean_app; [exact H|apply clean_nl]]. Qed.
Lemma begin_clean s n : good_name n -> clean (o_text s) -> clean (o_text (begin s (s2l n))).
Proof.
  intros (_ & G & _) C. unfold begin. cbn [o_text]. apply clean_app; [exact (complete_clean s C)|]. unfold ljust8. apply clean_app; apply clean_graph.
  - revert G. apply Forall_impl. auto.
  - apply Forall_repeat. now right.
Qed.

(** ** Reading again *)
Lemma written_exist vs : Forall is_double vs -> exists ws, Forall2 written vs ws /\ Forall2 same_number vs ws.
Proof.
  induction 1 as [|v vs H _ (ws & I1 & I2)]; [exists []; split; constructor|]. destruct (format_again v H) as (w & H1 & H2).
  exists (w :: ws). split; constructor; assumption.
Qed.
Theorem written_read rs : forall s0, Forall good_record rs -> clean (o_text s0) ->
  exists s back bs, write_records (Some fwrite) rs s0 = Ok (tt, s) /\ Forall2 same_record rs back /\
    complete s = complete s0 ++ bs /\ clean (o_text s) /\
    forall tail fr h, exists s', read_records (map (fun r => Zlen (snd r)) rs) (mkIn Fmt (bs ++ tail) h fr) = Ok (back, s') /\ f_kind s' = Fmt /\ f_rest s' = tail.
Proof.
  induction rs as [|[n vs] rs IH]; intros s0 G C.
  - exists s0, [], []. split; [reflexivity|]. split; [constructor|]. split; [now rewrite app_nil_r|]. split; [exact C|].
    intros tail fr h. exists (mkIn Fmt tail h fr). now repeat split.
  - inversion_clear G as [|? ? (Gn & Gv) G2]. cbn [fst snd] in *. destruct (written_exist vs Gv) as (ws & W1 & W2).
    pose proof (Forall2_len _ _ _ W1) as LW.
    destruct (record_text n vs ws s0 Gn W1) as (hb & db & E & Hh & Hd). set (s1 := fold_left put vs (begin s0 (s2l n))) in *.
    assert (C1 : clean (o_text s1)) by (apply (puts_clean vs ws W1), begin_clean; assumption).
    destruct (IH s1 G2 C1) as (s & back & bs & H1 & H2 & H3 & H4 & H5).
    exists s, ((n, ws) :: back), (hb ++ db ++ bs). split.
    { cbn [write_records]. unfold sbind. rewrite write_record_puts. exact H1. }
    split; [constructor; [now split|exact H2]|]. split; [rewrite H3, E, <- !app_assoc; reflexivity|]. split; [exact H4|].
    intros tail fr h. cbn [map read_records snd]. unfold sbind. rewrite <- !app_assoc. rewrite (read_headerrec_enc _ _ _ _ _ _ _ Hh).
    unfold Zlen at 1. destruct (4 <? Z.of_nat (length vs)) eqn:L.
    + destruct (read_floats_all Fmt Lead8 _ _ (bs ++ tail) fr Hd) as (s2 & R & K2 & T2). cbn [lead_n] in R.
      replace (Zlen vs - 4) with (Zlen (skipn 4 ws)) by (unfold Zlen; rewrite skipn_length; lia). rewrite R.
      destruct s2 as [k2 r2 h2 f2]. cbn [f_kind f_rest] in K2, T2. subst k2 r2.
      destruct (H5 tail f2 h2) as (s' & R' & K' & T'). exists s'. rewrite R'. unfold sret. rewrite firstn_skipn. now repeat split.
    + assert (skipn 4 ws = []) as S4 by (apply skipn_all2; lia). rewrite S4 in Hd.
      assert (db = []) as ->.
      { destruct Hd as (pad & cs & (_ & D2 & D3) & D4). destruct D3 as [->|D3]; [inversion D4; reflexivity|].
        exfalso. cbn [app] in D2. pose proof (f_equal (@length _) D2) as D5. clear D4.
        assert (length (last cs []) <= length (concat cs))%nat; [|lia]. clear. induction cs as [|c cs I]; [cbn; lia|].
        cbn [concat]. rewrite app_length. destruct cs; [cbn; lia|]. change (last (c :: l :: cs) []) with (last (l :: cs) []). lia. }
      cbn [app]. unfold sret at 1. destruct (H5 tail fr false) as (s' & R' & K' & T'). exists s'. rewrite R'. unfold sret.
      rewrite app_nil_r, firstn_all2 by lia. now repeat split.
Qed.

Theorem file_read rs : Forall good_record rs -> exists s back s', write_records (Some fwrite) rs open_out = Ok (tt, s) /\ Forall2 same_record rs back /\
  read_records (map (fun r => Zlen (snd r)) rs) (open_in Fmt (o_text s ++ if o_places s =? 0 then [] else [nl])) = Ok (back, s') /\ f_rest s' = [].
Proof.
  intros G. destruct (written_read rs open_out G (Forall_nil _)) as (s & back & bs & H1 & H2 & H3 & H4 & H5).
  destruct (H5 [] [] false) as (s' & R & _ & T). exists s, back, s'. split; [exact H1|]. split; [exact H2|]. split; [|exact T].
  change (complete open_out) with (@nil ascii) in H3. cbn [app] in H3. rewrite app_nil_r in R. rewrite <- R. f_equal. unfold open_in. f_equal.
  replace (o_text s ++ if o_places s =? 0 then [] else [nl]) with (complete s) by (unfold complete; destruct (o_places s =? 0); [now rewrite app_nil_r|reflexivity]).
  rewrite universal_clean by now apply complete_clean. exact H3.
Qed.

(** A record given in parts. *)
Theorem record_parts n a b s : (do _ <- write_record (Some fwrite) n a; write_floats (Some fwrite) b) s = write_record (Some fwrite) n (a ++ b) s.
Proof.
  unfold sbind. rewrite !write_record_puts. rewrite write_floats_puts by (apply puts_places; cbn; lia). now rewrite <- fold_left_app.
Qed.
Lemma write_fails n rec s : write_record no_write n rec s = Err AttributeError.
Proof. unfold write_record, write_line, sbind, sraise, no_write. destruct (o_places s =? 0); reflexivity. Qed.
