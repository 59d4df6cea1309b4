(** * DataProofs: what the tables of a converted file hold. *)
From Verif Require Import Base Flt SeqFile H5 Schema Parsers SeqSpec StoreSpec ParserSpec LayoutSpec FileSpec DataSpec
  ListFacts SeqProofs SeqTerm StoreProofs ParserRun FileProofs.
From Coq Require Import ZifyBool ZifyNat.
Open Scope string_scope.
Open Scope Z_scope.
Open Scope list_scope.

Lemma Forall2_nth {A B} (R : A -> B -> Prop) l l' : Forall2 R l l' -> forall i a, nth_error l i = Some a ->
  exists b, nth_error l' i = Some b /\ R a b.
Proof.
  induction 1; intros [|i] z E; cbn in *; try discriminate; [injection E as <-; eauto|eauto].
Qed.
Lemma app2_nth {A} (l m n : list (list A)) : app2 l m n -> forall i c, nth_error n i = Some c ->
  exists a b, nth_error l i = Some a /\ nth_error m i = Some b /\ c = a ++ b.
Proof.
  induction 1 as [|a b l m n H IH]; intros [|i] c E; cbn in *; try discriminate; [injection E as <-; eauto|eauto].
Qed.
Lemma app2_length {A} (l m n : list (list A)) : app2 l m n -> length n = length l /\ length m = length l.
Proof. induction 1; cbn; intuition lia. Qed.
Lemma nth_error_map_seq {A} (f : nat -> A) n i : (i < n)%nat -> nth_error (map f (seq 0 n)) i = Some (f i).
Proof.
  intro H. rewrite nth_error_map. rewrite (nth_error_nth' _ 0%nat) by now rewrite seq_length. cbn. f_equal. f_equal.
  rewrite seq_nth by exact H. lia.
Qed.

Lemma ranges_cells : forall arrs ds cols cs, length arrs = length ds -> Forall (eq TI) cols ->
  Forall2 (fun tv c => stored (fst tv) (snd tv) c) (combine cols (ranges (map Zlen arrs) ds)) cs ->
  length cols = length (ranges (map (@Zlen cell) arrs) ds) ->
  cs = range_cells (map (fun ad => match snd ad with [] => (0, 0) | _ => (Zlen (fst ad), Zlen (fst ad) + Zlen (snd ad)) end) (combine arrs ds)).
Proof.
  induction arrs as [|a arrs IH]; intros [|d ds] cols cs L HT H Hl; try discriminate; cbn [map combine ranges] in *.
  - destruct cols; [|discriminate]. inversion H; subst. reflexivity.
  - rewrite app_length in Hl. assert (RL : length (range (Zlen a) d) = 2%nat) by now destruct d.
    destruct cols as [|t1 [|t2 cols]]; try (rewrite RL in Hl; discriminate).
    inversion HT as [|? ? T1 HT1]; subst. inversion HT1 as [|? ? T2 HT2]; subst.
    unfold range_cells. cbn [flat_map map fst snd].
    destruct d as [|x d]; cbn [range app combine] in H; inversion H as [|? c1 ? cs1 S1 H1]; subst;
      inversion H1 as [|? c2 ? cs2 S2 H2]; subst; cbn [fst snd stored] in S1, S2; destruct c1, c2; try contradiction;
      destruct S1 as [<- _], S2 as [<- _]; cbn [app]; (f_equal; f_equal);
      apply (IH ds cols cs2); auto; cbn in Hl; lia.
Qed.

Lemma cols_split n : cols_of n = map snd (columns n) ++ flat_map (fun _ => [TI; TI]) (atoms_of n).
Proof.
  unfold cols_of, descr_of. rewrite map_app. f_equal. induction (atoms_of n) as [|a l IH]; [reflexivity|]. cbn. now rewrite IH.
Qed.
Lemma elts_length n : length (elts_of n) = length (atoms_of n).
Proof. unfold elts_of. apply map_length. Qed.
Lemma ranges_length : forall bs ds, length bs = length ds -> length (ranges bs ds) = (2 * length ds)%nat.
Proof.
  induction bs as [|b bs IH]; intros [|d ds] L; try discriminate; [reflexivity|]. cbn [ranges]. rewrite app_length, IH by (cbn in L; lia).
  destruct d; cbn [length range]; lia.
Qed.
Lemma pairs_length {A} (l : list A) : length (flat_map (fun _ => [TI; TI]) l) = (2 * length l)%nat.
Proof. induction l; cbn in *; lia. Qed.
Lemma pairs_TI {A} (l : list A) : Forall (eq TI) (flat_map (fun _ => [TI; TI]) l).
Proof. induction l; cbn; repeat constructor; auto. Qed.
Lemma combine_app {A B} : forall (a c : list A) (b d : list B), length a = length b -> combine (a ++ c) (b ++ d) = combine a b ++ combine c d.
Proof. induction a as [|x a IH]; intros c [|y b] d H; try discriminate; [reflexivity|]. cbn. f_equal. apply IH. cbn in H. lia. Qed.

Lemma put_entry_row n c e c1 : put_entry (cols_of n) (elts_of n) c e c1 ->
  length (e_data e) = length (elts_of n) /\ length (c_arrs c) = length (elts_of n) /\
  exists cs, own_cells n e cs /\
    c_rows c1 = c_rows c ++ [cs ++ range_cells (map (fun ad => match snd ad with [] => (0, 0) | _ => (Zlen (fst ad), Zlen (fst ad) + Zlen (snd ad)) end) (combine (c_arrs c) (e_data e)))].
Proof.
  destruct 1 as [rows arrs e cs ds arrs' L1 L2 H3 H4 H5 H6]. cbn [c_arrs c_rows]. split; [exact L1|]. split; [exact L2|].
  rewrite cols_split in H3, H4. rewrite !app_length, pairs_length, map_length in H4.
  rewrite ranges_length in H4 by (rewrite map_length; congruence). rewrite L1, elts_length in H4.
  assert (HC : length (map snd (columns n)) = length (e_row e)) by (rewrite map_length; lia).
  rewrite combine_app in H3 by exact HC.
  apply Forall2_app_inv_l in H3 as (cs1 & cs2 & F1 & F2 & ->).
  exists cs1. split; [split; [rewrite map_length in HC; exact HC|exact F1]|]. f_equal. f_equal. f_equal.
  apply ranges_cells in F2; auto using pairs_TI; [congruence|].
  rewrite pairs_length, ranges_length, L1, elts_length; [reflexivity|]. rewrite map_length. congruence.
Qed.

Lemma Forall2_length {A B} (R : A -> B -> Prop) l l' : Forall2 R l l' -> length l = length l'.
Proof. induction 1; cbn; congruence. Qed.
Lemma stored_len t l l' : Forall2 (stored t) l l' -> Zlen l' = Zlen l.
Proof. intro H. apply Forall2_length in H. unfold Zlen. lia. Qed.
Lemma firstn_snoc_le {A} (l : list A) x j : (j <= length l)%nat -> firstn j (l ++ [x]) = firstn j l.
Proof. intro H. rewrite firstn_app. replace (j - length l)%nat with 0%nat by lia. now rewrite firstn_O, app_nil_r. Qed.
Lemma offset_snoc es e j m : (j <= length es)%nat -> offset (es ++ [e]) j m = offset es j m.
Proof. intro H. unfold offset. now rewrite firstn_snoc_le. Qed.
Lemma range_at_snoc es x j m e : (j <= length es)%nat -> range_at (es ++ [x]) j m e = range_at es j m e.
Proof. intro H. unfold range_at. now rewrite offset_snoc. Qed.

Lemma laid_out_step n es con e con1 : laid_out n es con -> put_entry (cols_of n) (elts_of n) con e con1 ->
  laid_out n (es ++ [e]) con1.
Proof.
  intros (L1 & L2 & R & A) P. destruct (put_entry_row _ _ _ _ P) as (Q1 & Q2 & cs & Q3 & Q4).
  assert (L1' : length (c_rows con1) = length (es ++ [e])).
  { rewrite Q4, !app_length, L1. reflexivity. }
  destruct P as [rows arrs e ccs ds arrs' P1 P2 P3 P4 P5 P6]. cbn [c_rows c_arrs] in *.
  destruct (app2_length _ _ _ P6) as [LA LB].
  unfold laid_out; cbn [c_rows c_arrs]. split; [exact L1'|]. split; [etransitivity; [exact LA|exact P2]|]. split.
  - intros j x Hj. destruct (Nat.lt_ge_cases j (length es)) as [Hl|Hl].
    + rewrite nth_error_app1 in Hj by exact Hl. destruct (R j x Hj) as (D & cs0 & O & N). split; [exact D|].
      exists cs0. split; [exact O|]. rewrite nth_error_app1 by lia. rewrite N. do 3 f_equal.
      apply map_ext_in. intros m _. symmetry. apply range_at_snoc. lia.
    + rewrite nth_error_app2 in Hj by exact Hl. destruct (j - length es)%nat eqn:Ej; [|destruct n0; discriminate].
      cbn in Hj. injection Hj as <-. assert (j = length es) by lia. subst j. split; [exact Q1|]. exists cs. split; [exact Q3|].
      rewrite Q4, nth_error_app2 by lia. rewrite L1, Nat.sub_diag. cbn [nth_error]. do 3 f_equal.
      apply (nth_ext _ _ (0, 0) (0, 0)).
      { rewrite !map_length, combine_length, seq_length. lia. }
      intros i Hi. rewrite map_length, combine_length in Hi.
      destruct (nth_error arrs i) as [a|] eqn:Ea; [|apply nth_error_None in Ea; lia].
      destruct (nth_error (e_data e) i) as [d|] eqn:Ed; [|apply nth_error_None in Ed; lia].
      destruct (nth_error (elts_of n) i) as [t|] eqn:Et; [|apply nth_error_None in Et; lia].
      assert (Ec : nth_error (combine arrs (e_data e)) i = Some (a, d)).
      { clear - Ea Ed. revert i Ea Ed. generalize (e_data e). induction arrs as [|x l IH]; intros [|y m] [|i]; cbn; try discriminate; try congruence. apply IH. }
      erewrite (nth_error_nth (map _ (combine _ _)) i); [|rewrite nth_error_map, Ec; reflexivity].
      erewrite (nth_error_nth (map _ (seq _ _)) i); [|apply nth_error_map_seq; lia].
      cbn [fst snd]. unfold range_at, data. rewrite (nth_error_nth _ _ _ Ed).
      specialize (A i t a Et Ea). apply stored_len in A.
      assert (Off : offset (es ++ [e]) (length es) i = Zlen a).
      { unfold offset. rewrite firstn_app, Nat.sub_diag, firstn_all, firstn_O, app_nil_r. symmetry. exact A. }
      rewrite Off. destruct d; reflexivity.
  - intros m t arr Ht Ha. destruct (app2_nth _ _ _ P6 _ _ Ha) as (a & b & Ea & Eb & ->).
    rewrite flat_map_app. apply Forall2_app; [now apply A|]. cbn [flat_map]. rewrite app_nil_r.
    destruct (nth_error (e_data e) m) as [d|] eqn:Ed.
    2:{ apply nth_error_None in Ed. assert (nth_error (elts_of n) m <> None) by congruence. apply nth_error_Some in H. lia. }
    assert (Ec : nth_error (combine (elts_of n) (e_data e)) m = Some (t, d)).
    { clear - Ht Ed. revert m Ht Ed. generalize (e_data e). induction (elts_of n) as [|x l IH]; intros [|y k] [|i]; cbn; try discriminate; try congruence. apply IH. }
    destruct (Forall2_nth _ _ _ P5 _ _ Ec) as (b' & Eb' & S). rewrite Eb in Eb'. injection Eb' as <-. cbn [fst snd] in S.
    unfold data. now rewrite (nth_error_nth _ _ _ Ed).
Qed.
Lemma laid_out_start n : laid_out n [] (base_content n None).
Proof.
  split; [reflexivity|]. split; [cbn; now rewrite map_length, elts_length|]. split.
  - intros [|j] e H; discriminate.
  - intros m t arr _ H. cbn in H. rewrite nth_error_map in H. destruct (nth_error (atoms_of n) m); [|discriminate].
    injection H as <-. constructor.
Qed.
Lemma laid_out_put n es0 c0 es c : laid_out n es0 c0 -> put_entries (cols_of n) (elts_of n) c0 es c -> laid_out n (es0 ++ es) c.
Proof.
  intros L P. revert es0 L. induction P as [c|c r c1 rs c2 Pe Ps IH]; intros es0 L; [now rewrite app_nil_r|].
  change (r :: rs) with ([r] ++ rs). rewrite app_assoc. apply IH. eapply laid_out_step; eauto.
Qed.
Theorem put_laid_out n es c : put_entries (cols_of n) (elts_of n) (base_content n None) es c -> laid_out n es c.
Proof. intro P. exact (laid_out_put n [] _ es c (laid_out_start n) P). Qed.

(** ** Looking records up *)
Lemma Zlen_app {A} (a b : list A) : Zlen (a ++ b) = Zlen a + Zlen b.
Proof. unfold Zlen. rewrite app_length. lia. Qed.
Lemma Forall2_slice {A B} (R : A -> B -> Prop) x y z l : Forall2 R (x ++ y ++ z) l ->
  Forall2 R y (firstn (length y) (skipn (length x) l)).
Proof.
  intro H. apply Forall2_app_inv_l in H as (l1 & l2 & H1 & H2 & ->). apply Forall2_app_inv_l in H2 as (l3 & l4 & H3 & H4 & ->).
  rewrite (Forall2_length _ _ _ H1), skipn_app, skipn_all, Nat.sub_diag. cbn [app skipn].
  rewrite (Forall2_length _ _ _ H3), firstn_app, firstn_all, Nat.sub_diag, firstn_O, app_nil_r. exact H3.
Qed.
Lemma nth_split_at {A} (l : list A) j x : nth_error l j = Some x -> l = firstn j l ++ x :: skipn (S j) l.
Proof.
  revert j. induction l as [|y l IH]; intros [|j] H; cbn in *; try discriminate; [now injection H as ->|]. f_equal. now apply IH.
Qed.

Lemma holds_array h w n con m arr : holds h w n con -> nth_error (c_arrs con) m = Some arr -> length (c_arrs con) = length (elts_of n) ->
  array_of h w n m = arr.
Proof.
  intros [_ H] Ha L. unfold array_of.
  assert (LP : length (apaths w n) = length (elts_of n)) by (rewrite apaths_map, map_length, elts_length; reflexivity).
  assert (Hm : (m < length (elts_of n))%nat) by (rewrite <- L; apply nth_error_Some; congruence).
  destruct (nth_error (apaths w n) m) as [p|] eqn:Ep; [|apply nth_error_None in Ep; lia].
  destruct (nth_error (elts_of n) m) as [t|] eqn:Et; [|apply nth_error_None in Et; lia].
  assert (E : nth_error (combine (apaths w n) (elts_of n)) m = Some (p, t)).
  { clear - Ep Et. revert m Ep Et. generalize (elts_of n). induction (apaths w n) as [|x l IH]; intros [|y k] [|i]; cbn; try discriminate; [congruence|apply IH]. }
  destruct (Forall2_nth _ _ _ H _ _ E) as (arr' & Ea & S). rewrite Ha in Ea. injection Ea as <-.
  unfold arr_items. cbn [fst snd] in S. now rewrite S.
Qed.

Theorem laid_out_record h w n es con j e : holds h w n con -> laid_out n es con -> nth_error es j = Some e -> has_record h w n j e.
Proof.
  intros H (L1 & L2 & R & A) Hj. destruct (R j e Hj) as (D & cs & O & N).
  exists cs, (map (fun m => range_at es j m e) (seq 0 (length (elts_of n)))).
  split; [|split; [exact O|split; [now rewrite map_length, seq_length|]]].
  - unfold row_at, tab_rows. destruct H as [-> _]. exact N.
  - intros m t r Ht Hr. assert (Hm : (m < length (elts_of n))%nat) by (apply nth_error_Some; congruence).
    rewrite nth_error_map_seq in Hr by exact Hm. injection Hr as <-.
    destruct (nth_error (c_arrs con) m) as [arr|] eqn:Ea; [|apply nth_error_None in Ea; lia].
    rewrite (holds_array _ _ _ _ _ _ H Ea L2). specialize (A m t arr Ht Ea). pose proof (stored_len _ _ _ A) as LA.
    rewrite (nth_split_at _ _ _ Hj) in A, LA. rewrite flat_map_app in A, LA. cbn [flat_map] in A, LA. rewrite !Zlen_app in LA.
    unfold range_at. destruct (data m e) as [|d0 d] eqn:Ed.
    + cbn [fst snd]. unfold slice. cbn [fst snd Z.sub Z.to_nat firstn]. repeat split; try lia; [unfold Zlen; lia|constructor].
    + cbn [fst snd] in *. unfold offset. unfold Zlen in LA. cbn [length] in LA.
      repeat split; try (unfold Zlen; cbn [length]; lia); try discriminate.
      unfold slice. cbn [fst snd]. rewrite <- Ed in *. apply Forall2_slice in A. unfold Zlen.
      rewrite Nat2Z.id. replace (Z.to_nat _) with (length (data m e)) by lia. exact A.
Qed.
