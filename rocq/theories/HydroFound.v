(** * HydroFound: what the records say is found in the data set. *)
From Verif Require Import Base Flt SeqFile H5 Schema SeqSpec StoreSpec ParserSpec LayoutSpec FileSpec DataSpec RecordSpec StrucSpec SaysSpec
  ListFacts StoreProofs DataProofs RecordProofs ParserRun SaysProofs HydroSpec HydroSays.
Open Scope string_scope.
Open Scope Z_scope.
Open Scope list_scope.

Lemma stored_fun : forall t v c d, stored t v c -> stored t v d -> c = d.
Proof.
  induction t as [| |n| |n t IH]; intros v c d H1 H2; destruct v, c; cbn in H1; try contradiction; destruct d; cbn in H2; try contradiction.
  - f_equal. destruct H1 as [H1 _], H2 as [H2 _]. eapply trunc_unique; eauto.
  - f_equal. destruct H1 as [H1 _], H2 as [H2 _]. congruence.
  - now subst.
  - f_equal. destruct H1 as [_ H1], H2 as [_ H2]. eapply text_of_fun; eauto.
  - destruct H1 as [-> ->], H2 as [-> ->]. reflexivity.
  - destruct H1 as [-> ->], H2 as [-> ->]. reflexivity.
  - f_equal. destruct H1 as [_ H1], H2 as [_ H2]. revert l1 H2. induction H1 as [|x y l m P Q IHl]; intros k H2; inversion H2; subst; [reflexivity|].
    f_equal; [eapply IH; eassumption|now apply IHl].
Qed.
Lemma own_cell n e cs i nm t c : own_cells n e cs -> nth_error (columns n) i = Some (nm, t) -> cell_at e i t c -> nth_error cs i = Some c.
Proof.
  intros O Hc (v & Hv & S). destruct (own_nth _ _ _ _ _ _ _ O Hc Hv) as (d & Hn & S'). rewrite Hn. f_equal. eapply stored_fun; eauto.
Qed.
Ltac cell_ O H := let K := fresh "K" in match type of H with cell_at _ ?i _ _ => pose proof (own_cell _ _ _ i _ _ _ O eq_refl H) as K end; cbn [nth_error] in K; injection K as ->.
Lemma stored_vec n t v cs : stored (TV n t) v (CV cs) -> length cs = n /\ Forall (fun c => exists v, stored t v c) cs.
Proof.
  destruct v as [| | | |l]; cbn; try contradiction. intros [L F]. split; [apply Forall2_length in F; lia|].
  clear L. induction F; constructor; eauto.
Qed.
Lemma stored_plain t v c : match t with TV _ _ => False | _ => True end -> stored t v c -> plain c.
Proof. destruct t, v, c; cbn; try contradiction; auto. Qed.
Lemma vec_plain n t v cs : match t with TV _ _ => False | _ => True end -> stored (TV n t) v (CV cs) -> length cs = n /\ Forall plain cs.
Proof.
  intros Ht H. apply stored_vec in H as [L F]. split; [exact L|]. eapply Forall_impl; [|exact F]. intros c (u & S). eapply stored_plain; eauto.
Qed.
Lemma Forall2_under {A B C} (P : B -> C -> Prop) (f : A -> B) l l' : Forall2 P (map f l) l' -> Forall2 (fun a => P (f a)) l l'.
Proof. revert l'. induction l as [|a l IH]; cbn; intros l' H; inversion H; subst; constructor; auto. Qed.
Ltac noranges_ n := change (seq 0 (length (elts_of n))) with (@nil nat); cbn [map range_cells flat_map]; rewrite app_nil_r.
Ltac table_ n := match goal with T : tables ?h ?w ?segs, HL : listed _ ?segs ?says ?xs |- _ =>
  let rows := fresh "rows" in let arrs := fresh "arrs" in
  destruct (tables_listed n _ _ _ _ _ T ltac:(stored_) HL) as ([rows arrs] & H & LO); pose proof LO as (_ & L2 & _); destruct arrs; [|discriminate L2] end.
Lemma rows_forall2 {A} n segs (says : nat -> StoreSpec.entry -> A -> Prop) xs con (R : A -> list cell -> Prop) :
  listed n segs says xs -> laid_out n (entries_of n segs) con ->
  (forall j e x cs, nth_error (entries_of n segs) j = Some e -> says j e x -> own_cells n e cs ->
     R x (cs ++ range_cells (map (fun m => range_at (entries_of n segs) j m e) (seq 0 (length (elts_of n)))))) ->
  Forall2 R xs (c_rows con).
Proof.
  intros HL LO HX. destruct (listed_rows n segs says xs con (fun _ => R) HL LO) as (L & K).
  - intros j e x cs He _ S O. eapply HX; eauto.
  - now apply Forall2_of_nth.
Qed.

(** ** References *)
Lemma no_records h w segs n : tables h w segs -> In n stored_types -> entries_of n segs = [] -> h5_find (tpath w n) h = None.
Proof. intros T Hn E. specialize (T n Hn). rewrite E in T. apply T. now left. Qed.
Lemma seconds_found vs xs cs : Forall2 second vs xs -> Forall2 (stored (TV 2 TF)) vs cs -> Forall2 (fun x c => exists a, c = CV [CF a; CF x]) xs cs.
Proof.
  intros H. revert cs. induction H as [|v x vs xs (f & g & -> & ->) H IH]; intros cs S; inversion S as [|a c b m P Q]; subst; constructor; [|now apply IH].
  destruct c as [| | | |l]; cbn in P; try contradiction. destruct P as [_ P]. inversion P as [|? c1 ? ? P1 P2]; subst. inversion P2 as [|? c2 ? ? P3 P4]; subst. inversion P4; subst.
  destruct c1; try contradiction. destruct c2; try contradiction. cbn in P3. subst. eauto.
Qed.
Lemma pairs_found vs cs : Forall2 (stored (TV 2 TF)) vs cs -> Forall (fun c => exists a b, c = CV [CF a; CF b]) cs.
Proof.
  induction 1 as [|v c vs cs P H IH]; constructor; [|exact IH]. destruct v, c; cbn in P; try contradiction. destruct P as [L P].
  destruct l as [|v1 [|v2 [|]]]; try discriminate L. inversion P as [|? c1 ? ? P1 P2]; subst. inversion P2 as [|? c2 ? ? P3 P4]; subst. inversion P4; subst.
  destruct v1, c1; cbn in P1; try contradiction. destruct v2, c2; cbn in P3; try contradiction. eauto.
Qed.
Lemma wdresref_arrays h w segs : tables h w segs -> entries_of "WDRESREF" segs <> [] ->
  exists rows ds fs ts, holds h w "WDRESREF" (mkC rows [ds; fs; ts]) /\ laid_out "WDRESREF" (entries_of "WDRESREF" segs) (mkC rows [ds; fs; ts]) /\
    Forall2 (stored (TV 2 TF)) (flat_map (data 0) (entries_of "WDRESREF" segs)) ds /\
    Forall2 (stored (TV 2 TF)) (flat_map (data 1) (entries_of "WDRESREF" segs)) fs /\
    Forall2 (stored (TV 2 TF)) (flat_map (data 2) (entries_of "WDRESREF" segs)) ts.
Proof.
  intros T N. specialize (T "WDRESREF" ltac:(stored_)). destruct (entries_of "WDRESREF" segs) as [|e es]; [congruence|].
  destruct T as ([rows arrs] & P & H). apply put_laid_out in P. pose proof P as (_ & L2 & _ & A). cbn [c_arrs] in *.
  destruct arrs as [|ds [|fs [|ts [|]]]]; try discriminate L2. exists rows, ds, fs, ts. split; [exact H|]. split; [exact P|].
  split; [exact (A 0%nat _ _ eq_refl eq_refl)|]. split; [exact (A 1%nat _ _ eq_refl eq_refl)|exact (A 2%nat _ _ eq_refl eq_refl)].
Qed.
Lemma headings_found h w segs dirs freqs times : tables h w segs -> headings_on segs dirs freqs times -> headings_in h w dirs freqs times.
Proof.
  intros T (N & S0 & S1 & S2). destruct (wdresref_arrays h w segs T N) as (rows & ds & fs & ts & H & _ & A0 & A1 & A2).
  exists rows, ds, fs, ts. split; [exact H|]. split; [|split]; eapply seconds_found; eauto.
Qed.
Lemma wrefs_seconds segs rs : wrefs_on segs rs ->
  Forall2 second (flat_map (data 0) (entries_of "WDRESREF" segs)) (map w_dir rs) /\
  Forall2 second (flat_map (data 1) (entries_of "WDRESREF" segs)) (map w_freq rs) /\ flat_map (data 2) (entries_of "WDRESREF" segs) = [].
Proof.
  intros (_ & L & S). revert L S. generalize (entries_of "WDRESREF" segs) as es. intros es. revert rs. induction es as [|e es IH]; intros [|r rs] L S; try discriminate; cbn [flat_map map]; [repeat constructor|].
  destruct (S 0%nat e r eq_refl eq_refl) as (_ & d & f & E & D & F). destruct (IH rs ltac:(now injection L) (fun j => S (Datatypes.S j))) as (I0 & I1 & I2).
  unfold data at 1 3 5. rewrite E. cbn [nth app]. rewrite I2. split; [|split]; [constructor; assumption|constructor; assumption|reflexivity].
Qed.
Lemma wrefs_headings segs rs : wrefs_on segs rs -> headings_on segs (map w_dir rs) (map w_freq rs) [].
Proof. intros H. pose proof H as (N & _). destruct (wrefs_seconds _ _ H) as (S0 & S1 & S2). split; [exact N|]. split; [exact S0|]. split; [exact S1|]. rewrite S2. constructor. Qed.
Lemma wrefs_found h w segs rs : tables h w segs -> wrefs_on segs rs -> wrefs_in h w rs.
Proof.
  intros T HL. pose proof HL as (N & _). destruct (wdresref_arrays h w segs T N) as (rows & ds & fs & ts & H & LO & A0 & A1 & A2).
  destruct (wrefs_seconds _ _ HL) as (S0 & S1 & S2). exists rows, ds, fs, ts. split; [exact H|]. split; [eapply pairs_found; eauto|]. split; [|split].
  - apply (rows_forall2 "WDRESREF" segs wref_says rs (mkC rows [ds; fs; ts])); [exact HL|exact LO|]. intros j e x cs _ (I1 & _) O.
    cells_ O cs. int_ O I1. any_ O 0%nat z0. any_ O 2%nat z2. any_ O 3%nat z3. do 4 eexists. reflexivity.
  - pose proof (seconds_found _ _ _ S0 A0) as F. apply Forall2_under in F. exact F.
  - pose proof (seconds_found _ _ _ S1 A1) as F. apply Forall2_under in F. exact F.
Qed.
(** ** Bodies, constants, counts *)
Lemma bodies_found h w segs bs : tables h w segs -> bodies_on segs bs -> bodies_in h w bs.
Proof.
  intros T HL. destruct (tables_listed "WBODCON" _ _ _ _ _ T ltac:(stored_) HL) as ([rows arrs] & H & LO).
  pose proof LO as (_ & L2 & _). destruct arrs as [|arr [|]]; try discriminate L2. exists rows, arr. split; [exact H|].
  apply (rows_forall2 "WBODCON" segs body_says bs (mkC rows [arr])); [exact HL|exact LO|]. intros j e x cs _ (I1 & I2) O.
  cells_ O cs. int_ O I1. int_ O I2. any_ O 0%nat z0. any_ O 3%nat z3. do 4 eexists. reflexivity.
Qed.
Lemma global_found h w segs g ro depth : tables h w segs -> global_on segs g ro depth -> global_in h w g ro depth.
Proof.
  intros T (e & es & E & R1 & R2 & R4). specialize (T "WGLOBDEF" ltac:(stored_)). rewrite E in T. destruct T as ([rows arrs] & P & H).
  apply put_laid_out in P. pose proof P as (L1 & L2 & R & _). cbn [c_rows c_arrs] in *. destruct arrs; [|discriminate L2].
  destruct (R 0%nat e eq_refl) as (_ & cs & O & Hrow). destruct rows as [|row more]; [discriminate|]. cbn [nth_error] in Hrow. injection Hrow as ->.
  exists (match cs with CI a :: _ => a | _ => 0 end), (match cs with _ :: _ :: _ :: CI b :: _ => b | _ => 0 end), more.
  change (seq 0 (length (elts_of "WGLOBDEF"))) with (@nil nat) in H. cbn [map range_cells flat_map] in H. rewrite app_nil_r in H.
  cells_ O cs. real_ O R1. real_ O R2. real_ O R4. any_ O 0%nat z0. any_ O 3%nat z3. exact H.
Qed.
Lemma counted_found h w segs n m : tables h w segs -> In n stored_types -> elts_of n = [] -> counted_on segs n m -> counted h w n m.
Proof.
  intros T Hn He Hc. unfold counted_on in Hc. pose proof (T n Hn) as T'. destruct (entries_of n segs) as [|e es] eqn:E.
  - right. split; [eapply no_records; eauto|now subst].
  - left. destruct T' as ([rows arrs] & P & H). apply put_laid_out in P. pose proof P as (L1 & L2 & _). cbn [c_rows c_arrs] in *.
    rewrite He in L2. destruct arrs; [|discriminate]. exists rows. split; [exact H|]. now rewrite L1.
Qed.
(** ** Results *)
Lemma responses_found h w segs rec fld n rs : tables h w segs -> response rec fld n -> responses_on segs rec n rs -> responses_in h w rec n rs.
Proof.
  intros T HK HL. unfold responses_on in HL.
  assert (Hn : In rec stored_types) by (destruct HK; stored_).
  destruct (tables_listed rec _ _ _ _ _ T Hn HL) as ([rows arrs] & H & LO). pose proof LO as (_ & L2 & _).
  assert (elts_of rec = []) as He by (destruct HK; vm_compute; reflexivity). rewrite He in L2. destruct arrs; [|discriminate L2].
  exists rows. split; [exact H|]. apply (rows_forall2 rec segs (resp_says rec n) rs (mkC rows [])); [exact HL|exact LO|].
  intros j e x cs _ (I1 & I2 & V) O. rewrite He. cbn [length seq map range_cells flat_map]. rewrite app_nil_r. unfold resp_row.
  destruct HK; cbn [str_in existsb orb] in V |- *.
  - cells_ O cs. change (cell_at e 4 (TV 6 TC) (CV (r_comps x))) in V. pose proof V as (v & _ & S). apply (vec_plain 6 TC) in S as [S1 S2]; [|exact I].
    int_ O I1. int_ O I2. cell_ O V. any_ O 0%nat z0. any_ O 3%nat z3. split; [exact S1|]. split; [exact S2|]. do 2 eexists. reflexivity.
  - cells_ O cs. change (cell_at e 4 (TV 6 TC) (CV (r_comps x))) in V. pose proof V as (v & _ & S). apply (vec_plain 6 TC) in S as [S1 S2]; [|exact I].
    int_ O I1. int_ O I2. cell_ O V. any_ O 0%nat z0. any_ O 3%nat z3. split; [exact S1|]. split; [exact S2|]. do 2 eexists. reflexivity.
  - cells_ O cs. change (cell_at e 3 (TV 6 TF) (CV (r_comps x))) in V. pose proof V as (v & _ & S). apply (vec_plain 6 TF) in S as [S1 S2]; [|exact I].
    int_ O I1. int_ O I2. cell_ O V. any_ O 0%nat z0. split; [exact S1|]. split; [exact S2|]. exists z0, 0. reflexivity.
  - cells_ O cs. change (cell_at e 3 (TV 3 TF) (CV (r_comps x))) in V. pose proof V as (v & _ & S). apply (vec_plain 3 TF) in S as [S1 S2]; [|exact I].
    int_ O I1. int_ O I2. cell_ O V. any_ O 0%nat z0. split; [exact S1|]. split; [exact S2|]. exists z0, 0. reflexivity.
Qed.
Lemma sforces_found h w segs rs : tables h w segs -> sforces_on segs rs -> sforces_in h w rs.
Proof.
  intros T HL. unfold sforces_on in HL. table_ "W1SFORCE". exists rows. split; [exact H|].
  apply (rows_forall2 "W1SFORCE" segs sforce_says rs (mkC rows [])); [exact HL|exact LO|]. intros j e x cs _ (I1 & I2 & I3 & V) O. noranges_ "W1SFORCE".
  pose proof V as (v & _ & S). apply (vec_plain 6 TC) in S as [S1 S2]; [|exact I]. split; [exact S1|]. split; [exact S2|].
  cells_ O cs. int_ O I1. int_ O I2. int_ O I3. cell_ O V. any_ O 0%nat z0. any_ O 4%nat z4. do 2 eexists. reflexivity.
Qed.
Lemma fluids_found h w segs rs : tables h w segs -> fluids_on segs rs -> fluids_in h w rs.
Proof.
  intros T HL. unfold fluids_on in HL. table_ "WFLUIDKN". exists rows. split; [exact H|].
  apply (rows_forall2 "WFLUIDKN" segs fluid_says rs (mkC rows [])); [exact HL|exact LO|]. intros j e x cs _ (I1 & I2 & P & V) O. noranges_ "WFLUIDKN".
  split; [destruct P as (v & _ & S); eapply stored_plain; [|exact S]; exact I|].
  pose proof V as (v & _ & S). apply (vec_plain 3 TC) in S as [S1 S2]; [|exact I]. split; [exact S1|]. split; [exact S2|].
  cells_ O cs. int_ O I1. int_ O I2. cell_ O P. cell_ O V. any_ O 0%nat z0. any_ O 3%nat z4. do 2 eexists. reflexivity.
Qed.
Lemma panels_found h w segs rs : tables h w segs -> panels_on segs rs -> panels_in h w rs.
Proof.
  intros T HL. unfold panels_on in HL. table_ "W1PANPRE". exists rows. split; [exact H|].
  apply (rows_forall2 "W1PANPRE" segs panel_says rs (mkC rows [])); [exact HL|exact LO|]. intros j e x cs _ (I1 & I2 & I4 & P & I7) O. noranges_ "W1PANPRE".
  split; [destruct P as (v & _ & S); eapply stored_plain; [|exact S]; exact I|].
  cells_ O cs. int_ O I1. int_ O I2. int_ O I4. cell_ O P. int_ O I7. any_ O 0%nat z0. any_ O 3%nat z3. any_ O 5%nat z5. any_ O 8%nat z8. do 4 eexists. reflexivity.
Qed.
Lemma rows_plain n m v l : stored (TV n (TV m TF)) v (CV (map CV l)) -> length l = n /\ Forall (fun r => length r = m /\ Forall plain r) l.
Proof.
  intros S. apply stored_vec in S as [L F]. rewrite map_length in L. split; [exact L|]. clear L. induction l as [|r l IH]; constructor; inversion F as [|? ? (u & S) F']; subst.
  - eapply vec_plain; [|exact S]. exact I.
  - now apply IH.
Qed.
Lemma matrices_found h w segs ms : tables h w segs -> matrices_on segs ms -> matrices_in h w ms.
Proof.
  intros T HL. unfold matrices_on in HL. table_ "W1MATRIX". exists rows. split; [exact H|].
  apply (rows_forall2 "W1MATRIX" segs matr_says ms (mkC rows [])); [exact HL|exact LO|]. intros j e x cs _ (I2 & I3 & I5 & V) O. noranges_ "W1MATRIX".
  pose proof V as (v & _ & S). apply rows_plain in S as [S1 S2]. split; [exact S1|]. split; [exact S2|].
  cells_ O cs. int_ O I2. int_ O I3. int_ O I5. cell_ O V. any_ O 0%nat z0. any_ O 1%nat z1. any_ O 4%nat z4. do 3 eexists. reflexivity.
Qed.
