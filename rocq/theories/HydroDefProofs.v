(** * HydroDefProofs: sections, points, bodies and panels. *)
From Coq Require Import Sorted.
From Verif Require Import Base Flt SeqFile H5 Schema Parsers Data Files SeqSpec StoreSpec ParserSpec LayoutSpec FileSpec DataSpec DataFacts DataProofs
  RecordProofs StrucSpec StrucRes SaysSpec SaysProofs Nd Hydro HydroSpec HydroProofs HydroMore HydroGrid HydroSays HydroFound HydroDefSpec.
Open Scope string_scope.
Open Scope Z_scope.
Open Scope list_scope.

Lemma rmap_rel {A B} (P : A -> list cell -> Prop) (f : list cell -> Res B) (g : A -> B) l rows : (forall a row, P a row -> f row = Ok (g a)) -> Forall2 P l rows -> rmap f rows = Ok (map g l).
Proof. intros H. induction 1 as [|a row l rows Ha HF IH]; [reflexivity|]. cbn [rmap map]. rewrite (H _ _ Ha). cbn [rbind]. now rewrite IH. Qed.
Section Defs.
  Variables (h : h5) (x : hydro).
  Let d := hy_data x.
  Let w := d_group d.
  Hypothesis Ho : d_open d = true.

  Lemma sections_ok ss : wsections_in h w ss -> get_sections h x = Ok (map (fun s => [CI (s_usr s); CI (s_type s); s_p1 s; s_p2 s; s_p3 s]) ss).
  Proof.
    intros (rows & H & HF). unfold get_sections. fold d. rewrite (holds_record0 _ _ _ _ _ Ho H). cbn [rbind t_rows].
    eapply rmap_rel; [|exact HF]. intros s row (a & b & c & ->). reflexivity.
  Qed.
  Lemma points_ok ps : points_in h w ps -> get_points h x = Ok (mkNd [length ps; 3%nat] (concat ps)).
  Proof.
    intros (rows & H & HF). unfold get_points. fold d. rewrite (holds_record0 _ _ _ _ _ Ho H). cbn [rbind t_rows].
    rewrite (column_rel (fun p row => length p = 3%nat /\ Forall plain p /\ exists a b, row = [CI a; CI b; CV p]) (mkTab (descr_of "WFKPOINT") rows) "fkpnt" (TV 3 TF) CV ps rows eq_refl); [| |exact HF].
    - cbn [shape_of]. do 2 f_equal. clear H. induction HF as [|p row l rows (_ & Hp & _) HF IH]; [reflexivity|]. cbn [map flat_map concat]. rewrite IH. f_equal. cbn [flat_cell]. now apply flat_plain.
    - intros p row (_ & _ & a & b & ->). reflexivity.
  Qed.
  Lemma body_ok bs b i l1 v l2 ps : bodies_in h w bs -> body_cond bs b i -> wbodies_in h w ps ->
    ps = l1 ++ (i, v) :: l2 -> ~ In i (map fst l1) -> get_bodyproperties h x b = Ok (combine prop_names v).
  Proof.
    intros HB Hi (rows & H & HF) -> Hn. unfold get_bodyproperties. fold d. rewrite (holds_record0 _ _ _ _ _ Ho H). cbn [rbind t_rows].
    rewrite (ibcond_ok h x Ho bs b i HB Hi). cbn [rbind]. set (t := mkTab (descr_of "WBODY") rows).
    pose (P := fun (b : Z * list cell) (row : list cell) => length (snd b) = 15%nat /\ exists a, row = CI a :: CI (fst b) :: snd b).
    assert (F : forall c row, P c row -> int_is t "ibcond" i row = Ok (fst c =? i)) by (intros c row (_ & a & ->); reflexivity).
    change (Forall2 P (l1 ++ (i, v) :: l2) rows) in HF. assert (E : t_rows t = rows) by reflexivity. assert (ED : map fst (t_descr t) = "nfield" :: "ibcond" :: prop_names) by reflexivity. clearbody t. clear H.
    apply Forall2_app_inv_l in HF as (r1 & r2 & HF1 & HF2 & ->). inversion HF2 as [|? row ? r3 Hr HF3]; subst r2.
    assert (G : exists out, rfilter (int_is t "ibcond" i) (r1 ++ row :: r3) = Ok (row :: out)).
    { clear E HF2. revert Hn. induction HF1 as [|c r l1 r1 Hc HF1 IH]; intro Hn; cbn [app rfilter].
      - rewrite (F _ _ Hr). cbn [fst rbind]. rewrite Z.eqb_refl.
        destruct (rfilter_rel P (int_is t "ibcond" i) (fun c => fst c =? i) l2 r3 F HF3) as (out & -> & _). exists out. reflexivity.
      - rewrite (F _ _ Hc). cbn [rbind]. cbn [map In] in Hn. destruct (Z.eqb_spec (fst c) i); [tauto|]. destruct (IH ltac:(tauto)) as (out & ->). exists out. reflexivity. }
    destruct G as (out & G). unfold getrow. rewrite E, G. cbn [rbind]. rewrite ED. destruct Hr as (Lv & a & ->). cbn [fst snd] in Lv |- *. f_equal.
    do 15 (destruct v as [|? v]; [discriminate Lv|]). destruct v; [|discriminate Lv]. reflexivity.
  Qed.
  Lemma body_missing bs b i ps : bodies_in h w bs -> body_cond bs b i -> wbodies_in h w ps -> ~ In i (map fst ps) -> get_bodyproperties h x b = Err ConditionError.
  Proof.
    intros HB Hi (rows & H & HF) Hn. unfold get_bodyproperties. fold d. rewrite (holds_record0 _ _ _ _ _ Ho H). cbn [rbind t_rows].
    rewrite (ibcond_ok h x Ho bs b i HB Hi). cbn [rbind]. set (t := mkTab (descr_of "WBODY") rows). unfold getrow.
    assert (G : rfilter (int_is t "ibcond" i) rows = Ok []); [|change (t_rows t) with rows; now rewrite G].
    assert (F : forall c row, length (snd c) = 15%nat /\ (exists a, row = CI a :: CI (fst c) :: snd c) -> int_is t "ibcond" i row = Ok (fst c =? i)) by (intros c row (_ & a & ->); reflexivity).
    clearbody t. clear H. induction HF as [|c r l l' Hc HF IH]; [reflexivity|]. cbn [map In] in Hn. cbn [rfilter]. rewrite (F _ _ Hc). cbn [rbind].
    destruct (Z.eqb_spec (fst c) i); [tauto|]. rewrite IH by tauto. reflexivity.
  Qed.
  Lemma body_unknown bs b ps : bodies_in h w bs -> wbodies_in h w ps -> ~ In b (map fst bs) -> get_bodyproperties h x b = Err ConditionError.
  Proof.
    intros HB (rows & H & _) Hn. unfold get_bodyproperties. fold d. rewrite (holds_record0 _ _ _ _ _ Ho H). cbn [rbind]. now rewrite (ibcond_unknown h x Ho bs b HB Hn).
  Qed.

  (** Panels *)
  Lemma ids_sorted pans symms : StronglySorted Z.lt pans -> StronglySorted Z.lt symms -> StronglySorted before (flat_map (fun s => map (fun p => (p, s)) pans) symms).
  Proof.
    intros HP HS. induction HS as [|s symms HS IH HF]; [constructor|]. cbn [flat_map].
    assert (G : forall l, StronglySorted Z.lt l -> StronglySorted before (map (fun p => (p, s)) l ++ flat_map (fun s => map (fun p => (p, s)) pans) symms)); [|now apply G].
    induction 1 as [|p l Hl IHl Hp]; [exact IH|]. cbn [map app]. constructor; [exact IHl|]. apply Forall_app. split.
    - rewrite Forall_map. eapply Forall_impl; [|exact Hp]. intros q Hq. right. cbn [fst snd] in *. lia.
    - apply Forall_forall. intros [q u] Hq. apply in_flat_map in Hq as (s' & Hs & Hq). apply in_map_iff in Hq as (q' & E & _). injection E as <- <-.
      rewrite Forall_forall in HF. specialize (HF _ Hs). left. cbn [snd]. lia.
  Qed.
  Lemma ids_ok bs b i all mine : hy_freqs x <> [] -> bodies_in h w bs -> body_cond bs b i -> b <> 0 -> panels_in h w all -> subseq (fun r => p_cond r = i) all mine -> mine <> [] ->
    exists ids, get_pressure_panel_ids h x b = Ok (Some ids) /\ ids_of mine ids /\
      ids = flat_map (fun s => map (fun p => (p, s)) (unique (map p_pan mine))) (unique (map p_symm mine)).
  Proof.
    intros Hf HB Hi Hb HR HM HN. destruct (panel_counts h x all mine bs b i Ho HB Hi Hb HR HM) as [C1 C2]. destruct (panel_columns h x all mine bs b i Ho HB Hi Hb HR HM) as (_ & E1 & E2).
    unfold get_pressure_panel_ids. rewrite (domain_ok x Ho Hf). cbn [rbind]. rewrite C1. cbn [rbind]. rewrite C2. cbn [rbind]. unfold int_results. rewrite E1, E2. cbn [rbind n_flat]. rewrite !ints_of_CI. cbn [rbind].
    destruct (length (unique (map p_pan mine))) as [|np'] eqn:EN.
    { exfalso. destruct (unique (map p_pan mine)) eqn:U; [|discriminate]. apply unique_nil in U. destruct mine; [congruence|discriminate]. }
    eexists. split; [reflexivity|]. split; [|reflexivity]. split; [apply ids_sorted; apply sorted_unique|].
    intros pan symm. rewrite in_flat_map. split.
    - intros (s & Hs & Hp). apply in_map_iff in Hp as (p & E & Hp). injection E as <- <-. split; apply In_unique; assumption.
    - intros [Hp Hs]. exists symm. split; [now apply In_unique|]. apply in_map_iff. exists pan. split; [reflexivity|now apply In_unique].
  Qed.
End Defs.
(** Ascending lists with the same members are the same. *)
Lemma sorted_same l l' : StronglySorted Z.lt l -> StronglySorted Z.lt l' -> (forall z, In z l <-> In z l') -> l = l'.
Proof.
  intros H. revert l'. induction H as [|a l H IH HF]; intros l' H' E.
  - destruct l' as [|b l']; [reflexivity|]. destruct (proj2 (E b) (or_introl eq_refl)).
  - destruct H' as [|b l' H' HF']; [destruct (proj1 (E a) (or_introl eq_refl))|]. rewrite Forall_forall in HF, HF'.
    assert (a = b) as ->.
    { destruct (proj1 (E a) (or_introl eq_refl)) as [A|A]; [auto|]. destruct (proj2 (E b) (or_introl eq_refl)) as [B|B]; [auto|]. specialize (HF _ B). specialize (HF' _ A). lia. }
    f_equal. apply IH; [exact H'|]. intros z. specialize (E z). cbn [In] in E. split; intro Z.
    + destruct (proj1 E (or_intror Z)) as [->|K]; [specialize (HF _ Z); lia|exact K].
    + destruct (proj2 E (or_intror Z)) as [->|K]; [specialize (HF' _ Z); lia|exact K].
Qed.
Lemma unique_is l l' : StronglySorted Z.lt l' -> (forall z, In z l <-> In z l') -> unique l = l'.
Proof. intros S E. apply sorted_same; [apply sorted_unique|exact S|]. intro z. rewrite In_unique. apply E. Qed.
Lemma minor_members refs symms pans mine : refs <> [] -> symms <> [] -> pans <> [] -> panel_minor refs symms pans mine ->
  (forall z, In z (map p_pan mine) <-> In z pans) /\ (forall z, In z (map p_symm mine) <-> In z symms).
Proof.
  intros Hr Hs Hp HM. unfold panel_minor in HM.
  assert (EP : map p_pan mine = map (fun q => snd (snd q)) (list_prod (map w_ires refs) (list_prod symms pans))) by (rewrite <- HM, map_map; reflexivity).
  assert (ES : map p_symm mine = map (fun q => fst (snd q)) (list_prod (map w_ires refs) (list_prod symms pans))) by (rewrite <- HM, map_map; reflexivity).
  destruct refs as [|r0 refs]; [congruence|]. split; intro z; rewrite ?EP, ?ES, in_map_iff; split.
  - intros ((a & s & p) & E & K). apply in_prod_iff in K as [_ K]. apply in_prod_iff in K as [_ K]. cbn [snd] in E. now subst.
  - intro K. destruct symms as [|s0 symms]; [congruence|]. exists (w_ires r0, (s0, z)). split; [reflexivity|]. apply in_prod; [now left|]. apply in_prod; [now left|exact K].
  - intros ((a & s & p) & E & K). apply in_prod_iff in K as [_ K]. apply in_prod_iff in K as [K _]. cbn [fst snd] in E. now subst.
  - intro K. destruct pans as [|p0 pans]; [congruence|]. exists (w_ires r0, (z, p0)). split; [reflexivity|]. apply in_prod; [now left|]. apply in_prod; [exact K|now left].
Qed.

(** ** Found in the store *)
Lemma wsections_found h w segs ss : tables h w segs -> wsections_on segs ss -> wsections_in h w ss.
Proof.
  intros T HL. unfold wsections_on in HL. table_ "WSECTION". exists rows. split; [exact H|].
  apply (rows_forall2 "WSECTION" segs wsect_says ss (mkC rows [])); [exact HL|exact LO|]. intros j e x cs _ (I3 & I4 & V5 & V6 & V7) O. noranges_ "WSECTION".
  cells_ O cs. int_ O I3. int_ O I4. cell_ O V5. cell_ O V6. cell_ O V7. any_ O 0%nat z0. any_ O 1%nat z1. any_ O 2%nat z2. do 3 eexists. reflexivity.
Qed.
Lemma points_found h w segs ps : tables h w segs -> points_on segs ps -> points_in h w ps.
Proof.
  intros T HL. unfold points_on in HL. table_ "WFKPOINT". exists rows. split; [exact H|].
  apply (rows_forall2 "WFKPOINT" segs point_says ps (mkC rows [])); [exact HL|exact LO|]. intros j e x cs _ V O. noranges_ "WFKPOINT". unfold point_says in V.
  pose proof V as (v & _ & S). apply (vec_plain 3 TF) in S as [S1 S2]; [|exact I]. split; [exact S1|]. split; [exact S2|].
  cells_ O cs. cell_ O V. any_ O 0%nat z0. any_ O 1%nat z1. do 2 eexists. reflexivity.
Qed.
Lemma wbodies_found h w segs bs : tables h w segs -> wbodies_on segs bs -> wbodies_in h w bs.
Proof.
  intros T HL. unfold wbodies_on in HL. table_ "WBODY". exists rows. split; [exact H|].
  apply (rows_forall2 "WBODY" segs wbody_says bs (mkC rows [])); [exact HL|exact LO|]. intros j e x cs _ (I1 & rs & t & E & L & R & V) O. noranges_ "WBODY". rewrite E.
  split; [rewrite app_length, L; reflexivity|]. destruct x as [i v]. cbn [fst snd] in *.
  do 14 (destruct rs as [|? rs]; [discriminate L|]). destruct rs; [|discriminate L].
  pose proof (R 0%nat _ eq_refl) as R0. pose proof (R 1%nat _ eq_refl) as R1. pose proof (R 2%nat _ eq_refl) as R2. pose proof (R 3%nat _ eq_refl) as R3. pose proof (R 4%nat _ eq_refl) as R4.
  pose proof (R 5%nat _ eq_refl) as R5. pose proof (R 6%nat _ eq_refl) as R6. pose proof (R 7%nat _ eq_refl) as R7. pose proof (R 8%nat _ eq_refl) as R8. pose proof (R 9%nat _ eq_refl) as R9.
  pose proof (R 10%nat _ eq_refl) as R10. pose proof (R 11%nat _ eq_refl) as R11. pose proof (R 12%nat _ eq_refl) as R12. pose proof (R 13%nat _ eq_refl) as R13. cbn [Nat.add] in *.
  cells_ O cs. int_ O I1. real_ O R0. real_ O R1. real_ O R2. real_ O R3. real_ O R4. real_ O R5. real_ O R6. real_ O R7. real_ O R8. real_ O R9. real_ O R10. real_ O R11. real_ O R12. real_ O R13. cell_ O V.
  any_ O 0%nat z0. eexists. reflexivity.
Qed.
