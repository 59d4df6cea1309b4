(** * Props_HydroDef: properties C58 and C59. *)
From Coq Require Import Sorted.
From Verif Require Import Base Flt SeqFile H5 Schema Parsers Data Files SifName Convert SeqSpec StoreSpec ParserSpec LayoutSpec FileSpec DataSpec
  DataProofs StrucSpec StrucSample SifNameSpec ConvertSpec AssemblySpec SaysSpec SaysOpen SaysProofs Nd NdProofs Hydro HydroSpec HydroUnique HydroProofs HydroMore HydroGrid HydroSays HydroFound
  HydroDefSpec HydroDefProofs HydroSample HydroFileSample Props_Hydro Props_HydroFile.
Open Scope string_scope.
Open Scope Z_scope.
Open Scope list_scope.

(** ** C58: sections, points, properties of bodies, matrices by name *)
Theorem C58_sections : forall d top segs h x ss, opens d top segs h x -> wsections_on segs ss ->
  get_sections h x = Ok (map (fun s => [CI (s_usr s); CI (s_type s); s_p1 s; s_p2 s; s_p3 s]) ss).
Proof. intros d top segs h x ss H HS. opened_ H. apply sections_ok; [exact HO|]. eapply wsections_found; eauto. Qed.
Print Assumptions C58_sections.
Theorem C58_points : forall d top segs h x ps, opens d top segs h x -> points_on segs ps ->
  exists a, get_points h x = Ok a /\ n_shape a = [length ps; 3%nat] /\ Forall (fun p => length p = 3%nat) ps /\
    forall k j p, nth_error ps k = Some p -> (j < 3)%nat -> at_ a [k; j] = nth_error p j.
Proof.
  intros d top segs h x ps H HS. opened_ H. pose proof (points_found _ _ _ _ HT HS) as HP. eexists. split; [exact (points_ok h x HO ps HP)|]. split; [reflexivity|].
  assert (L : Forall (fun p => length p = 3%nat) ps).
  { destruct HP as (rows & _ & HF). clear - HF. induction HF as [|p row l rows (Hp & _) HF IH]; constructor; assumption. }
  split; [exact L|]. intros k j p Hk Hj. rewrite Forall_forall in L.
  assert (Hkl : (k < length ps)%nat) by (apply nth_error_Some; congruence).
  unfold at_. cbn [n_shape n_flat inside ravel size fold_right]. apply Nat.ltb_lt in Hkl. rewrite Hkl. apply Nat.ltb_lt in Hj as Hj'. rewrite Hj'. cbn [andb].
  rewrite <- (nth_blocks (fun r => r) 3 ps k j p L Hk Hj), flat_map_concat_map, map_id. f_equal. lia.
Qed.
Print Assumptions C58_points.
(** The first WBODY record of the condition which belongs to the body *)
Theorem C58_body : forall d top segs h x bs b i ps l1 v l2, opens d top segs h x -> bodies_on segs bs -> body_cond bs b i -> wbodies_on segs ps ->
  ps = l1 ++ (i, v) :: l2 -> ~ In i (map fst l1) -> length v = length prop_names /\ get_bodyproperties h x b = Ok (combine prop_names v).
Proof.
  intros d top segs h x bs b i ps l1 v l2 H HB Hi HP E Hn. opened_ H. pose proof (wbodies_found _ _ _ _ HT HP) as HP'. split.
  - destruct HP' as (rows & _ & HF). subst ps. apply Forall2_app_inv_l in HF as (r1 & r2 & _ & HF & _). inversion HF as [|? ? ? ? [L _]]. exact L.
  - eapply body_ok; eauto. eapply bodies_found; eauto.
Qed.
Print Assumptions C58_body.
Theorem C58_body_missing : forall d top segs h x bs b ps, opens d top segs h x -> bodies_on segs bs -> wbodies_on segs ps ->
  (~ In b (map fst bs) \/ exists i, body_cond bs b i /\ ~ In i (map fst ps)) -> get_bodyproperties h x b = Err ConditionError.
Proof.
  intros d top segs h x bs b ps H HB HP K. opened_ H. pose proof (bodies_found _ _ _ _ HT HB) as HB'. pose proof (wbodies_found _ _ _ _ HT HP) as HP'.
  destruct K as [K|(i & Hi & K)]; [eapply body_unknown|eapply body_missing]; eauto.
Qed.
Print Assumptions C58_body_missing.
Lemma record0_none h x n : d_open (hy_data x) = true -> h5_find (tpath (d_group (hy_data x)) n) h = None -> record0 h (hy_data x) n = Err NoSuchRecordError.
Proof. intros HO E. unfold record0, get_record, check_isopen, get_child_table. rewrite HO. cbn [rbind]. change (d_group (hy_data x) ++ [lower_s n]) with (tpath (d_group (hy_data x)) n). rewrite E. reflexivity. Qed.
Theorem C58_no_records : forall d top segs h x b, opens d top segs h x ->
  (entries_of "WSECTION" segs = [] -> get_sections h x = Err NoSuchRecordError) /\
  (entries_of "WFKPOINT" segs = [] -> get_points h x = Err NoSuchRecordError) /\
  (entries_of "WBODY" segs = [] -> get_bodyproperties h x b = Err NoSuchRecordError).
Proof.
  intros d top segs h x b H. opened_ H.
  split; [|split]; intro E; unfold get_sections, get_points, get_bodyproperties; rewrite record0_none; try exact HO; try reflexivity; (eapply no_records; [exact HT|stored_|exact E]).
Qed.
Print Assumptions C58_no_records.
Theorem C58_matrices : forall d top segs h x ms bs b b2 i j,
  opens d top segs h x -> bodies_on segs bs -> body_cond bs b i -> body_cond bs b2 j -> matrices_on segs ms ->
  (forall get typ, In (get, typ) matrix_getters ->
    (forall l1 m l2, ms = l1 ++ m :: l2 -> is_for i j typ m -> (forall m', In m' l1 -> ~ is_for i j typ m') ->
      exists a, get h x b b2 = Ok a /\ n_shape a = [6; 6]%nat /\
        forall p q, (p < 6)%nat -> (q < 6)%nat -> exists c, at_ a [p; q] = Some c /\ HydroSpec.entry m p q c) /\
    ((forall m, In m ms -> ~ is_for i j typ m) -> get h x b b2 = Err ConditionError)) /\
  (forall get typ sel, In (get, typ) matrix_series -> subseq (is_for i j typ) ms sel ->
    exists a, get h x b b2 = Ok a /\ n_shape a = [6%nat; 6%nat; length sel] /\
      forall p q f m, (p < 6)%nat -> (q < 6)%nat -> nth_error sel f = Some m -> exists c, at_ a [p; q; f] = Some c /\ HydroSpec.entry m p q c).
Proof.
  intros d top segs h x ms bs b b2 i j H HB Hi Hj HM. destruct (C57_matrices d top segs h x ms bs b b2 i j H HB Hi Hj HM) as (A & B & C). split.
  - intros get typ Hg. assert (Ht : In typ [11; 22; 31; 32] /\ get h x b b2 = get_matrix h x typ b b2).
    { cbn [matrix_getters In] in Hg. destruct Hg as [E|[E|[E|[E|[]]]]]; injection E as <- <-; (split; [cbn; tauto|reflexivity]). }
    destruct Ht as [Ht ->]. split; [intros l1 m l2; exact (A typ l1 m l2 Ht)|exact (B typ Ht)].
  - intros get typ sel Hg. assert (Ht : In typ [12; 21] /\ get h x b b2 = get_matrix h x typ b b2).
    { cbn [matrix_series In] in Hg. destruct Hg as [E|[E|[]]]; injection E as <- <-; (split; [cbn; tauto|reflexivity]). }
    destruct Ht as [Ht ->]. exact (C typ sel Ht).
Qed.
Print Assumptions C58_matrices.

Example C58_case_sections : wsections_on v_segs v_wsections /\
  get_sections v_h v_x = Ok [[CI 7; CI 1; CV [CF (rf 5); CF (rf 0); CF (rf 0)]; CV [CF (rf 5); CF (rf 1); CF (rf 0)]; CV [CF (rf 5); CF (rf 0); CF (rf 1)]];
                              [CI 7; CI 1; CV [CF (rf 10); CF (rf 0); CF (rf 0)]; CV [CF (rf 10); CF (rf 1); CF (rf 0)]; CV [CF (rf 10); CF (rf 0); CF (rf 1)]]].
Proof. split; [exact v_has_wsections|]. rewrite (C58_sections _ _ _ _ _ _ v_opens v_has_wsections). reflexivity. Qed.
Example C58_case_points : points_on v_segs v_points /\ get_points v_h v_x = Ok (mkNd [2; 3]%nat [CF (rf 1); CF (rf 0); CF (rf (-1)); CF (rf 2); CF (rf 0); CF (rf (-2))]).
Proof. split; [exact v_has_points|]. vm_compute. reflexivity. Qed.
Example C58_case_body : wbodies_on v_segs v_wbodies /\ body_cond v_bodies 2 9 /\
  exists l, get_bodyproperties v_h v_x 2 = Ok l /\ firstn 2 l = [("clenb", CF (rf 59)); ("bmass", CF (rf 69))] /\ get_bodyproperties v_h v_x 3 = Err ConditionError.
Proof. split; [exact v_has_wbodies|]. split; [exact v_cond|]. eexists. split; [vm_compute; reflexivity|]. split; vm_compute; reflexivity. Qed.

Example C58_case_missing : ~ In 3 (map fst v_bodies) /\ get_bodyproperties v_h v_x 3 = Err ConditionError.
Proof. split; [cbn; lia|]. apply (C58_body_missing _ _ _ _ _ _ 3 _ v_opens v_has_bodies v_has_wbodies). left. cbn. lia. Qed.
Example C58_case_none : exists h x, opens u_dir "wG1.SIF" u_segs h x /\ entries_of "WSECTION" u_segs = [] /\ entries_of "WFKPOINT" u_segs = [] /\ entries_of "WBODY" u_segs = [] /\
  get_sections h x = Err NoSuchRecordError /\ get_points h x = Err NoSuchRecordError /\ get_bodyproperties h x 1 = Err NoSuchRecordError.
Proof.
  destruct (open_hydro u_dir "wG1.SIF" 1 u_segs glob0 u_sesam ltac:(split; vm_compute; discriminate) eq_refl) as (g' & h & o & E & _ & _).
  assert (H : exists x, opens u_dir "wG1.SIF" u_segs h x).
  { assert (K : exists x, hydro_init h o = Ok x); [|destruct K as (x & K); exists x; left; exists 1, glob0, g', o; repeat split; auto using u_sesam].
    assert (E' : exists h' o' x, open_sif u_dir "wG1.SIF" glob0 = Ok (g', h', KHydro, o') /\ hydro_init h' o' = Ok x);
      [|destruct E' as (h' & o' & x & E' & K); rewrite E in E'; injection E' as <- <-; eauto].
    assert (G : exists g1 h' o' x, open_sif u_dir "wG1.SIF" glob0 = Ok (g1, h', KHydro, o') /\ hydro_init h' o' = Ok x) by (do 4 eexists; split; vm_compute; reflexivity).
    destruct G as (g1 & h' & o' & x & G & K). pose proof G as G'. rewrite E in G'. injection G' as <- <- <-. eauto. }
  destruct H as (x & H). exists h, x. split; [exact H|]. do 3 (split; [vm_compute; reflexivity|]).
  destruct (C58_no_records _ _ _ _ _ 1 H) as (A & B & C). split; [apply A|split; [apply B|apply C]]; vm_compute; reflexivity.
Qed.
Example C58_case_matrices : matrices_on v_segs v_matrices /\
  (exists a, get_bodymass v_h v_x 2 2 = Ok a /\ at_ a [1; 2]%nat = Some (CF (rf 112))) /\
  (exists a, get_addedmass v_h v_x 2 2 = Ok a /\ n_shape a = [6; 6; 2]%nat /\ at_ a [1; 2; 1]%nat = Some (CF (rf 412))) /\
  get_mooring_restoring v_h v_x 2 2 = Err ConditionError.
Proof. split; [exact v_has_matrices|]. split; [|split]; [eexists; split; vm_compute; reflexivity|eexists; split; [vm_compute; reflexivity|split; vm_compute; reflexivity]|vm_compute; reflexivity]. Qed.

(** ** C59: the panels *)
(** All pairs of a panel and a symmetry part of the records of the body, the
    symmetry part changing last, each in ascending order *)
Theorem C59_ids : forall d top segs h x refs ds fs bs b i all mine,
  opens d top segs h x -> wrefs_on segs refs -> grid refs ds fs -> ds <> [] -> fs <> [] -> bodies_on segs bs -> body_cond bs b i -> b <> 0 ->
  panels_on segs all -> subseq (fun r => p_cond r = i) all mine -> mine <> [] ->
  exists ids, get_pressure_panel_ids h x b = Ok (Some ids) /\ ids_of mine ids.
Proof.
  intros d top segs h x refs ds fs bs b i all mine H HW HG Hd Hf HB Hi Hb HR HM HN. opened_ H.
  destruct (grid_axes h _ refs ds fs x HO (wrefs_found _ _ _ _ HT HW) HG Hd Hf EI) as (_ & _ & E2).
  destruct (ids_ok h x HO bs b i all mine) as (ids & E & K & _); try assumption; [now rewrite E2|eapply bodies_found; eauto|eapply panels_found; eauto|]. eauto.
Qed.
Print Assumptions C59_ids.
(** Which pressures the pairs belong to: the pair in place [t * len(pans) + k]
    names the pressures at [k, t]. *)
Definition names_pressures (h : h5) (x : hydro) (b i : Z) (refs : list wref) (ds fs : list flt) (all : list panel) : Prop :=
  exists ids a np ns, get_pressure_panel_ids h x b = Ok (Some ids) /\ get_panel_pressures h x b = Ok (Some a) /\
    n_shape a = [np; ns; length ds; length fs] /\ length ids = (ns * np)%nat /\
    forall k t pan symm p q dir freq, (k < np)%nat -> (t < ns)%nat -> nth_error ids (t * np + k) = Some (pan, symm) -> nth_error ds p = Some dir -> nth_error fs q = Some freq ->
      exists ref r, In ref refs /\ w_dir ref = dir /\ w_freq ref = freq /\ In r all /\ p_cond r = i /\ p_ires r = w_ires ref /\ p_pan r = pan /\ p_symm r = symm /\
        at_ a [k; t; p; q] = Some (p_p r).
(** If the file has the panels and the symmetry parts in ascending order *)
Theorem C59_aligned_partial : forall d top segs h x refs ds fs bs b i symms pans all mine,
  opens d top segs h x -> wrefs_on segs refs -> grid refs ds fs -> ds <> [] -> fs <> [] -> bodies_on segs bs -> body_cond bs b i -> b <> 0 ->
  symms <> [] -> pans <> [] -> StronglySorted Z.lt symms -> StronglySorted Z.lt pans ->
  panels_on segs all -> subseq (fun r => p_cond r = i) all mine -> panel_minor refs symms pans mine ->
  names_pressures h x b i refs ds fs all.
Proof.
  intros d top segs h x refs ds fs bs b i symms pans all mine H HW HG Hd Hf HB Hi Hb Hs Hp Ss Sp HR HM Ho.
  assert (ND : forall l, StronglySorted Z.lt l -> NoDup l).
  { induction 1 as [|a l S IH F]; constructor; [|exact IH]. intro C. rewrite Forall_forall in F. specialize (F _ C). lia. }
  destruct (C57_panels d top segs h x refs ds fs bs b i symms pans all mine H HW HG Hd Hf HB Hi Hb Hs Hp (ND _ Ss) (ND _ Sp) HR HM Ho) as (a & EA & SA & PA).
  opened_ H. destruct (grid_axes h _ refs ds fs x HO (wrefs_found _ _ _ _ HT HW) HG Hd Hf EI) as (_ & _ & E2).
  assert (Hr : refs <> []).
  { intro K. destruct HG as (HG & _). subst refs. destruct ds; [congruence|]. destruct fs; [congruence|]. discriminate HG. }
  destruct (minor_members refs symms pans mine Hr Hs Hp Ho) as [M1 M2].
  assert (HN : mine <> []). { intros ->. destruct pans as [|z pans]; [congruence|]. destruct (proj2 (M1 z) (or_introl eq_refl)). }
  destruct (ids_ok h x HO bs b i all mine) as (ids & E & _ & EI2); try assumption; [now rewrite E2|eapply bodies_found; eauto|eapply panels_found; eauto|].
  rewrite (unique_is _ _ Sp M1), (unique_is _ _ Ss M2) in EI2.
  exists ids, a, (length pans), (length symms). split; [exact E|]. split; [exact EA|]. split; [exact SA|].
  split. { subst ids. clear. induction symms as [|s l IH]; [reflexivity|]. cbn [flat_map length Nat.mul]. rewrite app_length, map_length, IH. reflexivity. }
  intros k t pan symm p q dir freq Hk Ht Hid. 
  destruct (nth_error symms t) as [s|] eqn:Es; [|apply nth_error_None in Es; lia].
  rewrite EI2, (nth_blocks _ (length pans) symms t k s) in Hid; [|intros; apply map_length|exact Es|exact Hk].
  rewrite nth_error_map in Hid. destruct (nth_error pans k) as [p'|] eqn:Ep; [|discriminate]. injection Hid as <- <-.
  intros Hdir Hfreq. exact (PA k p' t s p q dir freq Ep Es Hdir Hfreq).
Qed.
Print Assumptions C59_aligned_partial.
Example C59_case : panels_on v_segs v_panels /\ subseq (fun r => p_cond r = 9) v_panels v_panels /\ panel_minor v_refs [1; 2] [1; 2; 3] v_panels /\
  get_pressure_panel_ids v_h v_x 2 = Ok (Some [(1, 1); (2, 1); (3, 1); (1, 2); (2, 2); (3, 2)]) /\ names_pressures v_h v_x 2 9 v_refs v_ds v_fs v_panels.
Proof.
  assert (HS : subseq (fun r => p_cond r = 9) v_panels v_panels) by (unfold v_panels; cbn [flat_map app map]; sub_).
  split; [exact v_has_panels|]. split; [exact HS|]. split; [reflexivity|]. split; [vm_compute; reflexivity|].
  eapply (C59_aligned_partial _ _ _ _ _ _ _ _ _ _ _ [1; 2] [1; 2; 3]); try exact v_opens; try exact v_has_refs; try exact v_grid; try exact v_has_bodies; try exact v_cond; try exact v_has_panels; try exact HS; try discriminate;
    try reflexivity; repeat constructor.
Qed.
(** Not so in other files: the pressures of a body whose panels come in the order
    2, 1 for each reference *)
Definition p_panels : list panel := flat_map (fun r => map (fun p => mkP 9 r p 1 (cz (1000 * r + p))) [2; 1]) [11; 12; 13; 14; 15; 16].
Definition p_h : h5 := tab w_y "W1PANPRE" (map (fun r => [CI 10; CI (p_cond r); CI (p_ires r); CI 1; CI (p_symm r); CI 1; p_p r; CI (p_pan r); CI 0]) p_panels) :: y_h.
Theorem C59_aligned_refuted : exists h x refs ds fs bs b i symms pans all,
  d_open (hy_data x) = true /\ hydro_init h (hy_data x) = Ok x /\ wrefs_in h (d_group (hy_data x)) refs /\ grid refs ds fs /\ bodies_in h (d_group (hy_data x)) bs /\ body_cond bs b i /\
  NoDup symms /\ NoDup pans /\ panels_in h (d_group (hy_data x)) all /\ panel_minor refs symms pans all /\
  ~ names_pressures h x b i refs ds fs all.
Proof.
  exists p_h, y_x, y_refs, y_ds, y_fs, y_bodies, 2, 9, [1], [2; 1], p_panels.
  split; [reflexivity|]. split; [vm_compute; reflexivity|].
  split. { do 4 eexists. split; [split; [vm_compute; reflexivity|repeat constructor; vm_compute; reflexivity]|]. split; [constructor|].
    split; [repeat constructor; do 4 eexists; reflexivity|]. split; repeat constructor; eexists; reflexivity. }
  split; [exact y_grid|].
  split. { do 2 eexists. split; [split; [vm_compute; reflexivity|repeat constructor; vm_compute; reflexivity]|]. repeat constructor; do 4 eexists; reflexivity. }
  split; [exact y_body|]. split; [repeat constructor; cbn; tauto|]. split; [repeat constructor; cbn; intuition lia|].
  split. { eexists; split; [split; [vm_compute; reflexivity|constructor]|]. repeat constructor; cbn [p_ires p_cond p_pan p_symm p_p]; do 4 eexists; reflexivity. }
  split; [reflexivity|].
  intros (ids & a & np & ns & EI & EA & ES & EL & P).
  assert (EI' : get_pressure_panel_ids p_h y_x 2 = Ok (Some [(1, 1); (2, 1)])) by (vm_compute; reflexivity). rewrite EI' in EI. injection EI as <-.
  assert (EA' : exists a', get_panel_pressures p_h y_x 2 = Ok (Some a') /\ n_shape a' = [2; 1; 2; 3]%nat /\ at_ a' [0; 0; 0; 0]%nat = Some (cz 11002)) by (eexists; split; [vm_compute; reflexivity|split; vm_compute; reflexivity]).
  destruct EA' as (a' & EA' & ES' & EV). rewrite EA' in EA. injection EA as ->. rewrite ES' in ES. injection ES as <- <-.
  destruct (P 0%nat 0%nat 1 1 0%nat 0%nat (fi 3) (fi 2)) as (ref & r & _ & _ & _ & Hr & _ & _ & Hp & _ & Ha); try reflexivity; try lia.
  assert (K : forall r, In r p_panels -> p_pan r = 1 -> p_p r <> cz 11002).
  { clear. intros r Hr. assert (F : Forall (fun r => p_pan r = 1 -> p_p r <> cz 11002) p_panels) by (unfold p_panels; cbn [flat_map map app]; repeat constructor; cbn [p_pan p_p]; intro H; vm_compute; discriminate).
    rewrite Forall_forall in F. auto. }
  apply (K r Hr Hp). rewrite EV in Ha. now injection Ha.
Qed.
Print Assumptions C59_aligned_refuted.
