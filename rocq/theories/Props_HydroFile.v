(** * Props_HydroFile: property C57, from the bytes of a hydrodynamic file to
    what the getters return. *)
From Coq Require Import Sorted.
From Verif Require Import Base Flt SeqFile H5 Schema Parsers Data Files SifName Convert SeqSpec StoreSpec ParserSpec LayoutSpec FileSpec DataSpec
  StrucSpec SifNameSpec ConvertSpec AssemblySpec JobsSpec SaysSpec SaysOpen SaysProofs Nd Hydro HydroSpec HydroUnique HydroProofs HydroMore HydroGrid HydroSays HydroFound
  Props_Hydro HydroFileSample.
Open Scope string_scope.
Open Scope Z_scope.
Open Scope list_scope.

(** [x] is the object the user gets for the hydrodynamic file [top]: it is opened
    by [open_sif], or [top] was converted, maybe among others, into an HDF5 file and [x]
    is its data set there; [h] is the store behind it. *)
Definition opens (d : dir) (top : string) (segs : list seg) (h : h5) (x : hydro) : Prop :=
  (exists id g g' o, sesam_file d top "G" id segs /\ 0 < g_batch g /\ open_sif d top g = Ok (g', h, KHydro, o) /\ hydro_init h o = Ok x) \/
  exists usefp l es j o, jobs_opened d usefp h l es /\ In j l /\ j_name j = top /\ j_segs j = segs /\ get_data (j_top usefp j) es = Ok (KHydro, o) /\ hydro_init h o = Ok x.
Lemma opens_tables d top segs h x : opens d top segs h x -> hydro_init h (hy_data x) = Ok x /\ d_open (hy_data x) = true /\ tables h (d_group (hy_data x)) segs.
Proof.
  intros [(id & g & g' & o & HS & Hb & E & EI)|(usefp & l & es & j & o & J & I & <- & <- & E & EI)].
  - destruct (open_hydro d top id segs g HS (opened_definitions d top id segs g _ HS Hb E) Hb) as (g1 & h1 & o1 & E1 & O & T).
    rewrite E in E1. injection E1 as <- <- <-. rewrite (init_data h o x EI). auto.
  - destruct J as (_ & _ & J). destruct (J j I) as ((pos & kd & o1 & G & _ & _ & O & _ & _ & _ & _ & T) & _). rewrite G in E. injection E as -> ->.
    rewrite (init_data h o x EI). auto.
Qed.
Ltac opened_ H := let E := fresh "EI" in let O := fresh "HO" in let T := fresh "HT" in destruct (opens_tables _ _ _ _ _ H) as (E & O & T).

(** ** Opening, directions, frequencies and time steps *)
Theorem C57_axes : forall d top id segs g period degrees dirs freqs times nsec npts gr ro depth,
  sesam_file d top "G" id segs -> 0 < g_batch g ->
  headings_on segs dirs freqs times -> counted_on segs "WSECTION" nsec -> counted_on segs "WFKPOINT" npts -> global_on segs gr ro depth ->
  exists g' h o x ds fs ts, open_sif d top g = Ok (g', h, KHydro, o) /\ hydro_init h o = Ok x /\
    firsts dirs ds /\ firsts freqs fs /\ increasing times ts /\
    get_directions degrees x "radians" = Ok ds /\ get_directions degrees x "degrees" = Ok (map degrees ds) /\
    (fs <> [] -> get_angular_freqs x = Ok fs /\ get_periods period x = Ok (map period fs) /\ get_timesteps x = Err ResultError) /\
    (fs = [] -> get_timesteps x = Ok ts /\ get_angular_freqs x = Err ResultError /\ get_periods period x = Err ResultError).
Proof.
  intros d top id segs g period degrees dirs freqs times nsec npts gr ro depth HS Hb HH HN HP HG.
  assert (HD : definitions segs) by (destruct HH as (A & _), HG as (e & es & B & _); split; [exact A|rewrite B; discriminate]).
  destruct (open_hydro d top id segs g HS HD Hb) as (g' & h & o & E & O & T).
  destruct (C37_axes h o dirs freqs times nsec npts gr ro depth O (headings_found _ _ _ _ _ _ T HH) (counted_found _ _ _ "WSECTION" _ T ltac:(stored_) eq_refl HN)
    (counted_found _ _ _ "WFKPOINT" _ T ltac:(stored_) eq_refl HP) (global_found _ _ _ _ _ _ T HG)) as (x & EI & ED & F1 & F2 & F3 & _).
  exists g', h, o, x, (hy_dirs x), (hy_freqs x), (hy_times x). rewrite <- ED in O. destruct (C37_getters period degrees x O) as (G1 & G2 & G3 & G4 & _).
  repeat (split; [assumption|]). intros K. destruct (G2 K) as (A & B & C). auto.
Qed.
Print Assumptions C57_axes.

Theorem C57_converted : forall d usefp h l es j period degrees dirs freqs times nsec npts gr ro depth,
  jobs_opened d usefp h l es -> In j l -> j_letter j = "G" ->
  headings_on (j_segs j) dirs freqs times -> counted_on (j_segs j) "WSECTION" nsec -> counted_on (j_segs j) "WFKPOINT" npts -> global_on (j_segs j) gr ro depth ->
  exists o x ds fs ts, get_data (j_top usefp j) es = Ok (KHydro, o) /\ hydro_init h o = Ok x /\ opens d (j_name j) (j_segs j) h x /\
    firsts dirs ds /\ firsts freqs fs /\ increasing times ts /\
    get_directions degrees x "radians" = Ok ds /\ get_directions degrees x "degrees" = Ok (map degrees ds) /\
    (fs <> [] -> get_angular_freqs x = Ok fs /\ get_periods period x = Ok (map period fs) /\ get_timesteps x = Err ResultError) /\
    (fs = [] -> get_timesteps x = Ok ts /\ get_angular_freqs x = Err ResultError /\ get_periods period x = Err ResultError).
Proof.
  intros d usefp h l es j period degrees dirs freqs times nsec npts gr ro depth J I L HH HN HP HG.
  pose proof J as (_ & _ & J'). destruct (J' j I) as ((pos & kd & o & G & _ & OA & O & _ & _ & _ & _ & T) & _). rewrite L in OA.
  assert (kd = KHydro) as -> by (inversion OA as [f X|f l0 X| | |]; subst; try reflexivity; cbn in X; intuition discriminate).
  destruct (C37_axes h o dirs freqs times nsec npts gr ro depth O (headings_found _ _ _ _ _ _ T HH) (counted_found _ _ _ "WSECTION" _ T ltac:(stored_) eq_refl HN)
    (counted_found _ _ _ "WFKPOINT" _ T ltac:(stored_) eq_refl HP) (global_found _ _ _ _ _ _ T HG)) as (x & EI & ED & F1 & F2 & F3 & _).
  exists o, x, (hy_dirs x), (hy_freqs x), (hy_times x). rewrite <- ED in O. destruct (C37_getters period degrees x O) as (G1 & G2 & G3 & G4 & _).
  split; [exact G|]. split; [exact EI|]. split; [right; exists usefp, l, es, j, o; auto 7|].
  repeat (split; [assumption|]). intros K. destruct (G2 K) as (A & B & C). auto.
Qed.
Print Assumptions C57_converted.

(** ** Motions, excitation forces, mean drift forces *)
Theorem C57_responses : forall d top segs h x refs ds fs bs b i rec fld n all mine,
  opens d top segs h x -> wrefs_on segs refs -> grid refs ds fs -> ds <> [] -> fs <> [] ->
  bodies_on segs bs -> body_cond bs b i -> b <> 0 ->
  response rec fld n -> responses_on segs rec n all -> subseq (fun r => r_cond r = i) all mine -> map r_ires mine = map w_ires refs ->
  exists a, get_response h x rec fld n b = Ok a /\ n_shape a = [n; length ds; length fs] /\
    forall k p q dir freq, (k < n)%nat -> nth_error ds p = Some dir -> nth_error fs q = Some freq ->
      exists ref r, In ref refs /\ w_dir ref = dir /\ w_freq ref = freq /\
        In r all /\ r_cond r = i /\ r_ires r = w_ires ref /\ at_ a [k; p; q] = nth_error (r_comps r) k.
Proof.
  intros d top segs h x refs ds fs bs b i rec fld n all mine H HW HG Hd Hf HB Hi Hb HK HR HM Ho. opened_ H.
  exact (C38_responses h _ x refs ds fs bs b i rec fld n all mine HO (wrefs_found _ _ _ _ HT HW) HG Hd Hf EI (bodies_found _ _ _ _ HT HB) Hi Hb HK
    (responses_found _ _ _ _ _ _ _ HT HK HR) HM Ho).
Qed.
Print Assumptions C57_responses.
(** By name: motions, excitation forces, mean drift forces and horizontal ones, each
    from its own record. *)
Theorem C57_named : forall d top segs h x refs ds fs bs b i get rec n all mine,
  opens d top segs h x -> wrefs_on segs refs -> grid refs ds fs -> ds <> [] -> fs <> [] ->
  bodies_on segs bs -> body_cond bs b i -> b <> 0 ->
  In (get, (rec, n)) getters -> responses_on segs rec n all -> subseq (fun r => r_cond r = i) all mine -> map r_ires mine = map w_ires refs ->
  exists a, get h x b = Ok a /\ n_shape a = [n; length ds; length fs] /\
    forall k p q dir freq, (k < n)%nat -> nth_error ds p = Some dir -> nth_error fs q = Some freq ->
      exists ref r, In ref refs /\ w_dir ref = dir /\ w_freq ref = freq /\
        In r all /\ r_cond r = i /\ r_ires r = w_ires ref /\ at_ a [k; p; q] = nth_error (r_comps r) k.
Proof.
  intros d top segs h x refs ds fs bs b i get rec n all mine H HW HG Hd Hf HB Hi Hb HK HR HM Ho.
  destruct HK as [E|[E|[E|[E|[]]]]]; injection E as <- <- <-; eapply C57_responses; eauto; constructor.
Qed.
Print Assumptions C57_named.
(** ** Section forces, records of each section together (see C38) *)
Theorem C57_sections_partial : forall d top segs h x refs ds fs bs b i secs all mine,
  opens d top segs h x -> wrefs_on segs refs -> grid refs ds fs -> ds <> [] -> fs <> [] ->
  bodies_on segs bs -> body_cond bs b i -> b <> 0 ->
  counted_on segs "WSECTION" (length secs) -> sforces_on segs all -> subseq (fun sr => r_cond (snd sr) = i) all mine -> section_major refs secs mine ->
  exists a, get_sectionforce_raos h x b = Ok a /\ n_shape a = [length secs; 6%nat; length ds; length fs] /\
    forall s sec k p q dir freq, nth_error secs s = Some sec -> (k < 6)%nat -> nth_error ds p = Some dir -> nth_error fs q = Some freq ->
      exists ref r, In ref refs /\ w_dir ref = dir /\ w_freq ref = freq /\
        In (sec, r) all /\ r_cond r = i /\ r_ires r = w_ires ref /\ at_ a [s; k; p; q] = nth_error (r_comps r) k.
Proof.
  intros d top segs h x refs ds fs bs b i secs all mine H HW HG Hd Hf HB Hi Hb HN HR HM Ho. opened_ H.
  exact (C38_sections_partial h _ x refs ds fs bs b i secs all mine HO (wrefs_found _ _ _ _ HT HW) HG Hd Hf EI (bodies_found _ _ _ _ HT HB) Hi Hb
    (counted_found _ _ _ "WSECTION" _ HT ltac:(stored_) eq_refl HN) (sforces_found _ _ _ _ HT HR) HM Ho).
Qed.
Print Assumptions C57_sections_partial.
(** ** Fluid kinematics *)
Theorem C57_pressure : forall d top segs h x refs ds fs divide kind g ro depth pts all,
  opens d top segs h x -> wrefs_on segs refs -> grid refs ds fs -> ds <> [] -> fs <> [] ->
  counted_on segs "WFKPOINT" (length pts) -> global_on segs g ro depth -> fluids_on segs all -> point_minor refs pts all -> In kind ["elevation"; "pressure"] ->
  exists a, get_fluidkinematics_raos divide h x kind = Ok a /\ n_shape a = [length pts; length ds; length fs] /\
    forall t pt p q dir freq, nth_error pts t = Some pt -> nth_error ds p = Some dir -> nth_error fs q = Some freq ->
      exists ref r, In ref refs /\ w_dir ref = dir /\ w_freq ref = freq /\ In r all /\ f_ires r = w_ires ref /\ f_point r = pt /\
        at_ a [t; p; q] = Some (if String.eqb kind "elevation" then divide (divide (f_p r) ro) g else f_p r).
Proof.
  intros d top segs h x refs ds fs divide kind g ro depth pts all H HW HG Hd Hf HN HC HR HP HK. opened_ H.
  exact (C38_pressure h _ x refs ds fs divide kind g ro depth pts all HO (wrefs_found _ _ _ _ HT HW) HG Hd Hf EI
    (counted_found _ _ _ "WFKPOINT" _ HT ltac:(stored_) eq_refl HN) (global_found _ _ _ _ _ _ HT HC) (fluids_found _ _ _ _ HT HR) HP HK).
Qed.
Print Assumptions C57_pressure.
Theorem C57_velocity : forall d top segs h x refs ds fs divide pts all,
  opens d top segs h x -> wrefs_on segs refs -> grid refs ds fs -> ds <> [] -> fs <> [] ->
  counted_on segs "WFKPOINT" (length pts) -> fluids_on segs all -> point_minor refs pts all ->
  exists a, get_fluidkinematics_raos divide h x "velocity" = Ok a /\ n_shape a = [length pts; 3%nat; length ds; length fs] /\
    forall t pt k p q dir freq, nth_error pts t = Some pt -> (k < 3)%nat -> nth_error ds p = Some dir -> nth_error fs q = Some freq ->
      exists ref r, In ref refs /\ w_dir ref = dir /\ w_freq ref = freq /\ In r all /\ f_ires r = w_ires ref /\ f_point r = pt /\
        at_ a [t; k; p; q] = nth_error (f_v r) k.
Proof.
  intros d top segs h x refs ds fs divide pts all H HW HG Hd Hf HN HR HP. opened_ H.
  exact (C38_velocity h _ x refs ds fs divide pts all HO (wrefs_found _ _ _ _ HT HW) HG Hd Hf EI
    (counted_found _ _ _ "WFKPOINT" _ HT ltac:(stored_) eq_refl HN) (fluids_found _ _ _ _ HT HR) HP).
Qed.
Print Assumptions C57_velocity.
(** ** Panel pressures *)
Theorem C57_panels : forall d top segs h x refs ds fs bs b i symms pans all mine,
  opens d top segs h x -> wrefs_on segs refs -> grid refs ds fs -> ds <> [] -> fs <> [] ->
  bodies_on segs bs -> body_cond bs b i -> b <> 0 ->
  symms <> [] -> pans <> [] -> NoDup symms -> NoDup pans ->
  panels_on segs all -> subseq (fun r => p_cond r = i) all mine -> panel_minor refs symms pans mine ->
  exists a, get_panel_pressures h x b = Ok (Some a) /\ n_shape a = [length pans; length symms; length ds; length fs] /\
    forall k pan t symm p q dir freq, nth_error pans k = Some pan -> nth_error symms t = Some symm -> nth_error ds p = Some dir -> nth_error fs q = Some freq ->
      exists ref r, In ref refs /\ w_dir ref = dir /\ w_freq ref = freq /\ In r all /\ p_cond r = i /\ p_ires r = w_ires ref /\ p_pan r = pan /\ p_symm r = symm /\
        at_ a [k; t; p; q] = Some (p_p r).
Proof.
  intros d top segs h x refs ds fs bs b i symms pans all mine H HW HG Hd Hf HB Hi Hb Hs Hp Ns Np HR HM Ho. opened_ H.
  exact (C38_panels h _ x refs ds fs bs b i symms pans all mine HO (wrefs_found _ _ _ _ HT HW) HG Hd Hf EI (bodies_found _ _ _ _ HT HB) Hi Hb Hs Hp Ns Np
    (panels_found _ _ _ _ HT HR) HM Ho).
Qed.
Print Assumptions C57_panels.
(** A file without pressures: none *)
Theorem C57_panels_none : forall d top segs h x refs ds fs b, opens d top segs h x -> wrefs_on segs refs -> grid refs ds fs -> ds <> [] -> fs <> [] ->
  entries_of "W1PANPRE" segs = [] -> get_panel_pressures h x b = Ok None /\ get_pressure_panel_ids h x b = Ok None.
Proof.
  intros d top segs h x refs ds fs b H HW HG Hd Hf HN. opened_ H.
  destruct (grid_axes h _ refs ds fs x HO (wrefs_found _ _ _ _ HT HW) HG Hd Hf EI) as (_ & _ & E2).
  apply C38_panels_none; [exact HO|rewrite E2; exact Hf|]. eapply no_records; [exact HT|stored_|exact HN].
Qed.
Print Assumptions C57_panels_none.
(** ** Matrices *)
Theorem C57_matrices : forall d top segs h x ms bs b b2 i j,
  opens d top segs h x -> bodies_on segs bs -> body_cond bs b i -> body_cond bs b2 j -> matrices_on segs ms ->
  (forall typ l1 m l2, In typ [11; 22; 31; 32] -> ms = l1 ++ m :: l2 -> is_for i j typ m -> (forall m', In m' l1 -> ~ is_for i j typ m') ->
    exists a, get_matrix h x typ b b2 = Ok a /\ n_shape a = [6; 6]%nat /\
      forall p q, (p < 6)%nat -> (q < 6)%nat -> exists c, at_ a [p; q] = Some c /\ HydroSpec.entry m p q c) /\
  (forall typ, In typ [11; 22; 31; 32] -> (forall m, In m ms -> ~ is_for i j typ m) -> get_matrix h x typ b b2 = Err ConditionError) /\
  (forall typ sel, In typ [12; 21] -> subseq (is_for i j typ) ms sel ->
    exists a, get_matrix h x typ b b2 = Ok a /\ n_shape a = [6%nat; 6%nat; length sel] /\
      forall p q f m, (p < 6)%nat -> (q < 6)%nat -> nth_error sel f = Some m -> exists c, at_ a [p; q; f] = Some c /\ HydroSpec.entry m p q c).
Proof.
  intros d top segs h x ms bs b b2 i j H HB Hi Hj HM. opened_ H.
  pose proof (bodies_found _ _ _ _ HT HB) as HB'. pose proof (matrices_found _ _ _ _ HT HM) as HM'. split; [|split].
  - intros typ l1 m l2. exact (C39_independent h x ms bs b b2 i j typ l1 m l2 HO HB' Hi Hj HM').
  - intros typ. exact (C39_missing h x ms bs b b2 i j typ HO HB' Hi Hj HM').
  - intros typ sel. exact (C39_dependent h x ms bs b b2 i j typ sel HO HB' Hi Hj HM').
Qed.
Print Assumptions C57_matrices.

(** ** A file *)
Definition v_result := Eval vm_compute in match open_sif v_dir "shipG1.SIF" glob0 with
  | Ok (_, h, KHydro, o) => match hydro_init h o with Ok x => Ok (h, x) | Err e => Err e end | Ok _ => Err TypeError | Err e => Err e end.
Definition v_h : h5 := match v_result with Ok (h, _) => h | Err _ => [] end.
Definition v_x : hydro := Eval vm_compute in match v_result with Ok (_, x) => x | Err _ => mkHy (mkSD [] [] None "" "" "" None OFile None true) [] [] [] 0 0 (CI 0) (CI 0) (CI 0) end.
Lemma v_opens : opens v_dir "shipG1.SIF" v_segs v_h v_x.
Proof.
  left. exists 1, glob0. do 2 eexists. split; [exact v_sesam|]. split; [reflexivity|]. split; [vm_compute; reflexivity|vm_compute; reflexivity].
Qed.
Example C57_axes_case : sesam_file v_dir "shipG1.SIF" "G" 1 v_segs /\ 0 < g_batch glob0 /\ headings_on v_segs (map w_dir v_refs) (map w_freq v_refs) [] /\
  counted_on v_segs "WSECTION" 2 /\ counted_on v_segs "WFKPOINT" 2 /\ global_on v_segs (CF (rf 10)) (CF (rf 1025)) (CF (rf 300)) /\
  opens v_dir "shipG1.SIF" v_segs v_h v_x /\ get_directions (fun z => z) v_x "radians" = Ok [rf 3; rf 0] /\ get_angular_freqs v_x = Ok [rf 2; rf 1] /\ get_timesteps v_x = Err ResultError.
Proof.
  split; [exact v_sesam|]. split; [reflexivity|]. split; [exact (wrefs_headings _ _ v_has_refs)|]. split; [reflexivity|]. split; [reflexivity|]. split; [exact v_has_global|].
  split; [exact v_opens|]. repeat split; vm_compute; reflexivity.
Qed.
Example C57_responses_case : wrefs_on v_segs v_refs /\ grid v_refs v_ds v_fs /\ bodies_on v_segs v_bodies /\ body_cond v_bodies 2 9 /\
  responses_on v_segs "W1MOTION" 6 v_motions /\ subseq (fun r => r_cond r = 9) v_motions v_mine /\ map r_ires v_mine = map w_ires v_refs /\
  responses_on v_segs "W2HDRIFT" 3 v_drifts /\
  (exists a, get_motion_raos v_h v_x 2 = Ok a /\ n_shape a = [6; 2; 2]%nat /\ at_ a [4; 1; 0]%nat = Some (vc (200 * 13 + 4))) /\
  (exists a, get_horiz_meandrift v_h v_x 2 = Ok a /\ n_shape a = [3; 2; 2]%nat /\ at_ a [2; 0; 1]%nat = Some (CF (rf 122))).
Proof.
  split; [exact v_has_refs|]. split; [exact v_grid|]. split; [exact v_has_bodies|]. split; [exact v_cond|]. split; [exact v_has_motions|].
  split; [unfold v_motions, v_mine; cbn [flat_map app map]; sub_|]. split; [reflexivity|]. split; [exact v_has_drifts|].
  split; eexists; (split; [vm_compute; reflexivity|]); split; vm_compute; reflexivity.
Qed.
Example C57_sections_case : counted_on v_segs "WSECTION" 2 /\ sforces_on v_segs v_sforces /\ subseq (fun sr => r_cond (snd sr) = 9) v_sforces v_sforces /\
  section_major v_refs [1; 2] v_sforces /\
  exists a, get_sectionforce_raos v_h v_x 2 = Ok a /\ n_shape a = [2; 6; 2; 2]%nat /\ at_ a [1; 4; 0; 1]%nat = Some (vc 2124).
Proof.
  split; [reflexivity|]. split; [exact v_has_sforces|]. split; [unfold v_sforces; cbn [flat_map app map]; sub_|]. split; [reflexivity|].
  eexists. split; [vm_compute; reflexivity|]. split; vm_compute; reflexivity.
Qed.
Example C57_fluid_case : counted_on v_segs "WFKPOINT" 2 /\ fluids_on v_segs v_fluids /\ point_minor v_refs [1; 2] v_fluids /\
  (exists a, get_fluidkinematics_raos (fun c _ => c) v_h v_x "pressure" = Ok a /\ n_shape a = [2; 2; 2]%nat /\ at_ a [1; 1; 0]%nat = Some (vc 1320)) /\
  (exists a, get_fluidkinematics_raos (fun c _ => c) v_h v_x "velocity" = Ok a /\ n_shape a = [2; 3; 2; 2]%nat /\ at_ a [0; 2; 0; 1]%nat = Some (vc 1213)).
Proof.
  split; [reflexivity|]. split; [exact v_has_fluids|]. split; [reflexivity|]. split; eexists; (split; [vm_compute; reflexivity|]); split; vm_compute; reflexivity.
Qed.
Example C57_panels_case : panels_on v_segs v_panels /\ subseq (fun r => p_cond r = 9) v_panels v_panels /\ panel_minor v_refs [1; 2] [1; 2; 3] v_panels /\
  exists a, get_panel_pressures v_h v_x 2 = Ok (Some a) /\ n_shape a = [3; 2; 2; 2]%nat /\ at_ a [2; 0; 1; 1]%nat = Some (vc 14013).
Proof.
  split; [exact v_has_panels|]. split; [unfold v_panels; cbn [flat_map app map]; sub_|]. split; [reflexivity|]. eexists. split; [vm_compute; reflexivity|]. split; vm_compute; reflexivity.
Qed.
Example C57_matrices_case : matrices_on v_segs v_matrices /\ subseq (is_for 9 9 12) v_matrices [mkM 9 9 12 (v_rows 200); mkM 9 9 12 (v_rows 400)] /\
  is_for 9 9 11 (mkM 9 9 11 (v_rows 100)) /\
  (exists a, get_matrix v_h v_x 12 2 2 = Ok a /\ n_shape a = [6; 6; 2]%nat /\ at_ a [2; 4; 1]%nat = Some (CF (rf 424))) /\
  (exists a, get_matrix v_h v_x 11 2 2 = Ok a /\ n_shape a = [6; 6]%nat /\ at_ a [5; 0]%nat = Some (CF (rf 150))).
Proof.
  split; [exact v_has_matrices|].
  split; [unfold v_matrices; repeat (first [apply sub_nil | apply sub_in; [repeat split|] | apply sub_out; [intros (H1 & H2 & H3); vm_compute in H1, H2, H3; discriminate|]])|].
  split; [repeat split|]. split; eexists; (split; [vm_compute; reflexivity|]); split; vm_compute; reflexivity.
Qed.
