(** * Props_Hydro: properties C37 to C39. *)
From Coq Require Import Sorted.
From Verif Require Import Base Flt H5 Schema StoreSpec ParserSpec Data StrucSpec StrucSample Nd Hydro HydroSpec HydroUnique HydroProofs HydroMore HydroGrid HydroSample.
Open Scope string_scope.
Open Scope Z_scope.
Open Scope list_scope.

(** ** C37 *)
(** The object made from a file: directions and frequencies in order of first
    appearance, time steps in increasing order. *)
Theorem C37_axes : forall h d dirs freqs times nsec npts g ro depth, d_open d = true ->
  headings_in h (d_group d) dirs freqs times -> counted h (d_group d) "WSECTION" nsec -> counted h (d_group d) "WFKPOINT" npts ->
  global_in h (d_group d) g ro depth ->
  exists x, hydro_init h d = Ok x /\ hy_data x = d /\ firsts dirs (hy_dirs x) /\ firsts freqs (hy_freqs x) /\ increasing times (hy_times x) /\
    hy_nsections x = nsec /\ hy_npoints x = npts /\ hy_g x = g /\ hy_ro x = ro /\ hy_depth x = depth.
Proof. exact init_ok. Qed.
Print Assumptions C37_axes.
(** What is in order of first appearance is unique. *)
Theorem C37_determined : forall l out out', firsts l out -> firsts l out' -> out = out'.
Proof. exact firsts_fun. Qed.
Print Assumptions C37_determined.
(** The getters report them, and those of the other domain raise. *)
Theorem C37_getters : forall period degrees x, d_open (hy_data x) = true ->
  (hy_freqs x <> [] -> get_angular_freqs x = Ok (hy_freqs x) /\ get_periods period x = Ok (map period (hy_freqs x)) /\ get_timesteps x = Err ResultError) /\
  (hy_freqs x = [] -> get_angular_freqs x = Err ResultError /\ get_periods period x = Err ResultError /\ get_timesteps x = Ok (hy_times x)) /\
  get_directions degrees x "radians" = Ok (hy_dirs x) /\ get_directions degrees x "degrees" = Ok (map degrees (hy_dirs x)) /\
  (forall u, u <> "radians" -> u <> "degrees" -> get_directions degrees x u = Err ValueError).
Proof. exact axes_ok. Qed.
Print Assumptions C37_getters.
Example C37_case : exists times, headings_in y_h w_y (map w_dir y_refs) (map w_freq y_refs) times /\
  counted y_h w_y "WSECTION" 2 /\ counted y_h w_y "WFKPOINT" 2 /\ global_in y_h w_y (fz 10) (fz 1025) (fz 300) /\
  hydro_init y_h y_d = Ok y_x /\ hy_dirs y_x = [fi 3; fi 0] /\ hy_freqs y_x = [fi 2; fi 1; fi 5].
Proof.
  destruct (refs_headings _ _ _ y_has_refs) as (times & H). exists times. split; [exact H|].
  split; [left; eexists; split; [split; [vm_compute; reflexivity|constructor]|reflexivity]|].
  split; [left; eexists; split; [split; [vm_compute; reflexivity|constructor]|reflexivity]|].
  split; [do 3 eexists; split; [vm_compute; reflexivity|constructor]|].
  split; [exact (proj1 y_init)|]. split; reflexivity.
Qed.
(** Repetitions in any order; NaN and signed zeros *)
Example C37_case_repeated : unique_unsorted [fi 3; fi 1; FNan; fi 3; FZero true; fi 2; FZero false; FNan; fi 1] = Ok [fi 3; fi 1; FNan; FZero true; fi 2] /\
  unique_flt [fi 3; fi 1; fi 3; fi 2; fi 1] = [fi 1; fi 2; fi 3].
Proof. split; vm_compute; reflexivity. Qed.

(** ** C38 *)
(** In each theorem: the file [d] has one reference for each of the directions
    [ds] and frequencies [fs], directions outermost; [x] is the object made from
    it; body [b] has condition [i]; its records are those of the table with that
    condition, in the order of the references. *)
Theorem C38_responses : forall h d x refs ds fs bs b i rec fld n all mine,
  d_open d = true -> wrefs_in h (d_group d) refs -> grid refs ds fs -> ds <> [] -> fs <> [] -> hydro_init h d = Ok x ->
  bodies_in h (d_group d) bs -> body_cond bs b i -> b <> 0 ->
  response rec fld n -> responses_in h (d_group d) rec n all -> subseq (fun r => r_cond r = i) all mine -> map r_ires mine = map w_ires refs ->
  exists a, get_response h x rec fld n b = Ok a /\ n_shape a = [n; length ds; length fs] /\
    forall k p q dir freq, (k < n)%nat -> nth_error ds p = Some dir -> nth_error fs q = Some freq ->
      exists ref r, In ref refs /\ w_dir ref = dir /\ w_freq ref = freq /\
        In r all /\ r_cond r = i /\ r_ires r = w_ires ref /\ at_ a [k; p; q] = nth_error (r_comps r) k.
Proof.
  intros h d x refs ds fs bs b i rec fld n all mine Ho HW HG Hd Hf E HB Hi Hb HK HR HM HO.
  destruct (grid_axes h d refs ds fs x Ho HW HG Hd Hf E) as (<- & E1 & E2).
  destruct (response_grid h x refs ds fs Ho HG E1 E2 Hf bs b i HB Hi Hb rec fld n all mine HK HR HM HO) as (a & A1 & A2 & A3).
  exists a. split; [exact A1|]. unfold ndirs, nfreqs in *. rewrite E1, E2 in *. split; [exact A2|]. intros k p q dir freq Hk Hp Hq.
  destruct (A3 k p q Hk ltac:(apply nth_error_Some; congruence) ltac:(apply nth_error_Some; congruence)) as (ref & r & (B1 & B2 & B3) & B4).
  rewrite E1 in B2. rewrite E2 in B3. exists ref, r. split; [exact B1|]. split; [congruence|]. split; [congruence|exact B4].
Qed.
Print Assumptions C38_responses.
(** Wrong number of records: raises. *)
Theorem C38_wrong_count : forall h x bs b i rec fld n all mine,
  d_open (hy_data x) = true -> hy_freqs x <> [] -> bodies_in h (d_group (hy_data x)) bs -> body_cond bs b i -> b <> 0 ->
  response rec fld n -> responses_in h (d_group (hy_data x)) rec n all -> subseq (fun r => r_cond r = i) all mine ->
  length mine <> (ndirs x * nfreqs x)%nat -> get_response h x rec fld n b = Err ValueError.
Proof. intros h x bs b i rec fld n all mine Ho Hf HB Hi Hb. exact (response_count h x Ho Hf bs b i HB Hi Hb rec fld n all mine). Qed.
Print Assumptions C38_wrong_count.
Theorem C38_unknown_body : forall h x bs rec fld n b all, d_open (hy_data x) = true -> hy_freqs x <> [] ->
  bodies_in h (d_group (hy_data x)) bs -> responses_in h (d_group (hy_data x)) rec n all ->
  b <> 0 -> ~ In b (map fst bs) -> get_response h x rec fld n b = Err ConditionError.
Proof. exact response_unknown. Qed.
Print Assumptions C38_unknown_body.
(** By name: motions, excitation forces, mean drift forces and horizontal ones, each
    from its own record. *)
Definition getters : list ((h5 -> hydro -> Z -> Res (nd cell)) * (string * nat)) :=
  [(get_motion_raos, ("W1MOTION", 6%nat)); (get_excitationforce_raos, ("W1EXFORC", 6%nat)); (get_meandrift, ("W2MDRIFT", 6%nat)); (get_horiz_meandrift, ("W2HDRIFT", 3%nat))].
Theorem C38_named : forall h d x refs ds fs bs b i get rec n all mine,
  d_open d = true -> wrefs_in h (d_group d) refs -> grid refs ds fs -> ds <> [] -> fs <> [] -> hydro_init h d = Ok x ->
  bodies_in h (d_group d) bs -> body_cond bs b i -> b <> 0 ->
  In (get, (rec, n)) getters -> responses_in h (d_group d) rec n all -> subseq (fun r => r_cond r = i) all mine ->
  (map r_ires mine = map w_ires refs -> exists a, get h x b = Ok a /\ n_shape a = [n; length ds; length fs] /\
    forall k p q dir freq, (k < n)%nat -> nth_error ds p = Some dir -> nth_error fs q = Some freq ->
      exists ref r, In ref refs /\ w_dir ref = dir /\ w_freq ref = freq /\
        In r all /\ r_cond r = i /\ r_ires r = w_ires ref /\ at_ a [k; p; q] = nth_error (r_comps r) k) /\
  (length mine <> (length ds * length fs)%nat -> get h x b = Err ValueError) /\
  forall b', b' <> 0 -> ~ In b' (map fst bs) -> get h x b' = Err ConditionError.
Proof.
  intros h d x refs ds fs bs b i get rec n all mine Ho HW HG Hd Hf E HB Hi Hb HT HR HM.
  assert (K : exists fld, response rec fld n /\ forall c, get h x c = get_response h x rec fld n c).
  { cbn [getters In] in HT. destruct HT as [T|[T|[T|[T|[]]]]]; injection T as <- <- <-; eexists; (split; [constructor|reflexivity]). }
  destruct K as (fld & K & G). split; [|split].
  - intro HO. rewrite G. exact (C38_responses h d x refs ds fs bs b i rec fld n all mine Ho HW HG Hd Hf E HB Hi Hb K HR HM HO).
  - intro HL. rewrite G. destruct (grid_axes h d refs ds fs x Ho HW HG Hd Hf E) as (<- & E1 & E2). apply (C38_wrong_count h x bs b i rec fld n all mine); try assumption; unfold ndirs, nfreqs; now rewrite ?E1, ?E2.
  - intros b' H1 H2. rewrite G. destruct (grid_axes h d refs ds fs x Ho HW HG Hd Hf E) as (<- & E1 & E2). apply (C38_unknown_body h x bs rec fld n b' all); try assumption. now rewrite E2.
Qed.
Print Assumptions C38_named.
Theorem C38_time_domain : forall divide h x, d_open (hy_data x) = true -> hy_freqs x = [] ->
  (forall rec fld n b, get_response h x rec fld n b = Err ResultError) /\ (forall b, get_sectionforce_raos h x b = Err ResultError) /\
  (forall k, get_fluidkinematics_raos divide h x k = Err ResultError) /\ (forall b, get_panel_pressures h x b = Err ResultError) /\
  (forall b, get_pressure_panel_ids h x b = Err ResultError).
Proof. exact time_domain_errors. Qed.
Print Assumptions C38_time_domain.
Ltac sub_ := repeat (first [apply sub_nil | apply sub_in; [reflexivity|] | apply sub_out; [vm_compute; discriminate|]]).
Definition y_mine : list resp := map (fun r => mkR 9 r (six cz (200 * r))) [11; 12; 13; 14; 15; 16].
Example C38_case : wrefs_in y_h w_y y_refs /\ grid y_refs y_ds y_fs /\ hydro_init y_h y_d = Ok y_x /\ bodies_in y_h w_y y_bodies /\ body_cond y_bodies 2 9 /\
  response "W1MOTION" "data" 6 /\ responses_in y_h w_y "W1MOTION" 6 y_motions /\ subseq (fun r => r_cond r = 9) y_motions y_mine /\ map r_ires y_mine = map w_ires y_refs /\
  (exists a, get_motion_raos y_h y_x 2 = Ok a /\ at_ a [4; 1; 0]%nat = Some (cz (200 * 14 + 4)) /\ at_ a [5; 0; 2]%nat = Some (cz (200 * 13 + 5))) /\
  (exists a, get_horiz_meandrift y_h y_x 2 = Ok a /\ n_shape a = [3; 2; 3]%nat /\ at_ a [2; 1; 1]%nat = Some (CF (fi 152))).
Proof.
  split; [exact y_has_refs|]. split; [exact y_grid|]. split; [exact (proj1 y_init)|]. split; [exact (proj1 y_has_bodies)|]. split; [exact y_body|]. split; [constructor|]. split; [exact y_has_motions|].
  split; [unfold y_motions, y_mine; cbn [flat_map app map]; sub_|]. split; [reflexivity|].
  split; eexists; (split; [vm_compute; reflexivity|]); split; reflexivity.
Qed.
(** No drift forces of body 1 on the file: wrong number *)
Example C38_case_count : get_horiz_meandrift y_h y_x 1 = Err ValueError /\ get_motion_raos y_h y_x 7 = Err ConditionError.
Proof. split; vm_compute; reflexivity. Qed.

(** Section forces, records of each section together *)
Theorem C38_sections_partial : forall h d x refs ds fs bs b i secs all mine,
  d_open d = true -> wrefs_in h (d_group d) refs -> grid refs ds fs -> ds <> [] -> fs <> [] -> hydro_init h d = Ok x ->
  bodies_in h (d_group d) bs -> body_cond bs b i -> b <> 0 ->
  counted h (d_group d) "WSECTION" (length secs) -> sforces_in h (d_group d) all -> subseq (fun sr => r_cond (snd sr) = i) all mine -> section_major refs secs mine ->
  exists a, get_sectionforce_raos h x b = Ok a /\ n_shape a = [length secs; 6%nat; length ds; length fs] /\
    forall s sec k p q dir freq, nth_error secs s = Some sec -> (k < 6)%nat -> nth_error ds p = Some dir -> nth_error fs q = Some freq ->
      exists ref r, In ref refs /\ w_dir ref = dir /\ w_freq ref = freq /\
        In (sec, r) all /\ r_cond r = i /\ r_ires r = w_ires ref /\ at_ a [s; k; p; q] = nth_error (r_comps r) k.
Proof.
  intros h d x refs ds fs bs b i secs all mine Ho HW HG Hd Hf E HB Hi Hb HN HR HM HO.
  destruct (init_counts h d x (length secs) 0 (CI 0) (CI 0) (CI 0) Ho E) as (EN & _). specialize (EN HN).
  destruct (grid_axes h d refs ds fs x Ho HW HG Hd Hf E) as (<- & E1 & E2).
  destruct (sectionforce_grid h x refs ds fs Ho HG E1 E2 Hf bs b i HB Hi Hb secs all mine EN HR HM HO) as (a & A1 & A2 & A3).
  exists a. split; [exact A1|]. unfold ndirs, nfreqs in *. rewrite E1, E2 in *. split; [exact A2|]. intros s sec k p q dir freq Hs Hk Hp Hq.
  destruct (A3 s sec k p q Hs Hk ltac:(apply nth_error_Some; congruence) ltac:(apply nth_error_Some; congruence)) as (ref & r & (B1 & B2 & B3) & B4).
  rewrite E1 in B2. rewrite E2 in B3. exists ref, r. split; [exact B1|]. split; [congruence|]. split; [congruence|exact B4].
Qed.
Print Assumptions C38_sections_partial.
Theorem C38_sections_count : forall h x bs b i all mine,
  d_open (hy_data x) = true -> hy_freqs x <> [] -> bodies_in h (d_group (hy_data x)) bs -> body_cond bs b i -> b <> 0 ->
  sforces_in h (d_group (hy_data x)) all -> subseq (fun sr => r_cond (snd sr) = i) all mine ->
  length mine <> (hy_nsections x * (ndirs x * nfreqs x))%nat -> get_sectionforce_raos h x b = Err ValueError.
Proof. intros h x bs b i all mine Ho Hf HB Hi Hb. exact (sectionforce_count h x Ho Hf bs b i HB Hi Hb all mine). Qed.
Print Assumptions C38_sections_count.
Example C38_case_sections : counted y_h w_y "WSECTION" 2 /\ sforces_in y_h w_y y_sforces /\ subseq (fun sr => r_cond (snd sr) = 9) y_sforces y_sforces /\
  section_major y_refs [1; 2] y_sforces /\
  exists a, get_sectionforce_raos y_h y_x 2 = Ok a /\ n_shape a = [2; 6; 2; 3]%nat /\ at_ a [1; 4; 0; 2]%nat = Some (cz 2134).
Proof.
  split; [left; eexists; split; [split; [vm_compute; reflexivity|constructor]|reflexivity]|]. split; [exact (proj1 y_has_sforces)|].
  split; [unfold y_sforces; cbn [flat_map app map]; sub_|]. split; [reflexivity|]. eexists. split; [vm_compute; reflexivity|]. split; reflexivity.
Qed.
(** When the records are ordered by reference, as the code assumes for every
    record type (hydrodata.py:42-43), the same section forces come out in the
    wrong places: nothing raises. *)
Theorem C38_sections_refuted : exists h d x refs ds fs bs b i secs all,
  d_open d = true /\ wrefs_in h (d_group d) refs /\ grid refs ds fs /\ hydro_init h d = Ok x /\ bodies_in h (d_group d) bs /\ body_cond bs b i /\ b <> 0 /\
  counted h (d_group d) "WSECTION" (length secs) /\ sforces_in h (d_group d) all /\ NoDup secs /\
  map (fun sr => (r_ires (snd sr), fst sr)) all = list_prod (map w_ires refs) secs /\
  exists a, get_sectionforce_raos h x b = Ok a /\ n_shape a = [length secs; 6%nat; length ds; length fs] /\
    exists s sec k p q dir freq, nth_error secs s = Some sec /\ (k < 6)%nat /\ nth_error ds p = Some dir /\ nth_error fs q = Some freq /\
      forall ref r, In ref refs -> w_dir ref = dir -> w_freq ref = freq -> In (sec, r) all -> r_ires r = w_ires ref -> at_ a [s; k; p; q] <> nth_error (r_comps r) k.
Proof.
  exists y_h2, y_d, y_x, y_refs, y_ds, y_fs, y_bodies, 2, 9, [1; 2], y_minor.
  split; [reflexivity|]. split.
  { do 4 eexists. split; [split; [vm_compute; reflexivity|repeat constructor; vm_compute; reflexivity]|]. split; [constructor|].
    split; [repeat constructor; do 4 eexists; reflexivity|]. split; repeat constructor; eexists; reflexivity. }
  split; [exact y_grid|]. split; [exact (proj2 y_init)|]. split; [exact (proj2 y_has_bodies)|]. split; [exact y_body|]. split; [discriminate|].
  split; [left; eexists; split; [split; [vm_compute; reflexivity|constructor]|reflexivity]|]. split; [exact (proj2 y_has_sforces)|].
  split; [repeat constructor; cbn; intuition discriminate|]. split; [reflexivity|].
  eexists. split; [vm_compute; reflexivity|]. split; [reflexivity|].
  exists 0%nat, 1, 0%nat, 0%nat, 1%nat, (fi 3), (fi 1). repeat split; try (vm_compute; reflexivity); [lia|].
  intros ref r Hr Hd Hf Hs Hi.
  assert (ref = mkW 12 (fi 3) (fi 1)) as ->.
  { cbn [In y_refs] in Hr. repeat (destruct Hr as [<-|Hr]; [first [reflexivity|vm_compute in Hd, Hf; discriminate]|]). destruct Hr. }
  assert (r = mkR 9 12 (six cz 1120)) as ->.
  { unfold y_minor in Hs. cbn [flat_map app map In] in Hs. repeat (destruct Hs as [Hs|Hs]; [injection Hs; intros; subst; first [reflexivity|discriminate]|]). destruct Hs. }
  vm_compute. discriminate.
Qed.
Print Assumptions C38_sections_refuted.

(** Fluid kinematics: pressures and elevations, and velocities *)
Theorem C38_pressure : forall h d x refs ds fs divide kind g ro depth pts all,
  d_open d = true -> wrefs_in h (d_group d) refs -> grid refs ds fs -> ds <> [] -> fs <> [] -> hydro_init h d = Ok x ->
  counted h (d_group d) "WFKPOINT" (length pts) -> global_in h (d_group d) g ro depth ->
  fluids_in h (d_group d) all -> point_minor refs pts all -> In kind ["elevation"; "pressure"] ->
  exists a, get_fluidkinematics_raos divide h x kind = Ok a /\ n_shape a = [length pts; length ds; length fs] /\
    forall t pt p q dir freq, nth_error pts t = Some pt -> nth_error ds p = Some dir -> nth_error fs q = Some freq ->
      exists ref r, In ref refs /\ w_dir ref = dir /\ w_freq ref = freq /\ In r all /\ f_ires r = w_ires ref /\ f_point r = pt /\
        at_ a [t; p; q] = Some (if String.eqb kind "elevation" then divide (divide (f_p r) ro) g else f_p r).
Proof.
  intros h d x refs ds fs divide kind g ro depth pts all Ho HW HG Hd Hf E HN HC HR HO HK.
  destruct (init_counts h d x 0 (length pts) g ro depth Ho E) as (_ & EN & EC). specialize (EN HN). destruct (EC HC) as (<- & <- & _).
  destruct (grid_axes h d refs ds fs x Ho HW HG Hd Hf E) as (<- & E1 & E2).
  destruct (pressure_grid h x refs ds fs Ho HG E1 E2 Hf divide kind pts all HK EN HR HO) as (a & A1 & A2 & A3).
  exists a. split; [exact A1|]. unfold ndirs, nfreqs in *. rewrite E1, E2 in *. split; [exact A2|]. intros t pt p q dir freq Ht Hp Hq.
  destruct (A3 t pt p q Ht ltac:(apply nth_error_Some; congruence) ltac:(apply nth_error_Some; congruence)) as (ref & r & (B1 & B2 & B3) & B4).
  rewrite E1 in B2. rewrite E2 in B3. exists ref, r. split; [exact B1|]. split; [congruence|]. split; [congruence|exact B4].
Qed.
Print Assumptions C38_pressure.
Theorem C38_velocity : forall h d x refs ds fs divide pts all,
  d_open d = true -> wrefs_in h (d_group d) refs -> grid refs ds fs -> ds <> [] -> fs <> [] -> hydro_init h d = Ok x ->
  counted h (d_group d) "WFKPOINT" (length pts) ->
  fluids_in h (d_group d) all -> point_minor refs pts all ->
  exists a, get_fluidkinematics_raos divide h x "velocity" = Ok a /\ n_shape a = [length pts; 3%nat; length ds; length fs] /\
    forall t pt k p q dir freq, nth_error pts t = Some pt -> (k < 3)%nat -> nth_error ds p = Some dir -> nth_error fs q = Some freq ->
      exists ref r, In ref refs /\ w_dir ref = dir /\ w_freq ref = freq /\ In r all /\ f_ires r = w_ires ref /\ f_point r = pt /\
        at_ a [t; k; p; q] = nth_error (f_v r) k.
Proof.
  intros h d x refs ds fs divide pts all Ho HW HG Hd Hf E HN HR HO.
  destruct (init_counts h d x 0 (length pts) (CI 0) (CI 0) (CI 0) Ho E) as (_ & EN & _). specialize (EN HN).
  destruct (grid_axes h d refs ds fs x Ho HW HG Hd Hf E) as (<- & E1 & E2).
  destruct (velocity_grid h x refs ds fs Ho HG E1 E2 Hf divide pts all EN HR HO) as (a & A1 & A2 & A3).
  exists a. split; [exact A1|]. unfold ndirs, nfreqs in *. rewrite E1, E2 in *. split; [exact A2|]. intros t pt k p q dir freq Ht Hk Hp Hq.
  destruct (A3 t pt k p q Ht Hk ltac:(apply nth_error_Some; congruence) ltac:(apply nth_error_Some; congruence)) as (ref & r & (B1 & B2 & B3) & B4).
  rewrite E1 in B2. rewrite E2 in B3. exists ref, r. split; [exact B1|]. split; [congruence|]. split; [congruence|exact B4].
Qed.
Print Assumptions C38_velocity.
Theorem C38_fluid_errors : forall h x divide kind all, d_open (hy_data x) = true -> hy_freqs x <> [] -> fluids_in h (d_group (hy_data x)) all ->
  (length all <> (ndirs x * nfreqs x * hy_npoints x)%nat \/ ~ In kind ["elevation"; "pressure"; "velocity"]) ->
  get_fluidkinematics_raos divide h x kind = Err ValueError.
Proof.
  intros h x divide kind all Ho Hf HR H.
  destruct (in_dec string_dec kind ["elevation"; "pressure"; "velocity"]) as [Hk|Hk]; [|exact (fluid_kind h x all Ho Hf HR divide kind Hk)].
  destruct H as [H|H]; [exact (fluid_count h x all Ho Hf HR divide kind Hk H)|contradiction].
Qed.
Print Assumptions C38_fluid_errors.
Example C38_case_fluid : fluids_in y_h w_y y_fluids /\ point_minor y_refs [1; 2] y_fluids /\ counted y_h w_y "WFKPOINT" 2 /\ global_in y_h w_y (fz 10) (fz 1025) (fz 300) /\
  (exists a, get_fluidkinematics_raos (fun c _ => c) y_h y_x "velocity" = Ok a /\ n_shape a = [2; 3; 2; 3]%nat /\ at_ a [1; 2; 0; 1]%nat = Some (cz 6012)) /\
  (exists a, get_fluidkinematics_raos (fun c _ => c) y_h y_x "pressure" = Ok a /\ n_shape a = [2; 2; 3]%nat /\ at_ a [1; 1; 2]%nat = Some (cz 162)).
Proof.
  split; [exact y_has_fluids|]. split; [reflexivity|]. split; [left; eexists; split; [split; [vm_compute; reflexivity|constructor]|reflexivity]|].
  split; [do 3 eexists; split; [vm_compute; reflexivity|constructor]|]. split; eexists; (split; [vm_compute; reflexivity|]); split; reflexivity.
Qed.

(** Panel pressures *)
Theorem C38_panels : forall h d x refs ds fs bs b i symms pans all mine,
  d_open d = true -> wrefs_in h (d_group d) refs -> grid refs ds fs -> ds <> [] -> fs <> [] -> hydro_init h d = Ok x ->
  bodies_in h (d_group d) bs -> body_cond bs b i -> b <> 0 ->
  symms <> [] -> pans <> [] -> NoDup symms -> NoDup pans ->
  panels_in h (d_group d) all -> subseq (fun r => p_cond r = i) all mine -> panel_minor refs symms pans mine ->
  exists a, get_panel_pressures h x b = Ok (Some a) /\ n_shape a = [length pans; length symms; length ds; length fs] /\
    forall k pan t symm p q dir freq, nth_error pans k = Some pan -> nth_error symms t = Some symm -> nth_error ds p = Some dir -> nth_error fs q = Some freq ->
      exists ref r, In ref refs /\ w_dir ref = dir /\ w_freq ref = freq /\ In r all /\ p_cond r = i /\ p_ires r = w_ires ref /\ p_pan r = pan /\ p_symm r = symm /\
        at_ a [k; t; p; q] = Some (p_p r).
Proof.
  intros h d x refs ds fs bs b i symms pans all mine Ho HW HG Hd Hf E HB Hi Hb Hs Hp Ns Np HR HM HO.
  destruct (grid_axes h d refs ds fs x Ho HW HG Hd Hf E) as (<- & E1 & E2).
  assert (Hr : refs <> []) by (intros ->; destruct HG as (G & _); destruct ds; [congruence|]; destruct fs; [congruence|]; discriminate).
  destruct (panels_grid h x refs ds fs Ho HG E1 E2 Hf bs b i HB Hi Hb symms pans all mine Hs Hp Hr Ns Np HR HM HO) as (a & A1 & A2 & A3).
  exists a. split; [exact A1|]. unfold ndirs, nfreqs in *. rewrite E1, E2 in *. split; [exact A2|]. intros k pan t symm p q dir freq Hk Ht Hp' Hq.
  destruct (A3 k pan t symm p q Hk Ht ltac:(apply nth_error_Some; congruence) ltac:(apply nth_error_Some; congruence)) as (ref & r & (B1 & B2 & B3) & B4).
  rewrite E1 in B2. rewrite E2 in B3. exists ref, r. split; [exact B1|]. split; [congruence|]. split; [congruence|exact B4].
Qed.
Print Assumptions C38_panels.
Theorem C38_panels_none : forall h x b, d_open (hy_data x) = true -> hy_freqs x <> [] -> h5_find (tpath (d_group (hy_data x)) "W1PANPRE") h = None ->
  get_panel_pressures h x b = Ok None /\ get_pressure_panel_ids h x b = Ok None.
Proof. exact panels_none. Qed.
Print Assumptions C38_panels_none.
Example C38_case_panels : panels_in y_h w_y y_panels /\ subseq (fun r => p_cond r = 9) y_panels y_panels /\ panel_minor y_refs [1; 2] [1; 2; 3] y_panels /\
  get_pressure_panel_ids y_h y_x 2 = Ok (Some [(1, 1); (2, 1); (3, 1); (1, 2); (2, 2); (3, 2)]) /\
  exists a, get_panel_pressures y_h y_x 2 = Ok (Some a) /\ n_shape a = [3; 2; 2; 3]%nat /\ at_ a [2; 0; 1; 1]%nat = Some (cz 15013).
Proof.
  split; [exact y_has_panels|]. split; [unfold y_panels; cbn [flat_map app map]; sub_|]. split; [reflexivity|]. split; [vm_compute; reflexivity|]. eexists. split; [vm_compute; reflexivity|]. split; reflexivity.
Qed.

(** ** C39 *)
Theorem C39_independent : forall h x ms bs b b2 i j typ l1 m l2,
  d_open (hy_data x) = true -> bodies_in h (d_group (hy_data x)) bs -> body_cond bs b i -> body_cond bs b2 j -> matrices_in h (d_group (hy_data x)) ms ->
  In typ [11; 22; 31; 32] -> ms = l1 ++ m :: l2 -> is_for i j typ m -> (forall m', In m' l1 -> ~ is_for i j typ m') ->
  exists a, get_matrix h x typ b b2 = Ok a /\ n_shape a = [6; 6]%nat /\
    forall p q, (p < 6)%nat -> (q < 6)%nat -> exists c, at_ a [p; q] = Some c /\ entry m p q c.
Proof. intros h x ms bs b b2 i j typ l1 m l2 Ho HB Hi Hj HM. exact (matrix_ok h x ms bs b b2 i j Ho HB Hi Hj HM typ l1 m l2). Qed.
Print Assumptions C39_independent.
Theorem C39_dependent : forall h x ms bs b b2 i j typ sel,
  d_open (hy_data x) = true -> bodies_in h (d_group (hy_data x)) bs -> body_cond bs b i -> body_cond bs b2 j -> matrices_in h (d_group (hy_data x)) ms ->
  In typ [12; 21] -> subseq (is_for i j typ) ms sel ->
  exists a, get_matrix h x typ b b2 = Ok a /\ n_shape a = [6%nat; 6%nat; length sel] /\
    forall p q f m, (p < 6)%nat -> (q < 6)%nat -> nth_error sel f = Some m -> exists c, at_ a [p; q; f] = Some c /\ entry m p q c.
Proof. intros h x ms bs b b2 i j typ sel Ho HB Hi Hj HM. exact (matrices_ok h x ms bs b b2 i j Ho HB Hi Hj HM typ sel). Qed.
Print Assumptions C39_dependent.
Theorem C39_missing : forall h x ms bs b b2 i j typ,
  d_open (hy_data x) = true -> bodies_in h (d_group (hy_data x)) bs -> body_cond bs b i -> body_cond bs b2 j -> matrices_in h (d_group (hy_data x)) ms ->
  In typ [11; 22; 31; 32] -> (forall m, In m ms -> ~ is_for i j typ m) -> get_matrix h x typ b b2 = Err ConditionError.
Proof. intros h x ms bs b b2 i j typ Ho HB Hi Hj HM. exact (matrix_none h x ms bs b b2 i j Ho HB Hi Hj HM typ). Qed.
Print Assumptions C39_missing.
(** Which type of matrix each getter asks for *)
Definition matrix_getters : list ((h5 -> hydro -> Z -> Z -> Res (nd cell)) * Z) :=
  [(get_bodymass, 11); (get_viscousdamping, 22); (get_hydrostatic_restoring, 31); (get_mooring_restoring, 32)].
Definition matrix_series : list ((h5 -> hydro -> Z -> Z -> Res (nd cell)) * Z) := [(get_addedmass, 12); (get_potentialdamping, 21)].
Theorem C39_named : forall h x ms bs b b2 i j,
  d_open (hy_data x) = true -> bodies_in h (d_group (hy_data x)) bs -> body_cond bs b i -> body_cond bs b2 j -> matrices_in h (d_group (hy_data x)) ms ->
  (forall get typ, In (get, typ) matrix_getters ->
    (forall l1 m l2, ms = l1 ++ m :: l2 -> is_for i j typ m -> (forall m', In m' l1 -> ~ is_for i j typ m') ->
      exists a, get h x b b2 = Ok a /\ n_shape a = [6; 6]%nat /\
        forall p q, (p < 6)%nat -> (q < 6)%nat -> exists c, at_ a [p; q] = Some c /\ entry m p q c) /\
    ((forall m, In m ms -> ~ is_for i j typ m) -> get h x b b2 = Err ConditionError)) /\
  (forall get typ sel, In (get, typ) matrix_series -> subseq (is_for i j typ) ms sel ->
    exists a, get h x b b2 = Ok a /\ n_shape a = [6%nat; 6%nat; length sel] /\
      forall p q f m, (p < 6)%nat -> (q < 6)%nat -> nth_error sel f = Some m -> exists c, at_ a [p; q; f] = Some c /\ entry m p q c).
Proof.
  intros h x ms bs b b2 i j Ho HB Hi Hj HM. split.
  - intros get typ Hg. assert (Ht : In typ [11; 22; 31; 32] /\ get h x b b2 = get_matrix h x typ b b2).
    { cbn [matrix_getters In] in Hg. destruct Hg as [E|[E|[E|[E|[]]]]]; injection E as <- <-; (split; [cbn; tauto|reflexivity]). }
    destruct Ht as [Ht ->]. split; [intros l1 m l2; exact (C39_independent h x ms bs b b2 i j typ l1 m l2 Ho HB Hi Hj HM Ht)|exact (C39_missing h x ms bs b b2 i j typ Ho HB Hi Hj HM Ht)].
  - intros get typ sel Hg. assert (Ht : In typ [12; 21] /\ get h x b b2 = get_matrix h x typ b b2).
    { cbn [matrix_series In] in Hg. destruct Hg as [E|[E|[]]]; injection E as <- <-; (split; [cbn; tauto|reflexivity]). }
    destruct Ht as [Ht ->]. exact (C39_dependent h x ms bs b b2 i j typ sel Ho HB Hi Hj HM Ht).
Qed.
Print Assumptions C39_named.
Theorem C39_other_type : forall h x ms bs b b2 i j typ,
  d_open (hy_data x) = true -> bodies_in h (d_group (hy_data x)) bs -> body_cond bs b i -> body_cond bs b2 j -> matrices_in h (d_group (hy_data x)) ms ->
  ~ In typ [11; 12; 21; 22; 31; 32] -> get_matrix h x typ b b2 = Err ValueError.
Proof. intros h x ms bs b b2 i j typ Ho HB Hi Hj HM. exact (matrix_other h x ms bs b b2 i j Ho HB Hi Hj HM typ). Qed.
Print Assumptions C39_other_type.
Theorem C39_unknown_body : forall h x bs typ b b2 i ms, d_open (hy_data x) = true -> bodies_in h (d_group (hy_data x)) bs -> matrices_in h (d_group (hy_data x)) ms ->
  (~ In b (map fst bs) \/ (body_cond bs b i /\ ~ In b2 (map fst bs))) -> get_matrix h x typ b b2 = Err ConditionError.
Proof.
  intros h x bs typ b b2 i ms Ho HB HM [H|[H1 H2]]; [exact (matrix_unknown h x bs typ b b2 ms Ho HB HM H)|exact (matrix_unknown2 h x bs typ b b2 i ms Ho HB HM H1 H2)].
Qed.
Print Assumptions C39_unknown_body.
Example C39_case : matrices_in y_h w_y y_matrices /\ body_cond y_bodies 2 9 /\ body_cond y_bodies 1 4 /\
  subseq (is_for 9 9 12) y_matrices [mkM 9 9 12 (y_mat 300); mkM 9 9 12 (y_mat 500); mkM 9 9 12 (y_mat 700)] /\
  (exists a, get_matrix y_h y_x 12 2 2 = Ok a /\ n_shape a = [6; 6; 3]%nat /\ at_ a [2; 4; 1]%nat = Some (CF (fi 524))) /\
  (exists a, get_matrix y_h y_x 12 2 1 = Ok a /\ n_shape a = [6; 6; 1]%nat /\ at_ a [5; 0; 0]%nat = Some (CF (fi 650))) /\
  (exists a, get_matrix y_h y_x 11 2 2 = Ok a /\ n_shape a = [6; 6]%nat /\ at_ a [2; 4]%nat = Some (CF (fi 224))) /\
  get_matrix y_h y_x 22 2 2 = Err ConditionError /\ get_matrix y_h y_x 13 2 2 = Err ValueError /\ get_matrix y_h y_x 11 2 3 = Err ConditionError.
Proof.
  split; [exact y_has_matrices|]. split; [exact y_body|]. split; [exists [], [(2, 9)]; split; [reflexivity|cbn; tauto]|].
  split; [unfold y_matrices; repeat (first [apply sub_nil | apply sub_in; [repeat split|] | apply sub_out; [intros (H1 & H2 & H3); vm_compute in H1, H2, H3; discriminate|]])|].
  repeat split; try (vm_compute; reflexivity); eexists; (split; [vm_compute; reflexivity|]); split; reflexivity.
Qed.
