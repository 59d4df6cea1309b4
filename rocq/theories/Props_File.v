(** * From the file to the arrays: C55

    [sesam_file d top letter id segs] (SaysSpec): the file [top] of a directory,
    with the records [segs].  What they say of a structure is said by [mesh_on],
    [sets_on], [refs_on] and the like, without any store.  The theorems put the
    reading of the bytes, the conversion, the opening and the getters together. *)
From Verif Require Import Base Flt SeqFile H5 Schema Parsers Data Files Struc Convert SeqSpec StoreSpec ParserSpec LayoutSpec FileSpec DataSpec
  StrucSpec ElemResSpec StrucRes StrucProofs StrucExist Nd NdProofs Elem AssemblySpec SaysSpec SaysProofs SaysOpen Sample2 ElemMore FileSample Props_Struc Props_Elem.
Open Scope string_scope.
Open Scope Z_scope.
Open Scope list_scope.

(** C55.  Nodes and elements of any selection. *)
Theorem C55_mesh : forall d top letter id segs g ns es,
  sesam_file d top letter id segs -> first_level letter segs -> 0 < g_batch g -> mesh_on segs ns es ->
  exists g' h o, open_sif d top g = Ok (g', h, KFirst, o) /\
    forall nms ms sets kind idx disconnected, proper_on segs es nms ms sets kind -> selected es nms ms sets kind idx ->
    get_elementnumbers h o sets kind "external" = Ok (map el_ext (pick es idx)) /\
    get_elementnumbers h o sets kind "internal" = Ok (map no_of idx) /\
    (idx <> [] \/ nosel sets kind = true -> exists sel cons,
      selected_nodes ns es (nosel sets kind) disconnected idx (map fst sel) /\ Forall (fun jn => nth_error ns (fst jn) = Some (snd jn)) sel /\
      get_coords h o sets kind disconnected = Ok (map (fun jn => n_xyz (snd jn)) sel) /\
      get_nodenumbers h o sets kind disconnected "external" = Ok (map (fun jn => n_ext (snd jn)) sel) /\
      get_nodenumbers h o sets kind disconnected "internal" = Ok (map (fun jn => no_of (fst jn)) sel) /\
      get_elements h o sets kind disconnected = Ok (concat cons, totals (map el_nodes (pick es idx)), map el_typ (pick es idx)) /\
      Forall2 (fun e c => fits_nodes ns (map fst sel) (map (fun jn => n_xyz (snd jn)) sel) (el_nodes e) c) (pick es idx) cons).
Proof.
  intros d top letter id segs g ns es HF HL Hb HM. destruct (open_first d top letter id segs g HF HL Hb) as (g' & h & o & E & O & T).
  exists g', h, o. split; [exact E|]. intros nms ms sets kind idx dis HP HS.
  pose proof (mesh_found h _ segs ns es T HM) as M. pose proof (proper_found h _ segs es nms ms sets kind T HP) as P.
  destruct (C30_elements h o ns es nms ms sets kind idx O M P HS) as [E1 E2]. split; [exact E1|]. split; [exact E2|]. intros Hne.
  destruct (C30_nodes h o ns es nms ms sets kind idx dis O M P HS Hne) as (sel & A1 & A2 & A3 & A4 & A5).
  destruct (C26_fit h o ns es nms ms sets kind idx dis O M P HS Hne) as (pts & nidx & cons & B1 & B2 & B3 & B4 & B5).
  rewrite A2 in B2. injection B2 as <-. rewrite (selected_nodes_unique _ _ _ _ _ _ _ B1 A1) in B5. exists sel, cons. now repeat split.
Qed.
Print Assumptions C55_mesh.
(** Sections of beams and thicknesses of shells. *)
Theorem C55_properties : forall d top letter id segs g ns es gs,
  sesam_file d top letter id segs -> first_level letter segs -> 0 < g_batch g -> mesh_on segs ns es -> geo_on segs gs -> length gs = length es ->
  exists g' h o, open_sif d top g = Ok (g', h, KFirst, o) /\ forall nms ms sets idx,
    (forall ps vs, proper_on segs es nms ms sets "beam" -> selected es nms ms sets "beam" idx -> sections_on segs ps -> Forall2 (of_number ps) (pick gs idx) vs ->
       exists out, get_section_properties h o sets = Ok out /\ Forall2 (fun g_v r => r = CI (fst g_v) :: snd g_v) (combine (pick gs idx) vs) out) /\
    (forall ps vs, proper_on segs es nms ms sets "shell" -> selected es nms ms sets "shell" idx -> thicknesses_on segs ps -> Forall2 (of_number ps) (pick gs idx) vs ->
       get_shell_thicknesses h o sets = Ok vs).
Proof.
  intros d top letter id segs g ns es gs HF HL Hb HM HG Hl. destruct (open_first d top letter id segs g HF HL Hb) as (g' & h & o & E & O & T).
  exists g', h, o. split; [exact E|]. intros nms ms sets idx. pose proof (mesh_found h _ segs ns es T HM) as M. pose proof (geo_found h _ segs gs T HG) as G. split.
  - intros ps vs HP HS HN HV. exact (C34_sections h o ns es nms ms sets gs ps idx vs O M G Hl (proper_found h _ segs es nms ms sets _ T HP) HS (sections_found h _ segs ps T HN) HV).
  - intros ps vs HP HS HN HV. exact (C34_thicknesses h o ns es nms ms sets gs ps idx vs O M G Hl (proper_found h _ segs es nms ms sets _ T HP) HS (thicknesses_found h _ segs ps T HN) HV).
Qed.
Print Assumptions C55_properties.
(** Names of result cases. *)
Theorem C55_cases : forall d top letter id segs g ls,
  sesam_file d top letter id segs -> first_level letter segs -> 0 < g_batch g -> loads_on segs ls ->
  exists g' h o, open_sif d top g = Ok (g', h, KFirst, o) /\ forall cs arg sel, cases_arg cs arg ->
    subseq (fun l => match cs with Some c => In (fst l) c | None => True end) ls sel ->
    get_resultcase_names h o arg = Ok (map (fun l => (fst l, CS (snd l))) sel).
Proof.
  intros d top letter id segs g ls HF HL Hb HN. destruct (open_first d top letter id segs g HF HL Hb) as (g' & h & o & E & O & T).
  exists g', h, o. split; [exact E|]. intros cs arg sel. exact (C52_names h o ls cs arg sel O (loads_found h _ segs ls T HN)).
Qed.
Print Assumptions C55_cases.
(** Displacements, velocities and accelerations. *)
Theorem C55_node_results : forall d top letter id segs g ns es rs,
  sesam_file d top letter id segs -> first_level letter segs -> 0 < g_batch g -> mesh_on segs ns es -> refs_on segs rs ->
  exists g' h o, open_sif d top g = Ok (g', h, KFirst, o) /\ forall nms ms sets kind idx disconnected restype rn cn bs run cs arg sel f,
    proper_on segs es nms ms sets kind -> selected es nms ms sets kind idx -> idx <> [] \/ nosel sets kind = true -> (disconnected = true -> idx <> []) ->
    (nosel sets kind = true -> forall j, (j < length ns)%nat -> In (no_of j) (flat_map el_nodes (pick es idx))) ->
    In (restype, rn, cn) [("displacement", "RVNODDIS", "dis"); ("velocity", "RVNODVEL", "vel"); ("acceleration", "RVNODACC", "acc")] ->
    noderes_on segs rn (length ns) bs -> cases_arg cs arg -> asked_refs run cs rs sel -> sel <> [] ->
    filter (fun i => zmem i (map rf_ires sel)) (map fst bs) = map rf_ires sel -> NoDup (map rf_ires sel) ->
    (forall r, In r sel -> rf_complex r = f) ->
    (forall b, In b bs -> In (fst b) (map rf_ires sel) -> Forall (fun v => exists w, shown f v w) (snd b)) ->
    exists nd out, selected_nodes ns es (nosel sets kind) disconnected idx nd /\
      get_noderesults h o restype run arg sets kind disconnected = Ok (StrucRes.shaped out) /\
      Forall2 (fun r a => Forall2 (fun j w => exists v, value_at bs (rf_ires r) j v /\ shown (rf_complex r) v w) nd a) sel out.
Proof.
  intros d top letter id segs g ns es rs HF HL Hb HM HR. destruct (open_first d top letter id segs g HF HL Hb) as (g' & h & o & E & O & T).
  exists g', h, o. split; [exact E|]. intros nms ms sets kind idx dis restype rn cn bs run cs arg sel f HP HS Hne Hd Hall Hk HB HA HX Hsel Hord Hnd Hc Hw.
  apply (C31_node_results_partial h o ns es nms ms sets kind idx rs run cs arg sel restype rn cn bs f dis O); try assumption.
  - now apply (mesh_found h _ segs).
  - now apply (proper_found h _ segs).
  - intros ->. destruct HM as ((N & L & _) & _). destruct (entries_of "GNODE" segs); [congruence|discriminate].
  - now apply (refs_found h _ segs).
  - apply (noderes_found h _ segs); [|exact T|exact HB]. cbn in Hk. destruct Hk as [K|[K|[K|[]]]]; injection K as <- <- <-; cbn; tauto.
Qed.
Print Assumptions C55_node_results.
(** Beam forces and shell stresses. *)
Theorem C55_element_results : forall (F : Type) (zero one : F) add mul sub opp div s3 (num : cell -> F) d top letter id segs g ns es rs,
  sesam_file d top letter id segs -> first_level letter segs -> 0 < g_batch g -> mesh_on segs ns es -> refs_on segs rs ->
  exists g' h o, open_sif d top g = Ok (g', h, KFirst, o) /\ forall nms ms sets restype rn cn kind idx bs run cs arg sel f sh,
    In (restype, (rn, cn, kind)) result_kinds -> proper_on segs es nms ms sets kind -> selected es nms ms sets kind idx -> idx <> [] ->
    elemres_on segs rn es bs -> cases_arg cs arg -> asked_refs run cs rs sel -> sel <> [] -> NoDup (map rf_ires sel) ->
    (forall r, In r sel -> rf_complex r = f) ->
    filter (fun i => zmem i (map rf_ires sel)) (map fst bs) = map rf_ires sel ->
    (forall b, In b bs -> In (fst b) (map rf_ires sel) -> map fst (filter (fun ev => existsb (Nat.eqb (fst ev)) idx) (snd b)) = idx) ->
    (forall j e, In j idx -> nth_error es j = Some e -> exists len, In (el_typ e, (len, length (el_nodes e), sh)) (elem_sizes restype) /\
       forall b v, In b bs -> In (fst b) (map rf_ires sel) -> In (j, v) (snd b) -> exists w, numbers f v w /\ length w = len) ->
    exists parts : list (list (nd F)),
      get_elementresults zero one add mul sub opp div s3 num h o restype "nodes" run arg sets =
        Ok (with_cases (length sel) (length (flat_map el_nodes (pick es idx)) :: sh) (flat_map (flat_map n_flat) parts)) /\
      Forall2 (fun r ps => Forall2 (fun j a => exists e b v w, nth_error es j = Some e /\ In b bs /\ fst b = rf_ires r /\ In (j, v) (snd b) /\ numbers f v w /\
        process zero one add mul sub opp div s3 (el_typ e) restype "nodes" (map num w) = Ok a /\ n_shape a = length (el_nodes e) :: sh /\ wf a) idx ps) sel parts.
Proof.
  intros F zero one add mul sub opp div s3 num d top letter id segs g ns es rs HF HL Hb HM HR. destruct (open_first d top letter id segs g HF HL Hb) as (g' & h & o & E & O & T).
  exists g', h, o. split; [exact E|]. intros nms ms sets restype rn cn kind idx bs run cs arg sel f sh Hk HP HS Hne HB HA HX Hsel Hnd Hc Hord Hel Hsz.
  apply (C53_element_results F zero one add mul sub opp div s3 num h o ns es nms ms sets restype rn cn kind idx rs run cs arg sel bs f sh O); try assumption.
  - now apply (mesh_found h _ segs).
  - now apply (proper_found h _ segs).
  - now apply (refs_found h _ segs).
  - apply (elemres_found h _ segs); [|exact T|exact HB]. cbn in Hk. destruct Hk as [K|[K|[K|[]]]]; injection K as <- <- <- <-; cbn; tauto.
Qed.
Print Assumptions C55_element_results.
(** The file of FileSample. *)
Definition with_first {A} (f : h5 -> sdata -> Res A) (r : Res (glob * h5 * Files.kind * sdata)) : Res A :=
  match r with Ok (_, h, k, o) => match k with KFirst => f h o | _ => Err KeyError end | Err e => Err e end.
Definition q_open {A} (f : h5 -> sdata -> Res A) : Res A := with_first f (open_sif q_dir "barR5.SIF" glob0).
Definition q_result := Eval vm_compute in open_sif q_dir "barR5.SIF" glob0.
Lemma q_opens {A} (f : h5 -> sdata -> Res A) : q_open f = with_first f q_result.
Proof. unfold q_open. apply f_equal. vm_cast_no_check (eq_refl q_result). Qed.
Ltac q_eval := refine (eq_trans (q_opens _) _); vm_compute; reflexivity.
Ltac q_sel := match goal with |- selected ?a ?b ?c ?d ?e ?f => replace f with (selection a b c d e) by (vm_compute; reflexivity); apply selection_spec end.
Ltac q_proper := apply proper_on_b; [intros _; exact q_sets|vm_compute; reflexivity|cbn; tauto].
Example C55_mesh_case : sesam_file q_dir "barR5.SIF" "R" 5 q_segs /\ first_level "R" q_segs /\ 0 < g_batch glob0 /\ mesh_on q_segs q_ns q_es /\
  proper_on q_segs q_es q_nms q_ms [s2l "DECK1"] "" /\ selected q_es q_nms q_ms [s2l "DECK1"] "" [1]%nat /\
  q_open (fun h o => get_elementnumbers h o [s2l "DECK1"] "" "external") = Ok [12] /\
  q_open (fun h o => get_nodenumbers h o [] "beam" true "external") = Ok [103; 101] /\
  q_open (fun h o => get_coords h o [] "beam" true) = Ok [[fz 10; fz 0; fz 0]; [fz 0; fz (-5); fz 0]] /\
  q_open (fun h o => get_elements h o [] "" false) = Ok ([1; 0; 0; 1; 2], [2; 5], [15; 25]).
Proof.
  split; [exact q_sesam|]. split; [exact q_first|]. split; [reflexivity|]. split; [exact q_mesh|]. split; [q_proper|]. split; [q_sel|].
  split; [q_eval|]. split; [q_eval|]. split; [q_eval|q_eval].
Qed.
Example C55_properties_case : geo_on q_segs q_geo /\ length q_geo = length q_es /\ sections_on q_segs q_sections /\ thicknesses_on q_segs q_ths /\
  selected q_es q_nms q_ms [] "beam" [0]%nat /\ selected q_es q_nms q_ms [s2l "DECK1"] "shell" [1]%nat /\ Forall2 (of_number q_ths) (pick q_geo [1]%nat) [fz 20] /\
  q_open (fun h o => get_section_properties h o []) = Ok [CI 7 :: map fz [1; 2; 3; 4; 5; 6; 7; 8; 9; 10; 11; 12; 13; 14; 15]] /\
  q_open (fun h o => get_shell_thicknesses h o [s2l "DECK1"]) = Ok [fz 20].
Proof.
  split; [exact q_has_geo|]. split; [reflexivity|]. split; [exact q_has_sections|]. split; [exact q_has_ths|]. split; [q_sel|]. split; [q_sel|].
  split; [constructor; [exists [], []; split; [reflexivity|now cbn]|constructor]|]. split; [q_eval|q_eval].
Qed.
Example C55_cases_case : loads_on q_segs q_loads /\ q_open (fun h o => get_resultcase_names h o AllCases) = Ok [(3, CS (s2l "DEAD")); (4, CS (s2l "LIVE"))] /\
  q_open (fun h o => get_resultcase_names h o (OneCase 4)) = Ok [(4, CS (s2l "LIVE"))].
Proof. split; [exact q_has_loads|]. split; [q_eval|q_eval]. Qed.
Ltac q_asked := unfold q_refs; repeat (first [apply sub_nil | apply sub_in; [split; [reflexivity|cbn; tauto]|] | apply sub_out; [intros [H1 H2]; vm_compute in H1, H2; intuition congruence|]]).
Example C55_node_results_case : refs_on q_segs q_refs /\ noderes_on q_segs "RVNODDIS" 3 q_blocks /\ asked_refs 1 (Some [4]) q_refs [mkRef 2 1 4 0] /\
  (exists nd, selected_nodes q_ns q_es false true [0]%nat nd /\ exists out,
     q_open (fun h o => get_noderesults h o "displacement" 1 (OneCase 4) [] "beam" true) = Ok (StrucRes.shaped out)) /\
  q_open (fun h o => get_noderesults h o "displacement" 1 (OneCase 4) [] "beam" true) = Ok (One [map fz [220; 221; 222; 223; 224; 225]; map fz [210; 211; 212; 213; 214; 215]]).
Proof.
  split; [exact q_has_refs|]. split; [exact q_has_dis|]. split; [q_asked|]. split; [|q_eval].
  destruct (C55_node_results q_dir "barR5.SIF" "R" 5 q_segs glob0 q_ns q_es q_refs q_sesam q_first eq_refl q_mesh q_has_refs) as (g' & h & o & E & H).
  destruct (H [] [] [] "beam" [0]%nat true "displacement" "RVNODDIS" "dis" q_blocks 1 (Some [4]) (OneCase 4) [mkRef 2 1 4 0] 0) as (nd & out & H1 & H2 & _).
  - apply proper_on_b; [intro K; congruence|vm_compute; reflexivity|cbn; tauto].
  - q_sel.
  - left. discriminate.
  - discriminate.
  - discriminate.
  - left. reflexivity.
  - exact q_has_dis.
  - right. exists 4. split; reflexivity.
  - q_asked.
  - discriminate.
  - reflexivity.
  - repeat constructor. intros [].
  - intros r [<-|[]]. reflexivity.
  - intros b [<-|[<-|[]]] _; repeat constructor; match goal with |- exists w, shown _ ?v w => exists v end; split; reflexivity.
  - exists nd. split; [exact H1|]. exists out. unfold q_open. rewrite E. exact H2.
Qed.
Example C55_element_results_case : elemres_on q_segs "RVFORCES" q_es q_forces /\
  (exists parts, q_open (fun h o => get_plain h o "beamforce" "nodes" 1 AllCases []) = Ok (with_cases 2 [2; 6]%nat parts)) /\
  (exists a, q_open (fun h o => get_plain h o "beamforce" "nodes" 1 (OneCase 3) []) = Ok a /\ n_shape a = [2; 6]%nat /\ n_flat a = map fz (firstn 6 (q_vals 100) ++ skipn 12 (q_vals 100))).
Proof.
  split; [exact q_has_forces|]. split; [|eexists; split; [q_eval|split; vm_compute; reflexivity]].
  destruct (C55_element_results cell (CI 0) (CI 1) op2 op2 op2 zf op2 (CI 0) zf q_dir "barR5.SIF" "R" 5 q_segs glob0 q_ns q_es q_refs q_sesam q_first eq_refl q_mesh q_has_refs) as (g' & h & o & E & H).
  destruct (H [] [] [] "beamforce" "RVFORCES" "force" "beam" [0]%nat q_forces 1 None AllCases q_refs 0 [6]%nat) as (parts & H1 & _).
  - left. reflexivity.
  - apply proper_on_b; [intro K; congruence|vm_compute; reflexivity|cbn; tauto].
  - q_sel.
  - discriminate.
  - exact q_has_forces.
  - reflexivity.
  - q_asked.
  - discriminate.
  - repeat constructor; cbn; intuition congruence.
  - intros r [<-|[<-|[]]]; reflexivity.
  - reflexivity.
  - intros b [<-|[<-|[]]] _; reflexivity.
  - intros j e [<-|[]] X. injection X as <-. exists 18%nat. split; [now left|]. intros b v [<-|[<-|[]]] _ [K|[]]; injection K as <-; eexists; (split; [reflexivity|reflexivity]).
  - eexists. unfold q_open, get_plain. rewrite E. exact H1.
Qed.
