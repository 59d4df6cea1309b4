(** * SaysGives: what the getters of a data object with the records [segs] return.

    The conclusions of C55, for any data object in whose group the records of a
    file are stored. *)
From Verif Require Import Base Flt SeqFile H5 Schema Parsers Data Files Struc Convert SeqSpec StoreSpec ParserSpec LayoutSpec FileSpec DataSpec
  StrucSpec ElemResSpec StrucRes StrucProofs StrucExist Nd NdProofs Elem AssemblySpec SaysSpec SaysProofs ElemMore Props_Struc Props_Elem.
Open Scope string_scope.
Open Scope Z_scope.
Open Scope list_scope.

Definition gives_mesh (h : h5) (o : sdata) (segs : list seg) : Prop := forall ns es, mesh_on segs ns es ->
    forall nms ms sets kind idx disconnected, proper_on segs es nms ms sets kind -> selected es nms ms sets kind idx ->
    get_elementnumbers h o sets kind "external" = Ok (map el_ext (pick es idx)) /\
    get_elementnumbers h o sets kind "internal" = Ok (map no_of idx) /\
    (idx <> [] \/ nosel sets kind = true -> exists sel cons,
      selected_nodes ns es (nosel sets kind) disconnected idx (map fst sel) /\ Forall (fun jn => nth_error ns (fst jn) = Some (snd jn)) sel /\
      get_coords h o sets kind disconnected = Ok (map (fun jn => n_xyz (snd jn)) sel) /\
      get_nodenumbers h o sets kind disconnected "external" = Ok (map (fun jn => n_ext (snd jn)) sel) /\
      get_nodenumbers h o sets kind disconnected "internal" = Ok (map (fun jn => no_of (fst jn)) sel) /\
      get_elements h o sets kind disconnected = Ok (concat cons, totals (map el_nodes (pick es idx)), map el_typ (pick es idx)) /\
      Forall2 (fun e c => fits_nodes ns (map fst sel) (map (fun jn => n_xyz (snd jn)) sel) (el_nodes e) c) (pick es idx) cons).
Lemma gives_mesh_ok h o segs : d_open o = true -> tables h (d_group o) segs -> gives_mesh h o segs.
Proof.
  intros O T ns es HM. intros nms ms sets kind idx dis HP HS.
  pose proof (mesh_found h _ segs ns es T HM) as M. pose proof (proper_found h _ segs es nms ms sets kind T HP) as P.
  destruct (C30_elements h o ns es nms ms sets kind idx O M P HS) as [E1 E2]. split; [exact E1|]. split; [exact E2|]. intros Hne.
  destruct (C30_nodes h o ns es nms ms sets kind idx dis O M P HS Hne) as (sel & A1 & A2 & A3 & A4 & A5).
  destruct (C26_fit h o ns es nms ms sets kind idx dis O M P HS Hne) as (pts & nidx & cons & B1 & B2 & B3 & B4 & B5).
  rewrite A2 in B2. injection B2 as <-. rewrite (selected_nodes_unique _ _ _ _ _ _ _ B1 A1) in B5. exists sel, cons. now repeat split.
Qed.
Definition gives_properties (h : h5) (o : sdata) (segs : list seg) : Prop := forall ns es gs, mesh_on segs ns es -> geo_on segs gs -> length gs = length es ->
    forall nms ms sets idx,
    (forall ps vs, proper_on segs es nms ms sets "beam" -> selected es nms ms sets "beam" idx -> sections_on segs ps -> Forall2 (of_number ps) (pick gs idx) vs ->
       exists out, get_section_properties h o sets = Ok out /\ Forall2 (fun g_v r => r = CI (fst g_v) :: snd g_v) (combine (pick gs idx) vs) out) /\
    (forall ps vs, proper_on segs es nms ms sets "shell" -> selected es nms ms sets "shell" idx -> thicknesses_on segs ps -> Forall2 (of_number ps) (pick gs idx) vs ->
       get_shell_thicknesses h o sets = Ok vs).
Lemma gives_properties_ok h o segs : d_open o = true -> tables h (d_group o) segs -> gives_properties h o segs.
Proof.
  intros O T ns es gs HM HG Hl. intros nms ms sets idx. pose proof (mesh_found h _ segs ns es T HM) as M. pose proof (geo_found h _ segs gs T HG) as G. split.
  - intros ps vs HP HS HN HV. exact (C34_sections h o ns es nms ms sets gs ps idx vs O M G Hl (proper_found h _ segs es nms ms sets _ T HP) HS (sections_found h _ segs ps T HN) HV).
  - intros ps vs HP HS HN HV. exact (C34_thicknesses h o ns es nms ms sets gs ps idx vs O M G Hl (proper_found h _ segs es nms ms sets _ T HP) HS (thicknesses_found h _ segs ps T HN) HV).
Qed.
Definition gives_cases (h : h5) (o : sdata) (segs : list seg) : Prop := forall ls, loads_on segs ls ->
    forall cs arg sel, cases_arg cs arg ->
    subseq (fun l => match cs with Some c => In (fst l) c | None => True end) ls sel ->
    get_resultcase_names h o arg = Ok (map (fun l => (fst l, CS (snd l))) sel).
Lemma gives_cases_ok h o segs : d_open o = true -> tables h (d_group o) segs -> gives_cases h o segs.
Proof.
  intros O T ls HN. intros cs arg sel. exact (C52_names h o ls cs arg sel O (loads_found h _ segs ls T HN)).
Qed.
Definition gives_node_results (h : h5) (o : sdata) (segs : list seg) : Prop := forall ns es rs, mesh_on segs ns es -> refs_on segs rs ->
    forall nms ms sets kind idx disconnected restype rn cn bs run cs arg sel f,
    proper_on segs es nms ms sets kind -> selected es nms ms sets kind idx -> idx <> [] \/ nosel sets kind = true -> (disconnected = true -> idx <> []) ->
    (nosel sets kind = true -> forall j, (j < length ns)%nat -> In (no_of j) (flat_map el_nodes (pick es idx))) ->
    In (restype, rn, cn) [("displacement", "RVNODDIS", "dis"); ("velocity", "RVNODVEL", "vel"); ("acceleration", "RVNODACC", "acc")] ->
    noderes_on segs rn (length ns) bs -> cases_arg cs arg -> asked_refs run cs rs sel -> sel <> [] ->
    filter (fun i => zmem i (map rf_ires sel)) (map fst bs) = map rf_ires sel -> NoDup (map rf_ires sel) ->
    (forall r, In r sel -> rf_complex r = f) ->
    (forall b, In b bs -> In (fst b) (map rf_ires sel) -> Forall (fun v => exists w, shown f v w) (snd b)) ->
    exists nd out, selected_nodes ns es (nosel sets kind) disconnected idx nd /\
      get_noderesults h o restype run arg sets kind disconnected = Ok (StrucRes.shaped out) /\
      Forall2 (fun r a => Forall2 (fun j w => exists v, value_at bs (rf_ires r) j v /\ shown (rf_complex r) v w) nd a) sel out.
Lemma gives_node_results_ok h o segs : d_open o = true -> tables h (d_group o) segs -> gives_node_results h o segs.
Proof.
  intros O T ns es rs HM HR. intros nms ms sets kind idx dis restype rn cn bs run cs arg sel f HP HS Hne Hd Hall Hk HB HA HX Hsel Hord Hnd Hc Hw.
  apply (C31_node_results_partial h o ns es nms ms sets kind idx rs run cs arg sel restype rn cn bs f dis O); try assumption.
  - now apply (mesh_found h _ segs).
  - now apply (proper_found h _ segs).
  - intros ->. destruct HM as ((N & L & _) & _). destruct (entries_of "GNODE" segs); [congruence|discriminate].
  - now apply (refs_found h _ segs).
  - apply (noderes_found h _ segs); [|exact T|exact HB]. cbn in Hk. destruct Hk as [K|[K|[K|[]]]]; injection K as <- <- <-; cbn; tauto.
Qed.
Definition gives_element_results (F : Type) (zero one : F) add mul sub opp div s3 (num : cell -> F) (h : h5) (o : sdata) (segs : list seg) : Prop := forall ns es rs, mesh_on segs ns es -> refs_on segs rs ->
    forall nms ms sets restype rn cn kind idx bs run cs arg sel f sh,
    In (restype, (rn, cn, kind)) result_kinds -> proper_on segs es nms ms sets kind -> selected es nms ms sets kind idx -> idx <> [] ->
    elemres_on segs rn es bs -> cases_arg cs arg -> asked_refs run cs rs sel -> sel <> [] -> NoDup (map rf_ires sel) ->
    (forall r, In r sel -> rf_complex r = f) ->
    filter (fun i => zmem i (map rf_ires sel)) (map fst bs) = map rf_ires sel ->
    (forall b, In b bs -> In (fst b) (map rf_ires sel) -> map fst (filter (fun ev => existsb (Nat.eqb (fst ev)) idx) (snd b)) = idx) ->
    (forall j e, In j idx -> nth_error es j = Some e -> exists len, In (el_typ e, (len, length (el_nodes e), sh)) (elem_sizes restype) /\
       forall b v, In b bs -> In (fst b) (map rf_ires sel) -> In (j, v) (snd b) -> exists w, numbers f v w /\ length w = len) ->
    exists parts : list (list (nd F)),
      get_elementresults zero one add mul sub opp div s3 num h o restype "nodes" run arg sets =
        Ok (with_cases (length sel) (length (flat_map el_nodes (pick es idx)) :: sh) (flat_map (flat_map n_flat) parts)) /\
      Forall2 (fun r ps => Forall2 (fun j a => exists e b v w, nth_error es j = Some e /\ In b bs /\ fst b = rf_ires r /\ In (j, v) (snd b) /\ numbers f v w /\
        process zero one add mul sub opp div s3 (el_typ e) restype "nodes" (map num w) = Ok a /\ n_shape a = length (el_nodes e) :: sh /\ wf a) idx ps) sel parts.
Lemma gives_element_results_ok (F : Type) (zero one : F) add mul sub opp div s3 (num : cell -> F) h o segs : d_open o = true -> tables h (d_group o) segs -> gives_element_results F zero one add mul sub opp div s3 num h o segs.
Proof.
  intros O T ns es rs HM HR. intros nms ms sets restype rn cn kind idx bs run cs arg sel f sh Hk HP HS Hne HB HA HX Hsel Hnd Hc Hord Hel Hsz.
  apply (C53_element_results F zero one add mul sub opp div s3 num h o ns es nms ms sets restype rn cn kind idx rs run cs arg sel bs f sh O); try assumption.
  - now apply (mesh_found h _ segs).
  - now apply (proper_found h _ segs).
  - now apply (refs_found h _ segs).
  - apply (elemres_found h _ segs); [|exact T|exact HB]. cbn in Hk. destruct Hk as [K|[K|[K|[]]]]; injection K as <- <- <- <-; cbn; tauto.
Qed.
