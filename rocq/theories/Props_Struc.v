(** * Properties of structural data: C26-C34, C49, C52

    [mesh_in h w ns es] (StrucSpec): the nodes [ns] and elements [es] are found
    in the group [w], numbered in sequence.  [selected es nms ms sets kind idx]:
    [idx] are the elements wanted, by position. *)
From Coq Require Import Sorted Ring_theory InitialRing.
From Verif Require Import Base Flt H5 Schema StoreSpec ParserSpec Data Struc StrucSpec DataFacts StrucProofs StrucGet StrucRes
  StrucExist StrucSample StrucMore Files FilesProofs Trans TransSpec TransProofs TransSample.
Open Scope string_scope.
Open Scope Z_scope.
Open Scope list_scope.
Open Scope monad_scope.

Ltac sel_ := rewrite ?app_nil_l; match goal with |- selected ?a ?b ?c ?d ?e ?f => let v := eval vm_compute in (selection a b c d e) in
  replace f with (selection a b c d e) by (vm_compute; reflexivity); apply selection_spec end.
Ltac proper_ := apply properb_spec; [intros _; split; [exact x_names|exact x_members]|vm_compute; reflexivity|cbn; tauto].

(** Every selection has its elements, one way only. *)
Theorem C26_selection_exists : forall es nms ms sets kind,
  exists idx, selected es nms ms sets kind idx /\ forall idx', selected es nms ms sets kind idx' -> idx' = idx.
Proof. exact exists_selected. Qed.
Print Assumptions C26_selection_exists.

(** C26 *)
Theorem C26_fit : forall h d ns es nms ms sets kind idx disconnected,
  d_open d = true -> mesh_in h (d_group d) ns es -> proper h (d_group d) es nms ms sets kind ->
  selected es nms ms sets kind idx -> idx <> [] \/ nosel sets kind = true ->
  exists pts nidx cons,
    selected_nodes ns es (nosel sets kind) disconnected idx nidx /\
    get_coords h d sets kind disconnected = Ok pts /\ Forall2 (fun j p => exists n, nth_error ns j = Some n /\ p = n_xyz n) nidx pts /\
    get_elements h d sets kind disconnected = Ok (concat cons, totals (map el_nodes (pick es idx)), map el_typ (pick es idx)) /\
    Forall2 (fun e c => fits_nodes ns nidx pts (el_nodes e) c) (pick es idx) cons.
Proof. intros h d ns es nms ms sets kind idx dis Ho HM HP HI. exact (fit h d ns es Ho HM nms ms sets kind HP idx HI dis). Qed.
Print Assumptions C26_fit.
(** Disconnected: no two elements share a point, the points are used in order. *)
Theorem C26_own_points : forall h d sets kind con off typ, get_elements h d sets kind true = Ok (con, off, typ) -> con = map Z.of_nat (seq 0 (length con)).
Proof. exact points_numbered. Qed.
Print Assumptions C26_own_points.
Theorem C26_nothing_selected : forall h d ns es nms ms sets kind disconnected,
  d_open d = true -> mesh_in h (d_group d) ns es -> proper h (d_group d) es nms ms sets kind ->
  selected es nms ms sets kind [] -> nosel sets kind = false ->
  get_coords h d sets kind disconnected = Err ValueError /\ get_elements h d sets kind disconnected = Err ValueError.
Proof. intros h d ns es nms ms sets kind dis Ho HM HP HI. exact (nothing h d ns es Ho HM nms ms sets kind HP [] HI dis eq_refl). Qed.
Print Assumptions C26_nothing_selected.
Example C26_case : mesh_in x_h w_x x_ns x_es /\ proper x_h w_x x_es x_nms x_ms [deck] "" /\ selected x_es x_nms x_ms [deck] "" [0; 1]%nat /\
  get_coords x_h x_d [deck] "" false = Ok [[fz 0; fz 0; fz 0]; [fz 1; fz 0; fz 0]; [fz 1; fz 1; fz 0]; [fz 0; fz 1; fz 0]] /\
  get_elements x_h x_d [deck] "" false = Ok ([1; 0; 0; 1; 2; 3], [2; 6], [15; 24]) /\
  get_elements x_h x_d [col_] "" false = Ok ([1; 0; 2; 3], [2; 4], [15; 15]) /\
  get_elements x_h x_d [col_] "" true = Ok ([0; 1; 2; 3], [2; 4], [15; 15]) /\
  get_coords x_h x_d [col_] "" true = Ok [[fz 1; fz 0; fz 0]; [fz 0; fz 0; fz 0]; [fz 0; fz 1; fz 0]; [fz 0; fz 1; fz 7]].
Proof. split; [exact x_mesh|]. split; [proper_|]. split; [sel_|]. repeat split; vm_compute; reflexivity. Qed.
Example C26_nothing_case : selected x_es x_nms x_ms [col_] "shell" [] /\ get_coords x_h x_d [col_] "shell" false = Err ValueError /\
  get_elementnumbers x_h x_d [col_] "shell" "external" = Ok [].
Proof. split; [sel_|]. split; vm_compute; reflexivity. Qed.
(** That nodes come in sequence is needed: here node 2 is the first coordinate
    record, and the element from node 1 to node 2 is returned the other way
    round. *)
Example C26_sequence_needed : get_coords o_h x_d [] "" false = Ok [[fz 1; fz 0; fz 0]; [fz 0; fz 0; fz 0]] /\
  get_elements o_h x_d [] "" false = Ok ([0; 1], [2], [15]) /\ get_nodenumbers o_h x_d [] "" false "internal" = Ok [1; 2].
Proof. repeat split; vm_compute; reflexivity. Qed.

(** C27 *)
Theorem C27_union : forall h d ns es nms ms sets idx,
  d_open d = true -> mesh_in h (d_group d) ns es -> proper h (d_group d) es nms ms sets "" ->
  selected es nms ms sets "" idx ->
  get_elementindices h d sets "" = Ok (map Z.of_nat idx) /\ get_elementnumbers h d sets "" "internal" = Ok (map no_of idx).
Proof.
  intros h d ns es nms ms sets idx Ho HM HP HI. split; [exact (element_indices h d ns es Ho HM nms ms sets "" HP idx HI)|].
  exact (elementnumbers_ok h d ns es Ho HM nms ms sets "" HP idx HI "internal" ltac:(cbn; tauto)).
Qed.
Print Assumptions C27_union.
Theorem C27_unknown : forall h d ns es nms ms pre nm sets kind,
  d_open d = true -> mesh_in h (d_group d) ns es -> setnames_in h (d_group d) nms -> members_in h (d_group d) ms ->
  (forall x, In x pre -> exists i, set_no nms x i) -> ~ In nm (map fst nms) ->
  (forall dis, get_coords h d (pre ++ nm :: sets) kind dis = Err ConditionError) /\
  (forall dis, get_elements h d (pre ++ nm :: sets) kind dis = Err ConditionError) /\
  (forall nt, In nt ["external"; "internal"] -> get_elementnumbers h d (pre ++ nm :: sets) kind nt = Err ConditionError).
Proof.
  intros h d ns es nms ms pre nm sets kind Ho HM HN HS HK Hn. apply (indices_error h d ns es Ho HM); [destruct pre; reflexivity|].
  exact (unknown_set_indices h d Ho nms ms pre nm sets kind HN HS HK Hn).
Qed.
Print Assumptions C27_unknown.
(** A known set of nodes only: no selection at all, but an exception. *)
Theorem C27_no_elements : forall h d ns es nms ms sets kind,
  d_open d = true -> mesh_in h (d_group d) ns es -> sets <> [] -> setnames_in h (d_group d) nms -> members_in h (d_group d) ms ->
  (forall nm, In nm sets -> exists i, set_no nms nm i) -> ~ (exists nm i l, In nm sets /\ set_no nms nm i /\ In (i, 2, l) ms) ->
  forall nt, In nt ["external"; "internal"] -> get_elementnumbers h d sets kind nt = Err ValueError.
Proof.
  intros h d ns es nms ms sets kind Ho HM Hne HN HS HK Hn. apply (indices_error h d ns es Ho HM); [destruct sets; [congruence|reflexivity]|].
  exact (no_members_indices h d Ho nms ms sets kind Hne HN HS HK Hn).
Qed.
Print Assumptions C27_no_elements.
Example C27_case : proper x_h w_x x_es x_nms x_ms [deck; col_; deck] "" /\ selected x_es x_nms x_ms [deck; col_; deck] "" [0; 1; 2]%nat /\
  get_elementnumbers x_h x_d [deck; col_; deck] "" "internal" = Ok [1; 2; 3] /\
  get_elementnumbers x_h x_d [deck] "" "external" = Ok [101; 102] /\
  get_elementnumbers x_h x_d [deck; s2l "BOW"] "" "external" = Err ConditionError.
Proof. split; [proper_|]. split; [sel_|]. repeat split; vm_compute; reflexivity. Qed.

(** C28 *)
Theorem C28_kind : forall h d ns es nms ms sets kind idx,
  d_open d = true -> mesh_in h (d_group d) ns es -> proper h (d_group d) es nms ms sets kind ->
  selected es nms ms sets kind idx ->
  get_elementindices h d sets kind = Ok (map Z.of_nat idx) /\ get_elementnumbers h d sets kind "internal" = Ok (map no_of idx).
Proof.
  intros h d ns es nms ms sets kind idx Ho HM HP HI. split; [exact (element_indices h d ns es Ho HM nms ms sets kind HP idx HI)|].
  exact (elementnumbers_ok h d ns es Ho HM nms ms sets kind HP idx HI "internal" ltac:(cbn; tauto)).
Qed.
Print Assumptions C28_kind.
Theorem C28_unknown : forall h d ns es nms ms sets kind,
  d_open d = true -> mesh_in h (d_group d) ns es -> (sets <> [] -> proper h (d_group d) es nms ms sets "") ->
  ~ In kind [""; "beam"; "shell"] ->
  (forall dis, get_coords h d sets kind dis = Err ValueError) /\
  (forall dis, get_elements h d sets kind dis = Err ValueError) /\
  (forall nt, In nt ["external"; "internal"] -> get_elementnumbers h d sets kind nt = Err ValueError).
Proof.
  intros h d ns es nms ms sets kind Ho HM HP Hk. apply (indices_error h d ns es Ho HM).
  - destruct sets; [|reflexivity]. cbn [nosel]. destruct (String.eqb_spec kind ""); [exfalso; apply Hk; now left|reflexivity].
  - exact (unknown_kind_indices h d ns es Ho HM nms ms sets kind HP Hk).
Qed.
Print Assumptions C28_unknown.
Example C28_case : proper x_h w_x x_es x_nms x_ms [deck] "beam" /\ selected x_es x_nms x_ms [deck] "beam" [0]%nat /\
  get_elementnumbers x_h x_d [deck] "beam" "external" = Ok [101] /\ get_elementnumbers x_h x_d [] "beam" "external" = Ok [101; 103] /\
  get_elementnumbers x_h x_d [] "shell" "external" = Ok [102] /\ get_elementnumbers x_h x_d [] "solid" "external" = Err ValueError.
Proof. split; [proper_|]. split; [sel_|]. repeat split; vm_compute; reflexivity. Qed.

(** C29 *)
Theorem C29_offsets : forall h d ns es nms ms sets kind idx disconnected,
  d_open d = true -> mesh_in h (d_group d) ns es -> proper h (d_group d) es nms ms sets kind ->
  selected es nms ms sets kind idx -> idx <> [] \/ nosel sets kind = true ->
  exists con off typ, get_elements h d sets kind disconnected = Ok (con, off, typ) /\
    off = totals (map el_nodes (pick es idx)) /\ length off = length idx /\ last off 0 = Zlen con /\ typ = map el_typ (pick es idx).
Proof.
  intros h d ns es nms ms sets kind idx dis Ho HM HP HI Hne.
  exact (offsets h d ns es Ho HM nms ms sets kind HP idx HI dis Hne).
Qed.
Print Assumptions C29_offsets.
Example C29_case : proper x_h w_x x_es x_nms x_ms [deck; col_] "" /\ selected x_es x_nms x_ms [deck; col_] "" [0; 1; 2]%nat /\
  get_elements x_h x_d [deck; col_] "" true = Ok ([0; 1; 2; 3; 4; 5; 6; 7], [2; 6; 8], [15; 24; 15]) /\
  totals (map el_nodes (pick x_es [0; 1; 2]%nat)) = [2; 6; 8].
Proof. split; [proper_|]. split; [sel_|]. repeat split; vm_compute; reflexivity. Qed.

(** C30 *)
Theorem C30_nodes : forall h d ns es nms ms sets kind idx disconnected,
  d_open d = true -> mesh_in h (d_group d) ns es -> proper h (d_group d) es nms ms sets kind ->
  selected es nms ms sets kind idx -> idx <> [] \/ nosel sets kind = true ->
  exists sel, selected_nodes ns es (nosel sets kind) disconnected idx (map fst sel) /\
    get_coords h d sets kind disconnected = Ok (map (fun jn => n_xyz (snd jn)) sel) /\
    get_nodenumbers h d sets kind disconnected "external" = Ok (map (fun jn => n_ext (snd jn)) sel) /\
    get_nodenumbers h d sets kind disconnected "internal" = Ok (map (fun jn => no_of (fst jn)) sel) /\
    Forall (fun jn => nth_error ns (fst jn) = Some (snd jn)) sel.
Proof.
  intros h d ns es nms ms sets kind idx dis Ho HM HP HI Hne.
  exact (aligned_nodes h d ns es Ho HM nms ms sets kind HP idx HI dis Hne).
Qed.
Print Assumptions C30_nodes.
Theorem C30_elements : forall h d ns es nms ms sets kind idx,
  d_open d = true -> mesh_in h (d_group d) ns es -> proper h (d_group d) es nms ms sets kind ->
  selected es nms ms sets kind idx ->
  get_elementnumbers h d sets kind "external" = Ok (map el_ext (pick es idx)) /\
  get_elementnumbers h d sets kind "internal" = Ok (map no_of idx).
Proof.
  intros h d ns es nms ms sets kind idx Ho HM HP HI.
  exact (aligned_elements h d ns es Ho HM nms ms sets kind HP idx HI).
Qed.
Print Assumptions C30_elements.
Example C30_case : get_nodenumbers x_h x_d [col_] "" true "external" = Ok [20; 10; 40; 50] /\
  get_coords x_h x_d [col_] "" true = Ok [[fz 1; fz 0; fz 0]; [fz 0; fz 0; fz 0]; [fz 0; fz 1; fz 0]; [fz 0; fz 1; fz 7]] /\
  get_nodenumbers x_h x_d [col_] "" false "internal" = Ok [1; 2; 4; 5] /\ get_elementnumbers x_h x_d [col_] "" "external" = Ok [101; 103].
Proof. repeat split; vm_compute; reflexivity. Qed.

(** C31.  Every node used by an element, or a selection given: otherwise see
    C31_refuted. *)
Theorem C31_node_results_partial : forall h d ns es nms ms sets kind idx rs run cs arg sel restype rn cn bs f disconnected,
  d_open d = true -> mesh_in h (d_group d) ns es -> proper h (d_group d) es nms ms sets kind ->
  selected es nms ms sets kind idx -> idx <> [] \/ nosel sets kind = true -> ns <> [] -> (disconnected = true -> idx <> []) ->
  (nosel sets kind = true -> forall j, (j < length ns)%nat -> In (no_of j) (flat_map el_nodes (pick es idx))) ->
  refs_in h (d_group d) rs -> cases_arg cs arg -> asked_refs run cs rs sel -> sel <> [] ->
  In (restype, rn, cn) [("displacement", "RVNODDIS", "dis"); ("velocity", "RVNODVEL", "vel"); ("acceleration", "RVNODACC", "acc")] ->
  noderes_in h (d_group d) rn (length ns) bs ->
  filter (fun i => zmem i (map rf_ires sel)) (map fst bs) = map rf_ires sel -> NoDup (map rf_ires sel) ->
  (forall r, In r sel -> rf_complex r = f) ->
  (forall b, In b bs -> In (fst b) (map rf_ires sel) -> Forall (fun v => exists w, shown f v w) (snd b)) ->
  exists nd out,
    selected_nodes ns es (nosel sets kind) disconnected idx nd /\
    get_noderesults h d restype run arg sets kind disconnected = Ok (shaped out) /\
    Forall2 (fun r a => Forall2 (fun j w => exists v, value_at bs (rf_ires r) j v /\ shown (rf_complex r) v w) nd a) sel out.
Proof. exact noderesults_stated. Qed.
Print Assumptions C31_node_results_partial.
Theorem C31_mixed : forall h d rs run cs arg sel restype rn cn rows arr r r' sets kind disconnected,
  d_open d = true -> refs_in h (d_group d) rs -> cases_arg cs arg -> asked_refs run cs rs sel ->
  In (restype, rn, cn) [("displacement", "RVNODDIS", "dis"); ("velocity", "RVNODVEL", "vel"); ("acceleration", "RVNODACC", "acc")] ->
  holds h (d_group d) rn (mkC rows [arr]) ->
  In r sel -> In r' sel -> rf_complex r <> rf_complex r' ->
  get_noderesults h d restype run arg sets kind disconnected = Err ResultError.
Proof. exact mixed_stated. Qed.
Print Assumptions C31_mixed.
(** Three nodes, an element between the last two: the results returned with
    disconnected=True are those of the first two nodes, the coordinates those of
    the last two. *)
Theorem C31_refuted : mesh_in u_h w_x u_ns u_es /\ refs_in u_h w_x u_refs /\ noderes_in u_h w_x "RVNODDIS" 3 u_blocks /\
  get_coords u_h x_d [] "" true = Ok [[fz 1; fz 0; fz 0]; [fz 1; fz 1; fz 0]] /\
  get_noderesults u_h x_d "displacement" 1 AllCases [] "" true = Ok (One [x_val 10; x_val 20]) /\
  value_at u_blocks 1 0 (x_val 10) /\ value_at u_blocks 1 1 (x_val 20) /\ value_at u_blocks 1 2 (x_val 30).
Proof.
  split; [exact u_mesh|]. split; [exact u_has_refs|]. split; [exact u_results|]. split; [vm_compute; reflexivity|]. split; [vm_compute; reflexivity|].
  repeat split; eexists; (split; [left; reflexivity|reflexivity]).
Qed.
Print Assumptions C31_refuted.
Example C31_case : get_noderesults x_h x_d "displacement" 1 (SomeCases [6; 5]) [col_] "" true
    = Ok (Many [[x_val 20; x_val 10; x_val 40; x_val 50]; [x_val 120; x_val 110; x_val 140; x_val 150]]) /\
  get_noderesults x_h x_d "displacement" 1 (OneCase 6) [col_] "" false = Ok (One [x_val 110; x_val 120; x_val 140; x_val 150]) /\
  (exists w, shown 2 (x_val2 210) w /\ get_noderesults x_h x_d "displacement" 1 (OneCase 7) [col_] "beam" true =
     Ok (One [showing_c (x_val2 230); w; showing_c (x_val2 270); showing_c (x_val2 290)])) /\
  get_noderesults x_h x_d "displacement" 1 AllCases [] "" false = Err ResultError.
Proof.
  split; [vm_compute; reflexivity|]. split; [vm_compute; reflexivity|]. split; [|vm_compute; reflexivity].
  eexists. split; [split; [|cbn; exists (map (fun i => (f_of_Z (210 + 2 * i), f_of_Z (211 + 2 * i))) [0; 1; 2; 3; 4; 5]); split; reflexivity]; reflexivity|].
  vm_compute. reflexivity.
Qed.
Example C31_case_hyps : exists nd out,
  selected_nodes x_ns x_es false true [0; 2]%nat nd /\ get_noderesults x_h x_d "displacement" 1 (SomeCases [6; 5]) [col_] "" true = Ok (shaped out) /\
  Forall2 (fun r a => Forall2 (fun j w => exists v, value_at x_blocks (rf_ires r) j v /\ shown (rf_complex r) v w) nd a) [mkRef 1 1 5 0; mkRef 3 1 6 0] out.
Proof.
  apply (C31_node_results_partial x_h x_d x_ns x_es x_nms x_ms [col_] "" [0; 2]%nat x_refs 1 (Some [6; 5]) (SomeCases [6; 5]) [mkRef 1 1 5 0; mkRef 3 1 6 0] "displacement" "RVNODDIS" "dis" x_blocks 0 true);
    try discriminate; try reflexivity.
  - exact x_mesh.
  - proper_.
  - sel_.
  - left. discriminate.
  - exact x_has_refs.
  - now left.
  - unfold x_refs. repeat (first [apply sub_nil | apply sub_in; [split; [reflexivity|cbn; tauto]|] | apply sub_out; [intros [H1 H2]; vm_compute in H1, H2; intuition congruence|]]).
  - now left.
  - exact x_results.
  - repeat constructor; cbn; intuition lia.
  - intros r [<-|[<-|[]]]; reflexivity.
  - intros b [<-|[<-|[<-|[]]]] H; vm_compute in H; try (intuition lia); cbn [snd map]; repeat (apply Forall_cons; [match goal with |- exists w, shown 0 ?v w => exists v end; split; reflexivity|]); apply Forall_nil.
Qed.

(** C32.  [dot] and [rowdot] are products of matrices and of a row with a
    matrix, in any arithmetic. *)
Theorem C32_product : forall (A : Type) (zero one : A) add mul num h d ss ts top s lev lv m ms,
  d_open d = true -> hier_in h (d_group d) ss -> trans_in h (d_group d) ts -> hierarchy ss ts top ->
  In s ss -> (lv = Top /\ lev = s_level top \/ lv = Level lev /\ 1 < lev <= s_level top) ->
  up num ss ts lev s (m :: ms) ->
  get_transformation zero one add mul num h d (s_type s) (s_index s) lv = Ok (fold_left (dot zero add mul) ms m).
Proof.
  intros A zero one add mul num h d ss ts top s lev lv m ms Ho HH HT HR Hs Hl Hup.
  apply (transformation_ok zero one (dot zero add mul) num h d ss ts Ho HH HT (hier_rising ss ts top HR) top) with (s := s).
  - apply HR.
  - destruct Hl as [[-> _]|[-> Hl]]; [exact I|exact Hl].
  - exact (the_super ss ts top HR s Hs).
  - destruct Hl as [[-> ->]|[-> _]]; exact Hup.
Qed.
Print Assumptions C32_product.
(** What [dot] and [rowdot] are: entry by entry, and in exact arithmetic steps
    one after the other. *)
Theorem C32_steps : forall (A : Type) (zero one : A) add mul sub opp, ring_theory zero one add mul sub opp eq ->
  forall m ms p, length p = 3%nat -> Forall (affine zero one) (m :: ms) ->
  firstn 3 (rowdot zero add mul (p ++ [one]) (fold_left (dot zero add mul) ms m)) = fold_left (move add mul) (m :: ms) p.
Proof. exact @step_by_step. Qed.
Print Assumptions C32_steps.
(** Every superelement below the top has its matrices up to the top; up to a
    level between, it has them or the level is passed, and that raises. *)
Theorem C32_to_top : forall (A : Type) (num : cell -> A) ss ts top, hierarchy ss ts top ->
  forall s, In s ss -> s <> top -> exists m ms, up num ss ts (s_level top) s (m :: ms).
Proof. intros A num ss ts top HR s Hs Hn. apply (to_top num ss ts top HR s Hs). apply HR; assumption. Qed.
Print Assumptions C32_to_top.
Theorem C32_between : forall (A : Type) (zero one : A) add mul num h d ss ts top s lev,
  d_open d = true -> hier_in h (d_group d) ss -> trans_in h (d_group d) ts -> hierarchy ss ts top ->
  In s ss -> s <> top -> 1 < lev <= s_level top ->
  (exists m ms, up num ss ts lev s (m :: ms) /\
     get_transformation zero one add mul num h d (s_type s) (s_index s) (Level lev) = Ok (fold_left (dot zero add mul) ms m)) \/
  (passes ss lev s /\ get_transformation zero one add mul num h d (s_type s) (s_index s) (Level lev) = Err HierarchyError).
Proof.
  intros A zero one add mul num h d ss ts top s lev Ho HH HT HR Hs Hn Hl.
  assert (Hp : s_parent s <> 0) by (apply HR; assumption).
  destruct (up_or_passes num ss ts top HR lev s Hs Hp ltac:(lia)) as [(m & ms & H)|H].
  - left. exists m, ms. split; [exact H|]. apply (C32_product A zero one add mul num h d ss ts top s lev (Level lev) m ms Ho HH HT HR Hs); [now right|exact H].
  - right. split; [exact H|]. apply (transformation_passes zero one (dot zero add mul) num h d ss ts Ho HH HT (hier_rising ss ts top HR) top) with (s := s).
    + apply HR.
    + exact Hl.
    + exact (the_super ss ts top HR s Hs).
    + exact (has_trans num ss ts top HR).
    + exact Hp.
    + exact H.
Qed.
Print Assumptions C32_between.
Theorem C32_level1 : forall (A : Type) (zero one : A) add mul num h d ss ts top seltyp index,
  d_open d = true -> hier_in h (d_group d) ss -> trans_in h (d_group d) ts -> hd_error ss = Some top ->
  get_transformation zero one add mul num h d seltyp index (Level 1) =
    Ok [[one; zero; zero; zero]; [zero; one; zero; zero]; [zero; zero; one; zero]; [zero; zero; zero; one]].
Proof. intros A zero one add mul num h d ss ts top st i Ho HH HT Ht. exact (transformation_level1 zero one (dot zero add mul) num h d ss ts Ho HH HT top Ht st i). Qed.
Print Assumptions C32_level1.
Theorem C32_outside : forall (A : Type) (zero one : A) add mul num h d ss ts top seltyp index z,
  d_open d = true -> hier_in h (d_group d) ss -> trans_in h (d_group d) ts -> hd_error ss = Some top ->
  z < 1 \/ 1 < z /\ s_level top < z ->
  get_transformation zero one add mul num h d seltyp index (Level z) = Err HierarchyError.
Proof. intros A zero one add mul num h d ss ts top st i z Ho HH HT Ht. exact (transformation_outside zero one (dot zero add mul) num h d ss ts Ho HH HT top Ht st i z). Qed.
Print Assumptions C32_outside.
Notation zget h d t i lv := (get_transformation 0 1 Z.add Z.mul zn h d t i lv).
Example C32_case : hierarchy y_ss y_ts y_top /\ hier_in y_h w_y y_ss /\ trans_in y_h w_y y_ts /\
  up zn y_ss y_ts 3 y_low [map (map zn) y_m2; map (map zn) y_m1] /\ passes y_ss 2 y_low2 /\
  zget y_h y_d 1 1 Top = Ok [[0; 1; 0; 0]; [1; 0; 0; 0]; [0; 0; 1; 0]; [5; 0; 2; 1]] /\
  zget y_h y_d 1 1 (Level 2) = Ok (map (map zn) y_m2) /\ zget y_h y_d 1 2 Top = Ok (map (map zn) y_m3) /\
  zget y_h y_d 1 2 (Level 2) = Err HierarchyError /\ zget y_h y_d 1 1 (Level 4) = Err HierarchyError.
Proof.
  split; [exact y_hierarchy|]. split; [exact y_hier|]. split; [exact y_trans|].
  assert (Un : forall s p, In p y_ss -> s_ref p = s_parent s -> parent y_ss s p).
  { intros s p Hp E. split; [exact Hp|]. split; [exact E|]. intros q Hq Eq.
    repeat (destruct Hp as [<-|Hp]; [repeat (destruct Hq as [<-|Hq]; [cbn in *; congruence|]); destruct Hq|]); destruct Hp. }
  split; [|split].
  - eapply (up_next zn y_ss y_ts 3 y_low y_mid).
    + exists (2, y_m2). split; [|reflexivity]. split; [cbn; tauto|]. split; [reflexivity|]. intros y [<-|[<-|[<-|[]]]]; cbn; congruence.
    + apply Un; [cbn; tauto|reflexivity].
    + reflexivity.
    + discriminate.
    + eapply (up_last zn y_ss y_ts 3 y_mid y_top).
      * exists (1, y_m1). split; [|reflexivity]. split; [cbn; tauto|]. split; [reflexivity|]. intros y [<-|[<-|[<-|[]]]]; cbn; congruence.
      * apply Un; [cbn; tauto|reflexivity].
      * reflexivity.
  - apply (pass_here y_ss 2 y_low2 y_top); [apply Un; [cbn; tauto|reflexivity]|reflexivity].
  - repeat split; vm_compute; reflexivity.
Qed.
Example C32_steps_case : Forall (affine 0 1) [map (map zn) y_m2; map (map zn) y_m1] /\
  fold_left (move Z.add Z.mul) [map (map zn) y_m2; map (map zn) y_m1] [1; 2; 3] = [7; 1; 5] /\
  firstn 3 (rowdot 0 Z.add Z.mul [1; 2; 3; 1] [[0; 1; 0; 0]; [1; 0; 0; 0]; [0; 0; 1; 0]; [5; 0; 2; 1]]) = [7; 1; 5].
Proof. split; [repeat constructor; do 12 eexists; vm_compute; reflexivity|]. split; vm_compute; reflexivity. Qed.
(** A superelement that is its own parent: the chain never ends. *)
Example C32_chain_needed :
  zget (h5_upd (tpath w_y "HIERARCH") (fun _ => Table (descr_of "HIERARCH") [srow 10 1 3 1 3 0 0 2 0 2; srow 8 3 1 1 1 2 3 0 3 3]) y_h) y_d 1 1 Top = Err OutOfFuel.
Proof. vm_compute. reflexivity. Qed.

(** C33.  A data object that knew its top level object would use the
    hierarchy... *)
Theorem C33_if_known_partial : forall (A : Type) (zero one : A) add mul sub opp num, ring_theory zero one add mul sub opp eq ->
  forall h d tops p sets kind disconnected ss ts top s lev lv m ms pts,
  get_coords h d sets kind disconnected = Ok pts -> Forall (fun q => length q = 3%nat) pts ->
  d_filetype d <> "R" -> d_seltyp d = Some (s_type s) -> d_top d = Some p -> d_open (tops p) = true ->
  hier_in h (d_group (tops p)) ss -> trans_in h (d_group (tops p)) ts -> hierarchy ss ts top -> In s ss ->
  (lv = TText "top" /\ lev = s_level top \/ lv = TInt lev /\ 1 < lev <= s_level top) ->
  up num ss ts lev s (m :: ms) -> Forall (affine zero one) (m :: ms) ->
  get_nodes zero one add mul num h d tops sets kind disconnected (Some lv) (s_index s) =
    Ok (map (fun q => fold_left (move add mul) (m :: ms) (map num q)) pts).
Proof.
  intros A zero one add mul sub opp num Rth h d tops p sets kind dis ss ts top s lev lv m ms pts Hc H3 Hf Hst Ht Ho HH HT HR Hs Hl Hup Ha.
  set (t := match lv with TInt z => Level z | _ => Top end).
  assert (E : get_transformation zero one add mul num h (tops p) (s_type s) (s_index s) t = Ok (fold_left (dot zero add mul) ms m)).
  { apply (C32_product A zero one add mul num h (tops p) ss ts top s lev t m ms Ho HH HT HR Hs); [|exact Hup].
    destruct Hl as [[-> ->]|[-> Hl]]; [now left|now right]. }
  pose proof (nodes_moved zero one add mul num h d tops sets kind dis (s_index s) (s_type s) p t pts _ Hc Hf Hst Ht E) as K.
  assert (El : match t with Top => TText "top" | Level z => TInt z end = lv) by (destruct Hl as [[-> _]|[-> _]]; reflexivity).
  rewrite El in K. rewrite K. f_equal. apply map_ext_in. intros q Hq. rewrite Forall_forall in H3.
  apply (step_by_step zero one add mul sub opp Rth m ms (map num q)); [rewrite map_length; exact (H3 q Hq)|exact Ha].
Qed.
Print Assumptions C33_if_known_partial.
(** ...but no data object of any file does, so a level always raises, and 'top'
    unless the superelement's own file has a transformation. *)
Theorem C33_refuted : forall (A : Type) (zero one : A) add mul num h es tops e t sets kind disconnected index pts,
  file_data h = Ok es -> In e es -> get_coords h (obj_of e) sets kind disconnected = Ok pts ->
  (exists z, t = TInt z) \/ (t = TText "top" /\ ~ In "RSUPTRAN" (d_names (obj_of e))) ->
  get_nodes zero one add mul num h (obj_of e) tops sets kind disconnected (Some t) index = Err HierarchyError.
Proof.
  intros A zero one add mul num h es tops e t sets kind dis index pts HF He Hc Ht.
  pose proof (file_no_top h es HF) as N. rewrite Forall_forall in N. destruct (N e He) as [Hn _].
  apply (nodes_no_top zero one add mul num h (obj_of e) tops sets kind dis index t pts Hc Hn).
  destruct Ht as [[z ->]|[-> H]]; [exact I|right]. unfold has_record_name. destruct (str_in "RSUPTRAN" (d_names (obj_of e))) eqn:K; [|reflexivity]. apply existsb_exists in K as (y & K1 & K2). apply String.eqb_eq in K2. subst y. now elim H.
Qed.
Print Assumptions C33_refuted.
Definition y_known : sdata := mkSD w_y1 (d_names y_d1) (Some 1) "FIRSTLEVEL" "T" "STRUCTURAL" None (OData w_y) (Some w_y) true.
Example C33_case : (exists es, file_data y_h = Ok es /\ get_data "T3/T1" es = Ok (KFirst, y_d1)) /\
  get_nodes 0 1 Z.add Z.mul zn y_h y_d1 (fun _ => y_d) [] "" false (Some (TText "top")) 1 = Err HierarchyError /\
  get_nodes 0 1 Z.add Z.mul zn y_h y_known (fun _ => y_d) [] "" false (Some (TText "top")) 1 = Ok [[5; 0; 2]; [7; 1; 5]] /\
  get_nodes 0 1 Z.add Z.mul zn y_h y_known (fun _ => y_d) [] "" false (Some (TInt 2)) 1 = Ok [[0; 0; 2]; [2; 1; 5]].
Proof. split; [eexists; split; vm_compute; reflexivity|]. repeat split; vm_compute; reflexivity. Qed.

(** C34 *)
Theorem C34_sections : forall h d ns es nms ms sets gs ps idx vs,
  d_open d = true -> mesh_in h (d_group d) ns es -> geo_in h (d_group d) gs -> length gs = length es ->
  proper h (d_group d) es nms ms sets "beam" -> selected es nms ms sets "beam" idx ->
  sections_in h (d_group d) ps -> Forall2 (of_number ps) (pick gs idx) vs ->
  exists out, get_section_properties h d sets = Ok out /\
    Forall2 (fun g_v r => r = CI (fst g_v) :: snd g_v) (combine (pick gs idx) vs) out.
Proof. intros h d ns es nms ms sets gs ps idx vs Ho HM HG HL. exact (sections_ok h d ns es Ho HM nms ms sets gs HG HL ps idx vs). Qed.
Print Assumptions C34_sections.
Theorem C34_thicknesses : forall h d ns es nms ms sets gs ps idx vs,
  d_open d = true -> mesh_in h (d_group d) ns es -> geo_in h (d_group d) gs -> length gs = length es ->
  proper h (d_group d) es nms ms sets "shell" -> selected es nms ms sets "shell" idx ->
  thicknesses_in h (d_group d) ps -> Forall2 (of_number ps) (pick gs idx) vs ->
  get_shell_thicknesses h d sets = Ok vs.
Proof. intros h d ns es nms ms sets gs ps idx vs Ho HM HG HL. exact (thicknesses_ok h d ns es Ho HM nms ms sets gs HG HL ps idx vs). Qed.
Print Assumptions C34_thicknesses.
Theorem C34_missing : forall h d ns es nms ms sets gs ps idx g,
  d_open d = true -> mesh_in h (d_group d) ns es -> geo_in h (d_group d) gs -> length gs = length es ->
  proper h (d_group d) es nms ms sets "shell" -> selected es nms ms sets "shell" idx ->
  thicknesses_in h (d_group d) ps -> In g (pick gs idx) -> ~ In g (map fst ps) ->
  get_shell_thicknesses h d sets = Err KeyError.
Proof. intros h d ns es nms ms sets gs ps idx g Ho HM HG HL. exact (thickness_missing h d ns es Ho HM nms ms sets gs HG HL ps idx g). Qed.
Print Assumptions C34_missing.
Example C34_case : geo_in x_h w_x x_geo /\ sections_in x_h w_x x_sec /\ thicknesses_in x_h w_x x_th /\
  proper x_h w_x x_es x_nms x_ms [col_] "beam" /\ selected x_es x_nms x_ms [col_] "beam" [0; 2]%nat /\
  (exists vs, Forall2 (of_number x_sec) (pick x_geo [0; 2]%nat) vs /\ get_section_properties x_h x_d [col_] = Ok (map (fun p => CI (fst p) :: snd p) (combine [1; 2] vs))) /\
  get_shell_thicknesses x_h x_d [] = Ok [fz 12].
Proof.
  split; [exact x_geos|]. split; [exact x_sections|]. split; [exact x_thick|]. split; [proper_|]. split; [sel_|]. split; [|vm_compute; reflexivity].
  eexists. split.
  - apply Forall2_cons; [exists [], [nth 1 x_sec (0, [])]; split; [reflexivity|cbn; intuition lia]|].
    apply Forall2_cons; [exists [nth 0 x_sec (0, [])], []; split; [reflexivity|cbn; tauto]|constructor].
  - vm_compute. reflexivity.
Qed.

(** C49 *)
Theorem C49_indices : forall (els : list (Z * list Z)) (pairs : list (Z * Z)),
  NoDup (map fst els) -> Forall (fun p => exists nds, In (fst p, nds) els /\ In (snd p) nds) pairs ->
  exists out, find_elemres_indices pairs (totals (map snd els)) (map fst els) (flat_map snd els) = Ok out /\
    Forall2 (fun p i => entry_of els (fst p) (snd p) i) pairs out.
Proof. exact elemres_indices. Qed.
Print Assumptions C49_indices.
Example C49_case : find_elemres_indices [(102, 3); (101, 1); (103, 4)] (totals [[2; 1]; [1; 2; 3; 4]; [4; 5]]) [101; 102; 103] [2; 1; 1; 2; 3; 4; 4; 5] = Ok [4; 1; 6].
Proof. vm_compute. reflexivity. Qed.

(** C52 *)
Theorem C52_references : forall h d rs run cs arg sel,
  d_open d = true -> refs_in h (d_group d) rs -> cases_arg cs arg -> asked_refs run cs rs sel ->
  exists rows all, get_resrefs h d run arg = Ok (ref_tab all, rows) /\ Forall2 ref_row sel rows.
Proof. intros h d rs run cs arg sel Ho HR. exact (resrefs_ok h d rs Ho HR run cs arg sel). Qed.
Print Assumptions C52_references.
Theorem C52_names : forall h d ls cs arg sel,
  d_open d = true -> loads_in h (d_group d) ls -> cases_arg cs arg ->
  subseq (fun l => match cs with Some c => In (fst l) c | None => True end) ls sel ->
  get_resultcase_names h d arg = Ok (map (fun l => (fst l, CS (snd l))) sel).
Proof. exact names_ok. Qed.
Print Assumptions C52_names.
Example C52_case : refs_in x_h w_x x_refs /\ asked_refs 1 (Some [6; 5; 6]) x_refs [mkRef 1 1 5 0; mkRef 3 1 6 0] /\
  loads_in x_h w_x x_loads /\
  (exists all, get_resrefs x_h x_d 1 (SomeCases [6; 5; 6]) = Ok (ref_tab all,
     [[CI 7; CI 1; CI 1; CI 5; CI 0; CI 0; CI 0; CI 0; CI 0]; [CI 7; CI 3; CI 1; CI 6; CI 0; CI 0; CI 0; CI 0; CI 0]])) /\
  get_resultcase_names x_h x_d (OneCase 6) = Ok [(6, CS (s2l "LIVE"))].
Proof.
  split; [exact x_has_refs|]. split; [|split; [exact x_has_loads|split; [eexists; vm_compute; reflexivity|vm_compute; reflexivity]]].
  unfold x_refs. repeat (first [apply sub_nil | apply sub_in; [split; [reflexivity|cbn; tauto]|] | apply sub_out; [intros [H1 H2]; vm_compute in H1, H2; intuition congruence|]]).
Qed.
