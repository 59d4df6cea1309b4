(** * StrucMore: the remaining lemmas on selections and the witnesses. *)
From Coq Require Import Sorted.
From Verif Require Import Base Flt H5 Schema StoreSpec ParserSpec Data Struc StrucSpec DataFacts StrucProofs StrucGet StrucRes StrucExist StrucSample.
Open Scope string_scope.
Open Scope Z_scope.
Open Scope list_scope.
Open Scope monad_scope.

Section More.
  Variables (h : h5) (d : sdata) (ns : list mnode) (es : list melem).
  Hypothesis Ho : d_open d = true.
  Hypothesis HM : mesh_in h (d_group d) ns es.
  Variables (nms : list setname) (ms : list memrec).

  Lemma unknown_kind_indices sets kind : (sets <> [] -> proper h (d_group d) es nms ms sets "") ->
    ~ In kind [""; "beam"; "shell"] -> get_elementindices h d sets kind = Err ValueError.
  Proof.
    intros HP Hk. assert (Hk' : ~ In kind ["beam"; "shell"]) by (intro; apply Hk; now right).
    assert (some_kind kind = true) as EK. { unfold some_kind. destruct (String.eqb_spec kind ""); [exfalso; apply Hk; now left|reflexivity]. }
    unfold get_elementindices. rewrite EK. destruct sets as [|s sets]; cbn [some_sets].
    - apply (kind_unknown h d ns es Ho HM kind None Hk'). discriminate.
    - pose proof (element_indices h d ns es Ho HM nms ms (s :: sets) "" (HP ltac:(discriminate)) _ (selection_spec es nms ms (s :: sets) "")) as E.
      unfold get_elementindices in E. cbn [some_sets some_kind String.eqb negb] in E.
      destruct (get_setmember_indices h d (s :: sets) 2) as [idx|]; [|discriminate]. cbn [rbind] in *. injection E as ->.
      apply (kind_unknown h d ns es Ho HM kind _ Hk'). intros idx E. injection E as <-. rewrite Forall_map. apply Forall_forall. intros j Hj.
      unfold selection in Hj. apply filter_In in Hj. destruct Hj as [Hj _]. apply in_seq in Hj. unfold Zlen. lia.
  Qed.
  Lemma indices_error sets kind e : nosel sets kind = false -> get_elementindices h d sets kind = Err e ->
    (forall dis, get_coords h d sets kind dis = Err e) /\ (forall dis, get_elements h d sets kind dis = Err e) /\
    (forall nt, In nt ["external"; "internal"] -> get_elementnumbers h d sets kind nt = Err e).
  Proof.
    intros EN HE. assert (ES : some_sets sets || some_kind kind = true).
    { unfold nosel, some_sets, some_kind in *. destruct sets; [now rewrite EN|reflexivity]. }
    destruct (coord_record h d ns es Ho HM) as (crows & HC & HCL & _). destruct (elem_record h d ns es Ho HM) as (rows & HR & HL & HRow).
    split; [|split].
    - intro dis. unfold get_coords, get_nodeindices. rewrite HC. cbn [rbind]. rewrite HR. cbn [rbind]. rewrite ES, HE. reflexivity.
    - intro dis. unfold get_elements. rewrite HR. cbn [rbind]. rewrite ES, HE. reflexivity.
    - intros nt Hn. unfold get_elementnumbers. rewrite HR. cbn [rbind]. rewrite ES, HE.
      destruct Hn as [<-|[<-|[]]]; reflexivity.
  Qed.
  Lemma unknown_set_indices pre nm sets kind : setnames_in h (d_group d) nms -> members_in h (d_group d) ms ->
    (forall x, In x pre -> exists i, set_no nms x i) -> ~ In nm (map fst nms) ->
    get_elementindices h d (pre ++ nm :: sets) kind = Err ConditionError.
  Proof.
    intros HN HS HK Hn. unfold get_elementindices. assert (some_sets (pre ++ nm :: sets) = true) as -> by (destruct pre; reflexivity).
    now rewrite (set_unknown h d Ho nms ms HN HS pre nm sets HK Hn).
  Qed.
  Lemma no_members_indices sets kind : sets <> [] -> setnames_in h (d_group d) nms -> members_in h (d_group d) ms ->
    (forall nm, In nm sets -> exists i, set_no nms nm i) -> ~ (exists nm i l, In nm sets /\ set_no nms nm i /\ In (i, 2, l) ms) ->
    get_elementindices h d sets kind = Err ValueError.
  Proof.
    intros Hne HN HS HK Hn. unfold get_elementindices. destruct sets; [congruence|]. cbn [some_sets].
    now rewrite (set_none h d Ho nms ms HN HS _ HK Hn).
  Qed.
End More.

(** ** Witnesses *)
(** A node without element: three nodes, one beam between the last two. *)
Definition u_ns : list mnode := [mkNode 10 [fz 0; fz 0; fz 0]; mkNode 20 [fz 1; fz 0; fz 0]; mkNode 30 [fz 1; fz 1; fz 0]].
Definition u_es : list melem := [mkElem 101 15 [2; 3]].
Definition u_refs : list ref := [mkRef 1 1 5 0].
Definition u_blocks : list block := [(1, map x_val [10; 20; 30])].
Definition u_h : h5 := [
  tab w_x "GNODE" [[CI 10; CI 1; CI 6; CI 123456]; [CI 20; CI 2; CI 6; CI 123456]; [CI 30; CI 3; CI 6; CI 123456]];
  tab w_x "GCOORD" [[CI 1; fz 0; fz 0; fz 0]; [CI 2; fz 1; fz 0; fz 0]; [CI 3; fz 1; fz 1; fz 0]];
  tab w_x "GELMNT1" [[CI 101; CI 1; CI 15; CI 0; CI 0; CI 2]];
  arr1 w_x "GELMNT1" (map CI [2; 3]);
  tab w_x "RDRESREF" [[CI 7; CI 1; CI 1; CI 5; CI 0; CI 0; CI 0; CI 0; CI 0]];
  arr1 w_x "RDRESREF" [];
  tab w_x "RVNODDIS" [[CI 11; CI 1; CI 1; CI 1; CI 0; CI 0; CI 6]; [CI 11; CI 1; CI 2; CI 1; CI 0; CI 6; CI 12]; [CI 11; CI 1; CI 3; CI 1; CI 0; CI 12; CI 18]];
  arr1 w_x "RVNODDIS" (concat (map x_val [10; 20; 30]))].
Lemma u_mesh : mesh_in u_h w_x u_ns u_es.
Proof.
  split; [|split; [|split]].
  - eexists. split; [holds_|]. split; [reflexivity|]. apply nth_cases. repeat split; do 2 eexists; reflexivity.
  - eexists. split; [holds_|]. split; [reflexivity|]. apply nth_cases. repeat split.
  - eexists. split; [holds_|]. split; [reflexivity|]. apply nth_cases. repeat split; eexists; reflexivity.
  - repeat constructor; cbn; try discriminate; lia.
Qed.
Lemma u_has_refs : refs_in u_h w_x u_refs.
Proof. do 2 eexists. split; [holds_|]. repeat constructor; do 5 eexists; reflexivity. Qed.
Lemma u_results : noderes_in u_h w_x "RVNODDIS" 3 u_blocks.
Proof.
  do 2 eexists. split; [holds_|]. split; [repeat constructor|]. unfold flat. cbn [u_blocks flat_map map app combine seq length fst snd].
  repeat constructor; do 5 eexists; (split; [reflexivity|]); (split; [vm_compute; split; discriminate|split; [vm_compute; discriminate|reflexivity]]).
Qed.
(** Coordinates out of sequence: node 2 comes first. *)
Definition o_h : h5 := [
  tab w_x "GNODE" [[CI 10; CI 1; CI 6; CI 123456]; [CI 20; CI 2; CI 6; CI 123456]];
  tab w_x "GCOORD" [[CI 2; fz 1; fz 0; fz 0]; [CI 1; fz 0; fz 0; fz 0]];
  tab w_x "GELMNT1" [[CI 101; CI 1; CI 15; CI 0; CI 0; CI 2]];
  arr1 w_x "GELMNT1" (map CI [1; 2])].

(** ** Statements in the form used in Props_Struc *)
Section Stated.
  Variables (h : h5) (d : sdata) (ns : list mnode) (es : list melem).
  Hypothesis Ho : d_open d = true.
  Hypothesis HM : mesh_in h (d_group d) ns es.
  Variables (nms : list setname) (ms : list memrec) (sets : list (list ascii)) (kind : string).
  Hypothesis HP : proper h (d_group d) es nms ms sets kind.
  Variable idx : list nat.
  Hypothesis HI : selected es nms ms sets kind idx.

  Lemma idx_lt j : In j idx -> (j < length es)%nat.
  Proof. intro Hj. apply HI in Hj. destruct Hj as (e & He & _). apply nth_error_Some. congruence. Qed.
  Lemma pick_length : length (pick es idx) = length idx.
  Proof. rewrite (pick_map es dfl idx idx_lt). apply map_length. Qed.
  Lemma totals_last ls : last (totals ls) 0 = Zlen (concat ls).
  Proof.
    destruct ls as [|l ls _] using rev_ind; [reflexivity|]. unfold totals. rewrite app_length. cbn [length]. rewrite Nat.add_1_r, seq_S, map_app. cbn [map].
    rewrite last_last. f_equal. f_equal. rewrite Nat.add_0_l. apply firstn_all2. rewrite app_length. cbn. lia.
  Qed.
  Lemma offsets dis : idx <> [] \/ nosel sets kind = true ->
    exists con off typ, get_elements h d sets kind dis = Ok (con, off, typ) /\
      off = totals (map el_nodes (pick es idx)) /\ length off = length idx /\ last off 0 = Zlen con /\ typ = map el_typ (pick es idx).
  Proof.
    intro Hne. destruct (fit h d ns es Ho HM nms ms sets kind HP idx HI dis Hne) as (pts & nidx & cons & _ & _ & _ & H & HF).
    do 3 eexists. split; [exact H|]. split; [reflexivity|]. split; [rewrite totals_length, map_length; apply pick_length|]. split; [|reflexivity].
    rewrite totals_last. unfold Zlen. f_equal. clear H. induction HF as [|e c l l' K HF IH]; [reflexivity|]. cbn [map concat]. rewrite !app_length, IH. f_equal.
    clear - K. unfold fits_nodes in K. induction K; [reflexivity|]. cbn. now rewrite IHK.
  Qed.
  Lemma aligned_nodes dis : idx <> [] \/ nosel sets kind = true ->
    exists sel, selected_nodes ns es (nosel sets kind) dis idx (map fst sel) /\
      get_coords h d sets kind dis = Ok (map (fun jn => n_xyz (snd jn)) sel) /\
      get_nodenumbers h d sets kind dis "external" = Ok (map (fun jn => n_ext (snd jn)) sel) /\
      get_nodenumbers h d sets kind dis "internal" = Ok (map (fun jn => no_of (fst jn)) sel) /\
      Forall (fun jn => nth_error ns (fst jn) = Some (snd jn)) sel.
  Proof.
    intro Hne. exists (map (fun j => (j, nth j ns dfn)) (node_nats ns es sets kind idx dis)). rewrite !map_map. cbn [fst snd].
    split; [|split; [|split; [|split]]].
    - rewrite map_id. exact (node_nats_selected h d ns es Ho HM nms ms sets kind idx HI dis).
    - exact (nodes_ok h d ns es Ho HM nms ms sets kind HP idx HI dis Hne).
    - exact (nodenumbers_ok h d ns es Ho HM nms ms sets kind HP idx HI dis "external" Hne (or_introl eq_refl)).
    - exact (nodenumbers_ok h d ns es Ho HM nms ms sets kind HP idx HI dis "internal" Hne (or_intror (or_introl eq_refl))).
    - rewrite Forall_map. apply Forall_forall. intros j Hj. cbn [fst snd]. apply nth_error_nth_d.
      exact (node_nats_range h d ns es Ho HM nms ms sets kind idx HI dis j Hj).
  Qed.
  Lemma aligned_elements : get_elementnumbers h d sets kind "external" = Ok (map el_ext (pick es idx)) /\
    get_elementnumbers h d sets kind "internal" = Ok (map no_of idx).
  Proof.
    split; [|exact (elementnumbers_ok h d ns es Ho HM nms ms sets kind HP idx HI "internal" (or_intror (or_introl eq_refl)))].
    rewrite (elementnumbers_ok h d ns es Ho HM nms ms sets kind HP idx HI "external" (or_introl eq_refl)).
    rewrite (pick_map es dfl idx idx_lt), map_map. reflexivity.
  Qed.
End Stated.
Lemma noderesults_stated : forall h d ns es nms ms sets kind idx rs run cs arg sel restype rn cn bs f disconnected,
  d_open d = true -> mesh_in h (d_group d) ns es -> proper h (d_group d) es nms ms sets kind ->
  selected es nms ms sets kind idx -> idx <> [] \/ nosel sets kind = true -> ns <> [] -> (disconnected = true -> idx <> []) ->
  (nosel sets kind = true -> forall j, (j < length ns)%nat -> In (no_of j) (flat_map el_nodes (pick es idx))) ->
  refs_in h (d_group d) rs -> cases_arg cs arg -> asked_refs run cs rs sel -> sel <> [] ->
  In (restype, rn, cn) [("displacement", "RVNODDIS", "dis"); ("velocity", "RVNODVEL", "vel"); ("acceleration", "RVNODACC", "acc")] ->
  noderes_in h (d_group d) rn (length ns) bs ->
  filter (fun i => zmem i (map rf_ires sel)) (map fst bs) = map rf_ires sel -> NoDup (map rf_ires sel) ->
  (forall r, In r sel -> rf_complex r = f) ->
  (forall b, In b bs -> In (fst b) (map rf_ires sel) -> Forall (fun v => exists w, shown f v w) (snd b)) ->
  exists nd out,
    selected_nodes ns es (nosel sets kind) disconnected idx nd /\
    get_noderesults h d restype run arg sets kind disconnected = Ok (shaped out) /\
    Forall2 (fun r a => Forall2 (fun j w => exists v, value_at bs (rf_ires r) j v /\ shown (rf_complex r) v w) nd a) sel out.
Proof.
  intros h d ns es nms ms sets kind idx rs run cs arg sel restype rn cn bs f dis Ho HM HP HI Hne Hns Hdis Hused HR HA HS Hsel HT HB Hord Hnd Hf Hsh.
  assert (Hnn : node_nats ns es sets kind idx false <> []).
  { pose proof (node_nats_selected h d ns es Ho HM nms ms sets kind idx HI false) as [_ K]. intro F.
    destruct (nosel sets kind) eqn:EN.
    - assert (In 0%nat []) as []. rewrite <- F. apply K. destruct ns; [congruence|cbn; lia].
    - destruct Hne as [Hne|]; [|discriminate]. pose proof (concat_lists_nonempty h d ns es HM nms ms sets kind idx HI Hne) as NE.
      rewrite (lists_pick es nms ms sets kind idx HI) in NE. destruct (flat_map el_nodes (pick es idx)) as [|z l] eqn:EZ; [congruence|].
      assert (Hz : In z (flat_map el_nodes (pick es idx))) by (rewrite EZ; now left).
      rewrite <- (lists_pick es nms ms sets kind idx HI) in Hz. pose proof (lists_valid h d ns es HM nms ms sets kind idx HI z Hz) as V.
      assert (In (Z.to_nat (z - 1)) []) as []. rewrite <- F. apply K. unfold no_of. replace (Z.of_nat (Z.to_nat (z - 1)) + 1) with z by lia. now left. }
  exact (noderesults h d ns es Ho HM nms ms sets kind HP idx HI Hne rs run cs arg sel HR HA HS restype rn cn HT bs HB Hord Hnd Hsel f Hf Hsh Hnn Hused dis Hdis).
Qed.
Lemma mixed_stated : forall h d rs run cs arg sel restype rn cn rows arr r r' sets kind disconnected,
  d_open d = true -> refs_in h (d_group d) rs -> cases_arg cs arg -> asked_refs run cs rs sel ->
  In (restype, rn, cn) [("displacement", "RVNODDIS", "dis"); ("velocity", "RVNODVEL", "vel"); ("acceleration", "RVNODACC", "acc")] ->
  holds h (d_group d) rn (mkC rows [arr]) ->
  In r sel -> In r' sel -> rf_complex r <> rf_complex r' ->
  get_noderesults h d restype run arg sets kind disconnected = Err ResultError.
Proof.
  intros h d rs run cs arg sel restype rn cn rows arr r r' sets kind dis Ho HR HA HS HT H H1 H2 Hn.
  exact (mixed_raises h d Ho sets kind rs run cs arg sel HR HA HS restype rn cn HT r r' dis rows arr H H1 H2 Hn).
Qed.
