(** * Props_Vtf: models written to VTF files and read back (C70), elements added (C71), numbers of blocks (C72) *)
From Coq Require Import ZifyBool Sorted.
From Verif Require Import Base Flt RoundSpec NumeralSpec NumeralProofs Write Vtf VtfSpec VtfAddSpec VtfWhole VtfAdd VtfSample.
Open Scope string_scope.
Open Scope Z_scope.
Open Scope list_scope.
Open Scope monad_scope.

(** The value that a computation gives *)
Ltac gives m := let r := eval vm_compute in m in match r with Ok ?x => exists x end.

(** ** C70: a VTF model written and read back is the same *)

(** As the code is, no model can be made at all: the constructor reads self.scalar
    (154), which does not exist. *)
Theorem C70_refuted : forall name descr default, vtf_init false name descr default = Err AttributeError.
Proof. reflexivity. Qed.
Print Assumptions C70_refuted.
(** With that name corrected, Python 3 has no next() of an iterator and no
    iteritems(): nothing is written, nothing read. *)
Theorem C70_python3_refuted : forall show v t, vtf_write false show v = Err AttributeError /\ vtf_read false t v = Err AttributeError.
Proof. intros. split; reflexivity. Qed.
Print Assumptions C70_python3_refuted.

(** Both repaired, a file written and read into a new object gives the same model:
    every block with its number, names, types, elements, numbers, results and
    scalars; coordinates to five decimals.  [good] says what is left out: more than
    one result for a scalar, results with no scalar after them, coordinates that
    fill their column, other results than those at the nodes of elements. *)
Theorem C70_repaired_partial : forall show v, good show v -> exists t, vtf_write true show v = Ok t /\
  forall name descr default w0, vtf_init true name descr default = Ok w0 -> exists w, vtf_read true t w0 = Ok w /\ same v w.
Proof. exact vtf_round_trip. Qed.
Print Assumptions C70_repaired_partial.

(** What [good] leaves out does go wrong. *)

(** Element numbers are written in the order of the elements, beside the types in
    the order of the results: quadrilateral 10 and beam 11 come back as 11 and 10. *)
Theorem C70_numbers_refuted : exists v w b c, m2 = Ok v /\ read_back m2 = Ok w /\ v_elems v = [b] /\ v_elems w = [c] /\
  e_ids (snd b) = Some [("%BEAMS", [11]); ("%QUADS", [10]); ("%TRIANGLES", [12])] /\
  e_ids (snd c) = Some [("%QUADS", [11]); ("%BEAMS", [10]); ("%TRIANGLES", [12])] /\
  dget String.eqb "%QUADS" (e_dict (snd b)) = Some [[1; 5; 7; 9]] /\ dget String.eqb "%QUADS" (e_dict (snd c)) = Some [[1; 5; 7; 9]].
Proof. gives m2. gives (read_back m2). do 2 eexists. split; [vm_compute; reflexivity|]. split; [vm_compute; reflexivity|]. split; [reflexivity|]. split; [reflexivity|]. repeat split; reflexivity. Qed.
Print Assumptions C70_numbers_refuted.

(** Every scalar made by add_scalar has the same list of results (84): the results
    of one are those of all. *)
Theorem C70_shared_refuted : exists v a b, m3 = Ok v /\ v_scalars v = [(1, a); (2, b)] /\ shared v (s_ids a) = [1; 2] /\ shared v (s_ids b) = [1; 2].
Proof. gives m3. do 2 eexists. split; [vm_compute; reflexivity|]. split; [reflexivity|]. split; reflexivity. Qed.
Print Assumptions C70_shared_refuted.

(** A scalar with two results: written with a blank between them, read back as one
    number. *)
Theorem C70_two_results_refuted : exists t, written m3 = Ok t /\ read_back m3 = Err ValueError.
Proof. gives (written m3). split; vm_compute; reflexivity. Qed.
Print Assumptions C70_two_results_refuted.

(** Results in the last block of a file are lost. *)
Theorem C70_last_refuted : exists v w, m6 = Ok v /\ read_back m6 = Ok w /\ length (v_results v) = 1%nat /\ v_results w = [].
Proof. gives m6. gives (read_back m6). repeat (split; [vm_compute; reflexivity|]). reflexivity. Qed.
Print Assumptions C70_last_refuted.

(** Coordinates of seven characters before the point run together. *)
Theorem C70_wide_refuted : exists t, written m5 = Ok t /\ read_back m5 = Err ValueError.
Proof. gives (written m5). split; vm_compute; reflexivity. Qed.
Print Assumptions C70_wide_refuted.

(** The model of the round trip is not empty: nodes with numbers, elements of three
    types with numbers, results of two of them, a scalar. *)
Lemma fits_small (s : bool) (m : positive) (e : Z) : (if e <? 0 then Zpos m < (if s then 9999 else 99999) * 2 ^ (- e) else Zpos m * 2 ^ e < (if s then 9999 else 99999)) -> fits_column (FFin s m e).
Proof.
  unfold fits_column. set (lim := if s then 9999 else 99999). intros H k Hk Hek. destruct (Z.ltb_spec e 0) as [He|He].
  - replace (2 ^ k) with (2 ^ (- e) * 2 ^ (e + k)) by (rewrite <- Z.pow_add_r by lia; f_equal; lia). pose proof (Z.pow_pos_nonneg 2 (e + k) ltac:(lia) ltac:(lia)). nia.
  - rewrite Z.pow_add_r by lia. pose proof (Z.pow_pos_nonneg 2 k ltac:(lia) ltac:(lia)). nia.
Qed.
Lemma determined_by (show : flt -> text) (x : flt) : forallb (fun c => negb (is_space_s c)) (show x) = true -> (exists w, parse_float (show x) = Ok w /\ round32 w = x) -> determined show x.
Proof.
  intros H (w & R & E). split; [|exists w; split; [now apply parse_float_reads|exact E]]. rewrite forallb_forall in H. apply Forall_forall. intros c Hc. specialize (H c Hc). now destruct (is_space_s c).
Qed.
Ltac deter := apply determined_by; [vm_compute; reflexivity|eexists; split; vm_compute; reflexivity].
Lemma no_two_blanks t : (fix go (l : list ascii) := match l with a :: ((b :: _) as r) => negb (Ascii.eqb a " " && Ascii.eqb b " ") && go r | _ => true end) t = true -> forall a b, t <> a ++ " "%char :: " "%char :: b.
Proof.
  intros H a b E. subst t. induction a as [|c a IH]; [discriminate H|]. apply IH. cbn [app] in H. destruct (a ++ " "%char :: " "%char :: b) as [|d r] eqn:E; [destruct a; discriminate|]. apply andb_true_iff in H as [_ H]. exact H.
Qed.
Lemma one_line_by t : forallb (fun c => negb (is_space_s c) || Ascii.eqb c " ") t = true -> (fix go (l : list ascii) := match l with a :: ((b :: _) as r) => negb (Ascii.eqb a " " && Ascii.eqb b " ") && go r | _ => true end) t = true -> one_line t.
Proof.
  intros H1 H2. split; [|now apply no_two_blanks]. intros c Hc Sc. rewrite forallb_forall in H1. specialize (H1 c Hc). rewrite Sc in H1. now apply Ascii.eqb_eq in H1.
Qed.
Ltac liny := apply one_line_by; reflexivity.
Ltac typed n := split; [cbn; tauto|]; split; [discriminate|]; exists n; split; [lia|]; cbn [snd]; constructor; [split; [reflexivity|]; repeat (constructor; [lia|]); constructor|constructor].
Example C70_ex : exists v, m1 = Ok v /\ good sh v /\ length (v_results v) = 1%nat.
Proof.
  gives m1. split; [vm_compute; reflexivity|]. split; [|reflexivity]. constructor; cbn [v_geom v_name v_descr v_nodes v_elems v_results v_scalars].
  - lia.
  - liny.
  - liny.
  - split; [repeat constructor; cbn; tauto|]. constructor; [|constructor]. split; [exists 1; split; [lia|reflexivity]|]. cbn [snd n_arr n_ids]. split.
    + repeat (constructor; [split; [reflexivity|]; repeat (constructor; [first [exact I|apply fits_small; vm_compute; reflexivity]|]); constructor|]). constructor.
    + split; [reflexivity|]. repeat (constructor; [lia|]). constructor.
  - split; [discriminate|]. split; [repeat constructor; cbn; tauto|]. constructor; [|constructor]. unfold good_elements. cbn [fst snd e_name e_descr e_nodes e_dict e_ids].
    split; [lia|]. split; [liny|]. split; [liny|]. split; [lia|]. split; [cbn [map fst]; repeat constructor; cbn; intuition discriminate|]. split.
    + constructor; [typed 2%nat|]. constructor; [typed 4%nat|]. constructor; [typed 3%nat|constructor].
    + split; [discriminate|]. repeat (constructor; [split; [reflexivity|]; split; [reflexivity|]; repeat (constructor; [lia|]); constructor|]). constructor.
  - constructor; [reflexivity|constructor].
  - intros r s [<-|[]] [<-|[]] _. reflexivity.
  - split; [repeat constructor; cbn; tauto|]. constructor; [|constructor]. unfold good_results. cbn [fst snd r_type r_dim r_elems r_dict]. split; [lia|]. split; [reflexivity|]. split; [lia|]. split; [lia|]. split; [discriminate|].
    eexists. eexists [_; _], [_]. split; [now left|]. split; [reflexivity|].
    constructor; [split; [reflexivity|]; split; [reflexivity|]; exists 2%nat; split; [cbn; tauto|]; constructor; [split; [reflexivity|]; repeat (constructor; [deter|]); constructor|constructor]|].
    constructor; [split; [reflexivity|]; split; [reflexivity|]; exists 4%nat; split; [cbn; tauto|]; constructor; [split; [reflexivity|]; repeat (constructor; [deter|]); constructor|constructor]|constructor].
  - split; [repeat constructor; cbn; tauto|]. constructor; [|constructor]. split; [cbn; lia|]. split; [liny|]. split; [liny|]. exists 1. split; [lia|reflexivity].
  - discriminate.
Qed.

(** ** C71: elements added are grouped by type, each once, with its nodes and its number *)

(** Elements [es], laid out one after the other as get_elements does: the block has
    one entry for each type that occurs (15 to 28 in SESAM), with the elements of that
    type in the order given, node numbers for positions, corners first in eight-node
    quadrilaterals, and the numbers of the elements in the same order. *)
Theorem C71_repaired_partial : forall name descr es with_numbers nid ns a b eid v, 0 < nid -> v_nodes v = a ++ (Some nid, ns) :: b -> ~ In (Some nid) (map fst a) ->
  match eid with Some k => 0 < k | None => True end ->
  Forall (fun e => In (el_type e) (map fst type_names) /\ Forall (has_node ns) (el_nodes e)) es ->
  exists w k dict ids, add_elements true name (connectivity es) (ends 0 es) (map el_type es) (if with_numbers : bool then Some (map el_number es) else None) descr (Some nid) eid v = Ok w /\
    put k (mkElems name descr nid dict ids []) (v_elems v) (v_elems w) /\
    match eid with Some j => k = j | None => ~ In k (map fst (v_elems v)) /\ v_celems v <= k < v_celems w end /\
    v_nodes w = v_nodes v /\ v_results w = v_results v /\ v_scalars w = v_scalars v /\ v_curelems w = Some k /\
    grouped es (fun s sel rows => Forall2 (vtf_row ns s) sel rows) dict /\
    if with_numbers then exists i, ids = Some i /\ grouped es (fun _ sel l => l = map el_number sel) i else ids = None.
Proof. exact elements_added. Qed.
Print Assumptions C71_repaired_partial.

(** The default of nodes_id does not work in any Python: _get_current_id is called
    without its argument. *)
Theorem C71_default_refuted : forall two name con offset eltyp numbers descr eid v, add_elements two name con offset eltyp numbers descr None eid v = Err TypeError.
Proof. reflexivity. Qed.
Print Assumptions C71_default_refuted.
(** Nor can any element be added in Python 3: the dictionary changes while its keys
    are listed. *)
Theorem C71_python3_refuted : forall name con offset t eltyp numbers descr nid eid v w, add_elements false name con offset (t :: eltyp) numbers descr nid eid v <> Ok w.
Proof.
  intros name con offset t eltyp numbers descr nid eid v w. unfold add_elements. destruct nid as [nid|]; [|discriminate]. destruct nid; try discriminate; (destruct (negb false && _); [discriminate|]);
  (destruct (oget oz_eqb _ _) as [ns|]; [|discriminate]); cbn [rbind]; (destruct (match n_ids ns with Some ids => take ids con | None => Ok con end); [|discriminate]); cbn [rbind];
  (destruct (unique (t :: eltyp)) as [|t' l] eqn:E; [assert (K : In t []) by (rewrite <- E; apply unique_in; now left); destruct K|]); (destruct (oget Z.eqb t' elem_type_map); discriminate).
Qed.
Print Assumptions C71_python3_refuted.

Definition quad8 : element := mkElement 28 [0; 1; 2; 3; 0; 1; 2; 3] 7.
Example C71_ex : exists v w, (dor v <- fresh; add_nodes true four_nodes (Some [1; 5; 7; 9]) (Some 1) v) = Ok v /\
  add_elements true (s2l "e") (connectivity [quad8; mkElement 15 [3; 0] 2; mkElement 28 [1; 1; 2; 2; 3; 3; 0; 0] 5]) (ends 0 [quad8; mkElement 15 [3; 0] 2; mkElement 28 [1; 1; 2; 2; 3; 3; 0; 0] 5]) [28; 15; 28] (Some [7; 2; 5]) [] (Some 1) None v = Ok w /\
  map (fun b => (e_dict (snd b), e_ids (snd b))) (v_elems w) =
    [([("%BEAMS", [[9; 1]]); ("%QUADS_8", [[1; 7; 1; 7; 5; 9; 5; 9]; [5; 7; 9; 1; 5; 7; 9; 1]])], Some [("%BEAMS", [2]); ("%QUADS_8", [7; 5])])].
Proof.
  gives (dor v <- fresh; add_nodes true four_nodes (Some [1; 5; 7; 9]) (Some 1) v). eexists. split; [vm_compute; reflexivity|]. split; [vm_compute; reflexivity|]. vm_compute. reflexivity.
Qed.

(** ** C72: a block added without a number gets one that is free *)

(** Elements and results do (elements: C71_repaired_partial). *)
Theorem C72_results_partial : forall res_type dict v w, add_results true res_type dict None None None v = Ok w ->
  exists k e, v_curelems v = Some e /\ ~ In k (map fst (v_results v)) /\ v_results w = v_results v ++ [(k, mkRes res_type dict e 1)].
Proof.
  intros res_type dict v w. unfold add_results. cbn [negb rbind]. set (k := free_id _ _ _). cbn [v_curelems set_counters]. destruct (v_curelems v) as [e|]; [|discriminate]. cbn [rbind]. destruct (oget Z.eqb e _) as [el|]; [|discriminate]. cbn [rbind v_curscalar set_elems set_counters].
  destruct (v_curscalar v) as [s|]; [|discriminate]. cbn [rbind]. destruct (oget Z.eqb s _) as [sc|]; [|discriminate]. cbn [rbind]. intro E. injection E as <-. exists k, e. split; [reflexivity|].
  assert (N : ~ In k (map fst (v_results v))) by (unfold k; rewrite <- (map_length fst (v_results v)); apply free_id_free). split; [exact N|]. destruct (s_ids sc); cbn [v_results set_results set_default set_scalars set_elems set_counters]; now apply oset_key_z.
Qed.
Print Assumptions C72_results_partial.
(** Nodes do not: _get_new_id returns nothing, all such blocks have the key None, the
    next one replaces the last, and the file cannot be read. *)
Theorem C72_nodes_refuted : (forall arr numbers v w, add_nodes true arr numbers None v = Ok w -> In None (map fst (v_nodes w))) /\
  (forall arr numbers arr' numbers' v w x, add_nodes true arr numbers None v = Ok w -> add_nodes true arr' numbers' None w = Ok x -> length (v_nodes x) = length (v_nodes w)) /\
  read_back m4 = Err ValueError.
Proof.
  assert (H : forall arr numbers v w, add_nodes true arr numbers None v = Ok w -> v_nodes w = oset oz_eqb None (mkNodes arr numbers) (v_nodes v)) by (intros arr numbers v w E; cbn in E; now injection E as <-).
  assert (L : forall (x : nodes) (d : list (option Z * nodes)), In None (map fst (oset oz_eqb None x d))). { intros x d. induction d as [|[[k|] y] d IH]; cbn [oset oz_eqb map fst In]; auto. }
  assert (M : forall x (d : list (option Z * nodes)), In None (map fst d) -> length (oset oz_eqb None x d) = length d). { intros x d. induction d as [|[[k|] y] d IH]; cbn [oset oz_eqb map fst In length]; [tauto| |auto]. intros [K|K]; [discriminate|]. now rewrite IH. }
  split; [|split].
  - intros arr numbers v w E. rewrite (H _ _ _ _ E). apply L.
  - intros arr numbers arr' numbers' v w x E E'. rewrite (H _ _ _ _ E'). apply M. rewrite (H _ _ _ _ E). apply L.
  - vm_compute. reflexivity.
Qed.
Print Assumptions C72_nodes_refuted.
(** Scalars do not: the number is the next of the counter, whether taken or not, and
    the scalar that had it is lost. *)
Theorem C72_scalar_refuted : exists v w, (dor v <- fresh; dor (k, v) <- add_scalar true (s2l "first") [] (Some 1) v; Ok v) = Ok v /\ add_scalar true (s2l "second") [] None v = Ok (1, w) /\
  map (fun b => s_name (snd b)) (v_scalars v) = [s2l "first"] /\ map (fun b => s_name (snd b)) (v_scalars w) = [s2l "second"].
Proof.
  gives (dor v <- fresh; dor (k, v) <- add_scalar true (s2l "first") [] (Some 1) v; Ok v). eexists. split; [vm_compute; reflexivity|]. split; [reflexivity|]. split; reflexivity.
Qed.
Print Assumptions C72_scalar_refuted.
Example C72_ex : exists v w, (dor v <- m1; Ok (set_counters v 1 1 1 1)) = Ok v /\ with_results [beam_res] v = Ok w /\ map fst (v_results v) = [1] /\ map fst (v_results w) = [1; 2].
Proof. gives (dor v <- m1; Ok (set_counters v 1 1 1 1)). eexists. split; [vm_compute; reflexivity|]. split; [vm_compute; reflexivity|]. split; vm_compute; reflexivity. Qed.
