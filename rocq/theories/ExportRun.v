(** * ExportRun: the calls of the script succeed, and the document they leave. *)
From Verif Require Import Base Vtu VtuSpec VtuText VtuProofs.
From Coq Require Import ZifyBool.
Open Scope string_scope.
Open Scope Z_scope.
Open Scope list_scope.

(** Arrays the writer takes. *)
Definition fine (a : arr) : Prop :=
  (a_tail a = [] \/ exists n, a_tail a = [n]) /\ (exists t, vtk_datatype (a_dtype a) = Some t) /\ a_size a * Z.of_nat (a_isize a) < 2 ^ 64.
Lemma write_array_runs out p pt cl el cu a n cs : fine a ->
  exists x, write_array a n cs (mkV out false p pt cl el cu) = (mkV (out ++ render (length el) x) false p pt cl el cu, Ok tt).
Proof.
  intros (T & (t & D) & S). assert (H : exists s', write_array a n cs (mkV out false p pt cl el cu) = (s', Ok tt)).
  { unfold write_array. rewrite D. destruct T as [->|(k & ->)]; (replace (_ <? 2 ^ 64) with true by lia);
    unfold vthen at 1; rewrite open_element_ok; unfold vthen, vwrite; cbn [v_closed v_elems v_out v_piece v_point v_cell v_cur];
    rewrite close_element_ok; eexists; reflexivity. }
  destruct H as (s' & H). destruct (write_array_ok _ _ _ _ _ _ _ _ _ _ H) as (x & _ & ->). now exists x.
Qed.
Lemma new_piece_runs out cu p con o t con' ts :
  fine p -> fine con' -> fine (of_ints o) -> fine (of_ints (mkI "int64" 8 ts)) ->
  reorder_arr vtk_connectivity con (i_vals o) (i_vals t) = (con', Ok tt) -> i_vals t <> [] -> map_types (i_vals t) = Ok ts ->
  exists out', new_piece p con o t (mkV out false false false false ug cu) = (mkV out' false true false false ("Piece" :: ug) (Some (i_vals o, i_vals t)), con', Ok tt).
Proof.
  intros F1 F2 F3 F4 ER NE MT. unfold new_piece. rewrite begin_piece, ER. unfold typeidmapper. destruct (i_vals t) as [|t0 tr] eqn:Et; [now elim NE|]. rewrite <- Et in *. rewrite MT. cbn [rbind].
  unfold set_cur. cbn [v_point v_cell v_piece v_out v_closed v_elems v_cur].
  unfold vthen at 1. rewrite open_element_ok. unfold vthen at 1. rewrite open_element_ok.
  unfold vthen at 1. match goal with |- context [write_array p (B "points") [] (mkV ?a false ?b ?c ?d ?e ?f)] => destruct (write_array_runs a b c d e f p (B "points") [] F1) as (x1 & ->) end.
  unfold vthen at 1. rewrite close_element_ok. unfold vthen at 1. rewrite open_element_ok.
  unfold vthen at 1. match goal with |- context [write_array con' (B "connectivity") [] (mkV ?a false ?b ?c ?d ?e ?f)] => destruct (write_array_runs a b c d e f con' (B "connectivity") [] F2) as (x2 & ->) end.
  unfold vthen at 1. match goal with |- context [write_array (of_ints o) (B "offsets") [] (mkV ?a false ?b ?c ?d ?e ?f)] => destruct (write_array_runs a b c d e f (of_ints o) (B "offsets") [] F3) as (x3 & ->) end.
  unfold vthen at 1. match goal with |- context [write_array (of_ints (mkI "int64" 8 ts)) (B "types") [] (mkV ?a false ?b ?c ?d ?e ?f)] => destruct (write_array_runs a b c d e f (of_ints (mkI "int64" 8 ts)) (B "types") [] F4) as (x4 & ->) end.
  rewrite close_element_ok. eexists. reflexivity.
Qed.
Lemma run_adds adds : Forall (fun an => fine (fst an)) adds -> forall out o t,
  exists s, v_run (mkV out false true true false ("PointData" :: "Piece" :: ug) (Some (o, t))) (map (fun an => AddData (fst an) (snd an) []) adds ++ [CloseFile]) = (s, Ok tt).
Proof.
  induction 1 as [|[a n] adds HF _ IH]; intros out o t.
  - cbn [map app v_run v_step]. pose proof (close_section true out o t) as C. cbn [negb sec_tag] in C. rewrite C. eexists. reflexivity.
  - cbn [map app v_run v_step fst snd] in *. unfold add_data. cbn [v_point v_cell negb andb].
    destruct (write_array_runs out true true false ("PointData" :: "Piece" :: ug) (Some (o, t)) a n [] HF) as (x & ->). apply IH.
Qed.
Theorem script_runs p con o t con' ts adds :
  fine p -> fine con' -> fine (of_ints o) -> fine (of_ints (mkI "int64" 8 ts)) -> Forall (fun an => fine (fst an)) adds ->
  reorder_arr vtk_connectivity con (i_vals o) (i_vals t) = (con', Ok tt) -> i_vals t <> [] -> map_types (i_vals t) = Ok ts ->
  exists s, v_run v_init (NewPiece p con o t :: StartPointdata :: map (fun an => AddData (fst an) (snd an) []) adds ++ [CloseFile]) = (s, Ok tt).
Proof.
  intros F1 F2 F3 F4 F5 ER NE MT. cbn [v_run v_step]. rewrite init_state.
  match goal with |- context [new_piece p con o t (mkV ?a false false false false ug None)] => destruct (new_piece_runs a None p con o t con' ts F1 F2 F3 F4 ER NE MT) as (out' & ->) end.
  pose proof (open_data_piece true out' (i_vals o) (i_vals t)) as OD. cbn [sec_tag] in OD. rewrite OD. cbn [negb]. now apply run_adds.
Qed.

(** The document. *)
Definition is_add (c : call) : Prop := exists a n, c = AddData a n [].
Lemma only_adds_pieces adds ys : Forall is_add adds -> pieces_xml adds ys -> adds = [] /\ ys = [].
Proof. intros H P. destruct P; [auto|]. inversion H as [|? ? (a & n & E) _]. discriminate. Qed.
Lemma only_adds_sections o t adds ys : Forall is_add adds -> sections_xml o t adds ys -> adds = [] /\ ys = [].
Proof. intros H P. destruct P; [auto|inversion H as [|? ? (a & n & E) _]; discriminate|inversion H as [|? ? (a & n & E) _]; discriminate]. Qed.
Lemma adds_arrays o t l xs : arrays_xml o t (map (fun an => AddData (fst an) (snd an) []) l) xs -> Forall2 (fun an x => array_xml (fst an) (snd an) [] x) l xs.
Proof.
  revert xs. induction l as [|[a n] l IH]; intros xs H; cbn [map fst snd] in H; inversion H; subst; constructor; auto.
Qed.
Theorem script_document p con o t adds x : document (NewPiece p con o t :: StartPointdata :: map (fun an => AddData (fst an) (snd an) []) adds) x ->
  exists con' ts xp xc xo xt xs,
    reorder_arr vtk_connectivity con (i_vals o) (i_vals t) = (con', Ok tt) /\ Forall2 vtk_cell (i_vals t) ts /\
    array_xml p (B "points") [] xp /\ array_xml con' (B "connectivity") [] xc /\ array_xml (of_ints o) (B "offsets") [] xo /\
    array_xml (of_ints (mkI "int64" 8 ts)) (B "types") [] xt /\ Forall2 (fun an x => array_xml (fst an) (snd an) [] x) adds xs /\
    x = Node "VTKFile" [("type", B "UnstructuredGrid"); ("version", B "1.0"); ("byte_order", B "LittleEndian"); ("header_type", B "UInt64")]
      [Node "UnstructuredGrid" []
        [Node "Piece" [("NumberOfPoints", B (str_of_Z (Zlen (a_rows p)))); ("NumberOfCells", B (str_of_Z (Zlen (i_vals o))))]
          [Node "Points" [] [xp]; Node "Cells" [] [xc; xo; xt]; Node "PointData" [] xs]]].
Proof.
  remember (map (fun an => AddData (fst an) (snd an) []) adds) as A eqn:DA. assert (HA : Forall is_add A). { rewrite DA. apply Forall_map, Forall_forall. intros [a n] _. now exists a, n. }
  intros (ps & P & ->). inversion P as [|? ? ? ? con' ts xp xc xo xt secs xs calls ys R V X1 X2 X3 X4 S Q E EY]. subst p0 con0 o0 t0 ps.
  destruct secs as [|s secs].
  { cbn [app] in *. subst calls. inversion Q. }
  cbn [app] in *. match goal with H : _ :: _ ++ _ = _ |- _ => injection H as -> EA end.
  assert (HS : Forall is_add secs /\ Forall is_add calls) by (apply Forall_app; now rewrite EA). destruct HS as [HS1 HS2].
  destruct (only_adds_pieces calls ys HS2 Q) as [-> ->]. rewrite app_nil_r in EA.
  clear P. rewrite EA in S. clear secs EA HS1 HS2 Q. inversion S as [|ad ax ca cy A1 A2 E1 E2|]. subst xs. rewrite <- E1 in HA.
  apply Forall_app in HA as [_ HS3]. destruct (only_adds_sections _ _ ca cy HS3 A2) as [-> ->].
  exists con', ts, xp, xc, xo, xt, ax. repeat (split; [assumption|]). split; [|reflexivity]. apply (adds_arrays (i_vals o) (i_vals t)). rewrite app_nil_r in E1. rewrite <- DA, <- E1. exact A1.
Qed.
