(** * Properties of VTU output: C42-C45

    [v_run v_init cs = (s, Ok tt)]: the calls [cs] are all accepted and lead to the
    writer state [s]; [v_out s] is what the file holds.  [document cs x]: the tree
    of elements the calls stand for, with [array_xml] for each array. *)
From Coq Require Import Permutation.
From Verif Require Import Base DecFacts Vtu VtuSpec VtuText VtuProofs VtuMore VtuReorder.
Open Scope string_scope.
Open Scope Z_scope.
Open Scope list_scope.

(** A piece with a three-node beam and a quad, two data sections, a second piece. *)
Definition b8 (z : Z) : bytes := le_bytes 8 z.
Definition e_pts : arr := mkA "float64" 8 [3%nat] (map (fun i => map (fun j => b8 (10 * i + j)) [0; 1; 2]) [0; 1; 2; 3; 4; 5; 6]).
Definition e_con : arr := mkA "int32" 4 [] (map (fun z => [le_bytes 4 z]) [0; 1; 2; 3; 4; 5; 6]).
Definition e_off : iarr := mkI "int32" 4 [3; 7].
Definition e_typ : iarr := mkI "int32" 4 [23; 24].
Definition e_dat : arr := mkA "float32" 4 [2%nat] (map (fun i => [le_bytes 4 i; le_bytes 4 (i * i)]) [0; 1; 2; 3; 4; 5; 6]).
Definition e_calls : list call :=
  [NewPiece e_pts e_con e_off e_typ; StartPointdata; AddData e_dat (B "disp") [B "x"; B "y"]; AddCellpoints e_dat (B "stress") [];
   StartCelldata; NewPiece e_pts e_con e_off (mkI "int32" 4 [25; 24]); StartCelldata; AddData (of_ints e_typ) (B "type") []].

(** C42: accepted calls which end with close produce exactly the document they
    stand for. *)
Theorem C42_document : forall cs s, v_run v_init (cs ++ [CloseFile]) = (s, Ok tt) -> exists x, document cs x /\ v_out s = render 0 x /\ done s.
Proof. exact whole_document. Qed.
Print Assumptions C42_document.
(** That is XML text with one root, provided the names given need no escaping. *)
Theorem C42_xml : forall cs s, v_run v_init (cs ++ [CloseFile]) = (s, Ok tt) -> Forall plain_names cs -> xml_document (v_out s).
Proof. exact output_xml. Qed.
Print Assumptions C42_xml.
Theorem C42_one_close : forall cs s, v_run v_init cs = (s, Ok tt) -> In CloseFile cs -> exists cs0, cs = cs0 ++ [CloseFile] /\ ~ In CloseFile cs0.
Proof. intros cs s H HI. exact (one_close cs s s H HI H). Qed.
Print Assumptions C42_one_close.
Example C42_case : snd (v_run v_init (e_calls ++ [CloseFile])) = Ok tt /\ Forall plain_names e_calls /\ length (v_out (fst (v_run v_init (e_calls ++ [CloseFile])))) = 2732%nat.
Proof. split; [vm_compute; reflexivity|]. split; [|vm_compute; reflexivity].
  unfold e_calls. repeat (constructor; [cbn [plain_names]; repeat split; repeat constructor|]). constructor. Qed.
Example C42_text : l2s (v_out (fst (v_run v_init [NewPiece (mkA "uint8" 1 [] []) (mkA "int8" 1 [] [[["a"%char]]]) (mkI "int8" 1 [1]) (mkI "int8" 1 [15]); CloseFile]))) =
"<VTKFile type=""UnstructuredGrid"" version=""1.0"" byte_order=""LittleEndian"" header_type=""UInt64"">
  <UnstructuredGrid>
    <Piece NumberOfPoints=""0"" NumberOfCells=""1"">
      <Points>
        <DataArray type=""UInt8"" Name=""points"" NumberOfComponents=""1"" format=""binary"">
          AAAAAAAAAAA=
        </DataArray>
      </Points>
      <Cells>
        <DataArray type=""Int8"" Name=""connectivity"" NumberOfComponents=""1"" format=""binary"">
          AQAAAAAAAABh
        </DataArray>
        <DataArray type=""Int8"" Name=""offsets"" NumberOfComponents=""1"" format=""binary"">
          AQAAAAAAAAAB
        </DataArray>
        <DataArray type=""Int64"" Name=""types"" NumberOfComponents=""1"" format=""binary"">
          CAAAAAAAAAADAAAAAAAAAA==
        </DataArray>
      </Cells>
    </Piece>
  </UnstructuredGrid>
</VTKFile>
".
Proof. vm_compute. reflexivity. Qed.
(** Names are not escaped. *)
Theorem C42_names_refuted : exists cs s, v_run v_init (cs ++ [CloseFile]) = (s, Ok tt) /\ ~ xml_document (v_out s).
Proof.
  exists [NewPiece e_pts e_con e_off e_typ; StartPointdata; AddData e_dat (B "sxx<0") []]. eexists. split; [vm_compute; reflexivity|].
  intro H. apply document_lt_gt in H. vm_compute in H. lia.
Qed.
Print Assumptions C42_names_refuted.
(** Calls in the wrong state raise the writer's error and change nothing. *)
Theorem C42_no_piece : forall cs s, v_run v_init cs = (s, Ok tt) -> existsb new cs = false -> v_step s StartPointdata = (s, Err VtkError) /\ v_step s StartCelldata = (s, Err VtkError).
Proof. exact start_needs_piece. Qed.
Print Assumptions C42_no_piece.
Theorem C42_start_after_close : forall cs s, v_run v_init (cs ++ [CloseFile]) = (s, Ok tt) -> v_step s StartPointdata = (s, Err VtkError) /\ v_step s StartCelldata = (s, Err VtkError).
Proof. exact start_after_close. Qed.
Print Assumptions C42_start_after_close.
Theorem C42_no_section : forall cs s a n ns, v_run v_init cs = (s, Ok tt) -> no_section cs -> v_step s (AddData a n ns) = (s, Err VtkError).
Proof. exact data_needs_section. Qed.
Print Assumptions C42_no_section.
(** Element node results: an error in any case; the writer's error if there is a
    piece and the results fit it. *)
Theorem C42_no_section_cellpoints_partial : forall cs s a n ns, v_run v_init cs = (s, Ok tt) -> no_section cs -> exists e, v_step s (AddCellpoints a n ns) = (s, Err e) /\
  ((exists cs1 p con off typ cs2 a', cs = cs1 ++ NewPiece p con off typ :: cs2 /\ existsb new cs2 = false /\ reorder_arr vtk_elemresults a (i_vals off) (i_vals typ) = (a', Ok tt)) -> ~ In CloseFile cs -> e = VtkError).
Proof. exact cellpoints_need_section. Qed.
Print Assumptions C42_no_section_cellpoints_partial.
Theorem C42_after_close_partial : forall cs s c, v_run v_init (cs ++ [CloseFile]) = (s, Ok tt) -> exists e, snd (v_step s c) = Err e.
Proof. exact nothing_after_close. Qed.
Print Assumptions C42_after_close_partial.
(** Three calls in a wrong state raise something else. *)
Theorem C42_wrong_state_refuted :
  v_step v_init (AddCellpoints e_dat (B "s") []) = (v_init, Err TypeError) /\
  (exists s, v_run v_init [CloseFile] = (s, Ok tt) /\ v_step s CloseFile = (s, Err IndexError)) /\
  (exists s, v_run v_init [CloseFile] = (s, Ok tt) /\ snd (v_step s (NewPiece e_pts e_con e_off e_typ)) = Err ValueError).
Proof.
  split; [vm_compute; reflexivity|]. split; (eexists; split; [vm_compute; reflexivity|vm_compute; reflexivity]).
Qed.
Print Assumptions C42_wrong_state_refuted.
Example C42_wrong_case : (exists s, v_run v_init [NewPiece e_pts e_con e_off e_typ] = (s, Ok tt)) /\ no_section [NewPiece e_pts e_con e_off e_typ].
Proof. split; [eexists; vm_compute; reflexivity|]. left. reflexivity. Qed.

(** C43: the payload of an array. *)
Theorem C43_payload : forall cs s a n ns s', v_run v_init cs = (s, Ok tt) -> v_step s (AddData a n ns) = (s', Ok tt) ->
  exists head foot payload count, v_out s' = v_out s ++ head ++ payload ++ foot /\ b64decode payload = Some (count ++ concat (concat (a_rows a))) /\ length count = 8%nat /\
    (shaped a -> unsigned count (Zlen (concat (concat (a_rows a))))) /\
    (exists atts, head = open_tag 4 "DataArray" atts ++ margin 5) /\ foot = [nl] ++ close_tag 4 "DataArray".
Proof.
  intros cs s a n ns s' H E. destruct (reach cs s H) as [[_ HD]|(m & out & HM & HF)]; [exfalso; apply (done_errors s (AddData a n ns) HD); now rewrite E|].
  destruct m as [|o t|b o t]; cbn [in_mode] in HM; [destruct HM as (cu & ->); discriminate|subst s; discriminate|]. subst s. cbn [v_step] in E. unfold add_data in E. cbn [v_point v_cell] in E.
  destruct (negb b && negb (negb b))%bool; [discriminate|]. apply write_array_ok in E as (x & (t' & nc & hd & pl & _ & _ & -> & X4 & X5 & X6) & ->). cbn [v_out render length ug].
  eexists (open_tag 4 "DataArray" _ ++ margin 5), _, pl, hd. split; [rewrite <- !app_assoc; reflexivity|]. split; [exact X4|]. split; [exact X5|]. split; [exact X6|]. split; [eexists; reflexivity|reflexivity].
Qed.
Print Assumptions C43_payload.
(** In the document of accepted calls (C42_document) every array is an
    [array_xml]: its payload is such a text.  The count and the bytes of a payload
    are determined by the text. *)
Theorem C43_arrays : forall a n ns x, array_xml a n ns x ->
  exists atts payload count, x = Text "DataArray" atts payload /\ b64decode payload = Some (count ++ concat (concat (a_rows a))) /\ length count = 8%nat /\
    (shaped a -> unsigned count (Zlen (concat (concat (a_rows a))))).
Proof. intros a n ns x (t & nc & hd & pl & _ & _ & -> & H4 & H5 & H6). eexists _, pl, hd. split; [reflexivity|]. auto. Qed.
Print Assumptions C43_arrays.
Theorem C43_shaped_ints : forall a, shaped (of_ints a).
Proof. intro a. unfold shaped, of_ints. cbn. apply Forall_forall. intros r H. apply in_map_iff in H as (z & <- & _). split; [reflexivity|]. constructor; [apply le_bytes_length|constructor]. Qed.
Print Assumptions C43_shaped_ints.
Example C43_case : shaped e_dat /\ b64decode (b64encode (le_bytes 8 56 ++ a_bytes e_dat)) = Some (le_bytes 8 56 ++ a_bytes e_dat) /\ Zlen (concat (concat (a_rows e_dat))) = 56 /\
  unsigned (le_bytes 8 56) 56 /\ b64decode (B "AQAAAAAAAABh") = Some (le_bytes 8 1 ++ B "a") /\ b64decode (B "AQAAAAAAAABh=") = None.
Proof. split; [repeat constructor|]. split; [apply b64_roundtrip|]. split; [reflexivity|]. split; [apply le_bytes_unsigned; vm_compute; split; [discriminate|reflexivity]|]. split; vm_compute; reflexivity. Qed.

(** C44: [segs] are the entries of the elements, one after the other, [rest]
    what is left of the array.  Nothing crosses an element; three-node beams and
    eight-node shells get their corner nodes first. *)
Theorem C44_connectivity : forall a segs ts rest, Forall2 sized ts segs -> a_rows a = concat segs ++ rest ->
  exists segs', reorder_arr vtk_connectivity a (ends 0 segs) ts = (with_rows a (concat segs' ++ rest), Ok tt) /\ Forall2 (@Permutation _) segs segs' /\
    Forall2 (fun tse seg' => (fst tse = 23 \/ fst tse = 28 -> pick_at (corners (fst tse) ++ middles (fst tse)) (snd tse) seg') /\ (fst tse <> 23 -> fst tse <> 28 -> seg' = snd tse)) (combine ts segs) segs'.
Proof. exact con_by_element. Qed.
Print Assumptions C44_connectivity.
Theorem C44_results : forall a segs ts rest, Forall2 sized ts segs -> a_rows a = concat segs ++ rest ->
  exists segs', reorder_arr vtk_elemresults a (ends 0 segs) ts = (with_rows a (concat segs' ++ rest), Ok tt) /\ Forall2 (@Permutation _) segs segs' /\
    Forall2 (fun tse seg' => (fst tse = 26 -> pick_at (corners (fst tse) ++ middles (fst tse)) (snd tse) seg') /\ (fst tse <> 26 -> seg' = snd tse)) (combine ts segs) segs'.
Proof. exact res_by_element. Qed.
Print Assumptions C44_results.
(** Six-node triangles keep Sesam's order in the connectivity, three-node beams
    and eight-node shells in the results: unless nodes coincide, corners do not
    come first. *)
Theorem C44_refuted : forall (con : arr) x0 x1 x2 x3 x4 x5, a_rows con = [x0; x1; x2; x3; x4; x5] -> x1 <> x2 ->
  reorder_arr vtk_connectivity con [6] [26] = (con, Ok tt) /\ ~ pick_at (corners 26 ++ middles 26) (a_rows con) (a_rows con).
Proof.
  intros con x0 x1 x2 x3 x4 x5 E H. split; [unfold reorder_arr; cbn; f_equal; apply with_rows_same|]. rewrite E. intro K. unfold pick_at in K. cbn in K. congruence.
Qed.
Print Assumptions C44_refuted.
Theorem C44_results_refuted : forall (res : arr) x0 x1 x2, a_rows res = [x0; x1; x2] -> x1 <> x2 ->
  reorder_arr vtk_elemresults res [3] [23] = (res, Ok tt) /\ ~ pick_at (corners 23 ++ middles 23) (a_rows res) (a_rows res).
Proof.
  intros res x0 x1 x2 E H. split; [unfold reorder_arr; cbn; f_equal; apply with_rows_same|]. rewrite E. intro K. unfold pick_at in K. cbn in K. congruence.
Qed.
Print Assumptions C44_results_refuted.
Example C44_case : Forall2 sized [23; 24] [map (fun z => [le_bytes 4 z]) [0; 1; 2]; map (fun z => [le_bytes 4 z]) [3; 4; 5; 6]] /\
  a_rows e_con = concat [map (fun z => [le_bytes 4 z]) [0; 1; 2]; map (fun z => [le_bytes 4 z]) [3; 4; 5; 6]] ++ [] /\
  reorder_arr vtk_connectivity e_con (i_vals e_off) (i_vals e_typ) = (mkA "int32" 4 [] (map (fun z => [le_bytes 4 z]) [0; 2; 1; 3; 4; 5; 6]), Ok tt).
Proof. split; [repeat constructor; lia|]. split; vm_compute; reflexivity. Qed.

(** C45 fails: the connectivity array is reordered in place, so that the second
    time the piece is written with the first order undone. *)
Theorem C45_refuted : exists p con o t s1 con1 s2 con2, new_piece p con o t v_init = (s1, con1, Ok tt) /\ new_piece p con1 o t s1 = (s2, con2, Ok tt) /\
  con1 <> con /\ text_of p o t con1 <> text_of p o t con.
Proof.
  exists e_pts, e_con, e_off, e_typ. destruct (new_piece e_pts e_con e_off e_typ v_init) as [[s1 con1] r1] eqn:E1.
  assert (E1' := f_equal (fun x => (snd (fst x), snd x)) E1). cbn [fst snd] in E1'. vm_compute in E1'. injection E1' as <- <-.
  match goal with |- context [new_piece _ _ _ _ _ = _] => idtac end.
  destruct (new_piece e_pts (mkA "int32" 4 [] (map (fun z => [le_bytes 4 z]) [0; 2; 1; 3; 4; 5; 6])) e_off e_typ s1) as [[s2 con2] r2] eqn:E2.
  assert (E1s := f_equal (fun x => fst (fst x)) E1). cbn [fst snd] in E1s. vm_compute in E1s. subst s1.
  assert (E2' := f_equal snd E2). vm_compute in E2'. subst r2.
  eexists _, _, s2, con2. split; [reflexivity|]. split; [exact E2|]. split; [vm_compute; discriminate|vm_compute; discriminate].
Qed.
Print Assumptions C45_refuted.
(** The k-th time the piece is written with the array as k-1 reorderings left it. *)
Theorem C45_texts_partial : forall p o t k con s, again p o t k con v_init = (s, Ok tt) ->
  snd (v_close s) = Ok tt /\ v_out (fst (v_close s)) = v_out v_init ++ concat (map (fun i => text_of p o t (left_n (i_vals o) (i_vals t) i con)) (seq 0 k)) ++ tail_text.
Proof. exact again_text. Qed.
Print Assumptions C45_texts_partial.
(** Without three-node beams and eight-node shells it is the same every time. *)
Theorem C45_same_partial : forall p o t k con s, again p o t k con v_init = (s, Ok tt) -> Forall (fun t => t <> 23 /\ t <> 28) (i_vals t) ->
  v_out (fst (v_close s)) = v_out v_init ++ concat (repeat (text_of p o t con) k) ++ tail_text.
Proof. exact again_linear. Qed.
Print Assumptions C45_same_partial.
(** In any case the array is back after six times. *)
Theorem C45_period_partial : forall con segs ts rest, Forall2 sized ts segs -> a_rows con = concat segs ++ rest -> left_n (ends 0 segs) ts 6 con = con.
Proof. exact left_period. Qed.
Print Assumptions C45_period_partial.
Example C45_case : snd (again e_pts e_off e_typ 3 e_con v_init) = Ok tt /\ snd (again e_pts e_off (mkI "int32" 4 [25; 24]) 3 e_con v_init) = Ok tt /\
  left_n (i_vals e_off) (i_vals e_typ) 2 e_con = e_con.
Proof. repeat split; vm_compute; reflexivity. Qed.
