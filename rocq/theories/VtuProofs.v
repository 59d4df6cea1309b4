(** * VtuProofs: accepted calls produce the document they stand for. *)
From Verif Require Import Base DecFacts Vtu VtuSpec VtuText.
From Coq Require Import ZifyBool.
Open Scope string_scope.
Open Scope Z_scope.
Open Scope list_scope.

Lemma pair_ok (a b : vtu) : (a, Ok tt) = (b, Ok tt) :> vtu * Res unit -> b = a.
Proof. intro H. exact (eq_sym (f_equal fst H)). Qed.
(** ** Single steps on an open file *)
Lemma attrs_text_eq kvs : attrs_text kvs = concat (map (fun kv => B " " ++ B (fst kv) ++ B "=" ++ B """" ++ snd kv ++ B """") kvs).
Proof.
  unfold attrs_text. destruct kvs as [|kv kvs]; [reflexivity|]. revert kv. induction kvs as [|kv' kvs IH]; intro kv.
  - cbn [map joined concat]. unfold attr_text. now rewrite app_nil_r.
  - cbn [map joined concat] in *. rewrite <- IH. unfold attr_text at 1. rewrite <- !app_assoc. reflexivity.
Qed.
Lemma open_element_ok out p pt cl el cu tag kw :
  open_element tag kw (mkV out false p pt cl el cu) = (mkV (out ++ open_tag (length el) tag kw) false p pt cl (tag :: el) cu, Ok tt).
Proof. unfold open_element, vwrite, set_elems, open_tag. cbn [v_closed v_elems v_out v_piece v_point v_cell v_cur]. rewrite attrs_text_eq. reflexivity. Qed.
Lemma close_element_ok out p pt cl el cu tag :
  close_element tag (mkV out false p pt cl (tag :: el) cu) = (mkV (out ++ close_tag (length el) tag) false p pt cl el cu, Ok tt).
Proof. unfold close_element, vwrite, set_elems, close_tag. cbn [v_closed v_elems v_out v_piece v_point v_cell v_cur]. rewrite String.eqb_refl. reflexivity. Qed.
Lemma vtk_datatype_spec n t : vtk_datatype n = Some t -> vtk_name n t.
Proof.
  unfold vtk_datatype. cbn [dget]. intro H.
  repeat match type of H with (if String.eqb n ?k then _ else _) = _ => destruct (String.eqb_spec n k) as [->|] end; try discriminate; injection H as <-;
  match goal with |- vtk_name (String "i" (String _ (String _ ?b))) _ => apply (vtk_int b) | |- vtk_name (String "u" (String _ (String _ (String _ ?b)))) _ => apply (vtk_uint b)
    | |- vtk_name (String "f" (String _ (String _ (String _ (String _ ?b))))) _ => apply (vtk_float b) end; cbn; tauto.
Qed.
Lemma shaped_size a : shaped a -> a_size a * Z.of_nat (a_isize a) = Zlen (concat (concat (a_rows a))).
Proof.
  unfold shaped, a_size. intro H.
  assert (G : Zlen (concat (concat (a_rows a))) = Z.of_nat (length (a_rows a)) * (Z.of_nat (prod (a_tail a)) * Z.of_nat (a_isize a))); [|rewrite G; lia].
  induction H as [|r rows [H1 H2] _ IH]; [reflexivity|]. cbn [concat]. rewrite concat_app. unfold Zlen in *. rewrite app_length, Nat2Z.inj_add, IH. cbn [length].
  assert (E : Z.of_nat (length (concat r)) = Z.of_nat (length r) * Z.of_nat (a_isize a)).
  { clear H1. induction H2 as [|i r Hi _ IHr]; [reflexivity|]. cbn [concat length]. rewrite app_length, Nat2Z.inj_add, IHr, Hi. lia. }
  rewrite E, H1. lia.
Qed.
Lemma write_array_ok out p pt cl el cu a n cs s' : write_array a n cs (mkV out false p pt cl el cu) = (s', Ok tt) ->
  exists x, array_xml a n cs x /\ s' = mkV (out ++ render (length el) x) false p pt cl el cu.
Proof.
  unfold write_array. intro H.
  destruct (match a_tail a with [] => Some 1%nat | [n0] => Some n0 | _ => None end) as [nc|] eqn:Enc; [|discriminate].
  destruct (vtk_datatype (a_dtype a)) as [t|] eqn:Et; [|discriminate].
  set (nb := a_size a * Z.of_nat (a_isize a)) in *. cbv zeta in H. destruct (Z.ltb_spec nb (2 ^ 64)) as [Hnb|]; [|exfalso].
  - unfold vthen at 1 in H. rewrite open_element_ok in H. unfold vthen at 1 in H. unfold vwrite at 1 in H. cbn [v_closed v_elems v_out v_piece v_point v_cell v_cur] in H.
    unfold vthen at 1 in H. unfold vwrite at 1 in H. cbn [v_closed v_elems v_out v_piece v_point v_cell v_cur] in H.
    unfold vthen in H. unfold vwrite at 1 in H. cbn [v_closed v_elems v_out v_piece v_point v_cell v_cur] in H. rewrite close_element_ok in H. apply pair_ok in H. subst s'.
    eexists. split.
    + exists t, nc, (le_bytes 8 nb), (b64encode (le_bytes 8 nb ++ a_bytes a)). split; [now apply vtk_datatype_spec|]. split.
      { destruct (a_tail a) as [|m [|]]; [left; split; [reflexivity|congruence]|right; congruence|discriminate]. }
      split; [reflexivity|]. split; [apply b64_roundtrip|]. split; [apply le_bytes_length|].
      intro HS. rewrite <- (shaped_size a HS). fold nb. apply le_bytes_unsigned. change (256 ^ Z.of_nat 8) with (2 ^ 64). split; [unfold nb, a_size; lia|exact Hnb].
    + cbn [render app length]. rewrite !app_assoc. f_equal. rewrite <- !app_assoc.
      reflexivity.
  - unfold vthen at 1 in H. rewrite open_element_ok in H. unfold vthen at 1 in H. unfold vwrite at 1 in H. cbn [v_closed v_elems v_out v_piece v_point v_cell v_cur] in H.
    unfold vthen, vraise in H. discriminate.
Qed.
Lemma map_types_spec ts vs : map_types ts = Ok vs -> Forall2 vtk_cell ts vs.
Proof.
  revert vs. induction ts as [|t ts IH]; intros vs H; cbn in H; [injection H as <-; constructor|].
  destruct (vtk_typeid t) as [v|] eqn:E; [|discriminate]. destruct (map_types ts) as [r|]; [|discriminate]. injection H as <-. constructor; [|now apply IH].
  unfold vtk_typeid in E. repeat match type of E with (if t =? ?k then _ else _) = _ => destruct (Z.eqb_spec t k) as [->|] end; try discriminate; injection E as <-; constructor.
Qed.
Definition ug : list string := ["UnstructuredGrid"; "VTKFile"].
Lemma begin_piece out c el cu : (close_data ;; close_piece ;; vupd (set_piece true)) (mkV out c false false false el cu) = (mkV out c true false false el cu, Ok tt).
Proof. reflexivity. Qed.
(** Writing the body of a piece. *)
Definition piece_text (x : xml) : bytes := match x with Node tag attrs kids => open_tag 2 tag attrs ++ concat (map (render 3) kids) | Text _ _ _ => [] end.
Lemma piece_ok out pt cl cu p con o t s1 con1 :
  new_piece p con o t (mkV out false false pt cl ug cu) = (s1, con1, Ok tt) -> pt = false -> cl = false ->
  exists con' ts xp xc xo xt,
    reorder_arr vtk_connectivity con (i_vals o) (i_vals t) = (con', Ok tt) /\ con1 = con' /\ Forall2 vtk_cell (i_vals t) ts /\
    array_xml p (B "points") [] xp /\ array_xml con' (B "connectivity") [] xc /\ array_xml (of_ints o) (B "offsets") [] xo /\
    array_xml (of_ints (mkI "int64" 8 ts)) (B "types") [] xt /\
    s1 = mkV (out ++ open_tag 2 "Piece" [("NumberOfPoints", B (str_of_Z (Zlen (a_rows p)))); ("NumberOfCells", B (str_of_Z (Zlen (i_vals o))))] ++
              render 3 (Node "Points" [] [xp]) ++ render 3 (Node "Cells" [] [xc; xo; xt])) false true false false ("Piece" :: ug) (Some (i_vals o, i_vals t)).
Proof.
  intros H -> ->. unfold new_piece in H. rewrite begin_piece in H.
  destruct (reorder_arr vtk_connectivity con (i_vals o) (i_vals t)) as [con' [[]|e]] eqn:ER; [|discriminate].
  unfold typeidmapper in H. destruct (i_vals t) as [|t0 tr] eqn:Et; [discriminate|]. rewrite <- Et in *. destruct (map_types (i_vals t)) as [ts|] eqn:EM; [|discriminate]. cbn [rbind] in H.
  unfold set_cur in H. cbn [v_point v_cell v_piece v_out v_closed v_elems v_cur] in H.
  match type of H with (let (_, _) := ?m in _) = _ => destruct m as [s3 r3] eqn:EW end. injection H as -> -> ->.
  unfold vthen at 1 in EW. rewrite open_element_ok in EW. unfold vthen at 1 in EW. rewrite open_element_ok in EW.
  unfold vthen at 1 in EW. destruct (write_array p (B "points") [] _) as [s4 [[]|]] eqn:W1 in EW; [|discriminate]. apply write_array_ok in W1 as (xp & X1 & ->).
  unfold vthen at 1 in EW. rewrite close_element_ok in EW. unfold vthen at 1 in EW. rewrite open_element_ok in EW.
  unfold vthen at 1 in EW. destruct (write_array con1 (B "connectivity") [] _) as [s4 [[]|]] eqn:W2 in EW; [|discriminate]. apply write_array_ok in W2 as (xc & X2 & ->).
  unfold vthen at 1 in EW. destruct (write_array (of_ints o) (B "offsets") [] _) as [s4 [[]|]] eqn:W3 in EW; [|discriminate]. apply write_array_ok in W3 as (xo & X3 & ->).
  unfold vthen at 1 in EW. destruct (write_array (of_ints (mkI "int64" 8 ts)) (B "types") [] _) as [s4 [[]|]] eqn:W4 in EW; [|discriminate]. apply write_array_ok in W4 as (xt & X4 & ->).
  rewrite close_element_ok in EW. apply pair_ok in EW. subst s1.
  exists con1, ts, xp, xc, xo, xt. split; [reflexivity|]. split; [reflexivity|]. split; [now apply map_types_spec|]. repeat (split; [assumption|]).
  f_equal. cbn [render map concat length ug]. rewrite ?app_nil_r, <- !app_assoc. reflexivity.
Qed.

(** ** Closed files take no calls *)
Lemma open_element_closed s tag kw : v_closed s = true -> snd (open_element tag kw s) = Err ValueError.
Proof. intro H. unfold open_element, vwrite, set_elems. cbn [v_closed]. now rewrite H. Qed.
Definition done (s : vtu) : Prop := v_closed s = true /\ v_piece s = false /\ v_point s = false /\ v_cell s = false /\ v_elems s = [].
Lemma done_errors s c : done s -> snd (v_step s c) <> Ok tt.
Proof.
  intros (H1 & H2 & H3 & H4 & H5). destruct s as [out cld p pt cl el cu]. cbn in *. subst. destruct c as [p con o t| | |a n cs|a n cs|]; cbn [v_step]; try discriminate.
  - unfold new_piece. rewrite begin_piece.
    destruct (reorder_arr vtk_connectivity con (i_vals o) (i_vals t)) as [con' [[]|e]]; [|discriminate]. destruct (typeidmapper t) as [ts|]; [|discriminate].
    unfold open_element at 1, vwrite at 1, set_elems, set_cur. cbn [v_closed]. discriminate.
  - unfold add_data_cellpoints. cbn [v_cur]. destruct cu as [[o t]|]; [|discriminate]. destruct (reorder_arr vtk_elemresults a o t) as [a' [[]|e]]; discriminate.
Qed.

(** ** Sequences of calls *)
Definition root_attrs := [("type", B "UnstructuredGrid"); ("version", B "1.0"); ("byte_order", B "LittleEndian"); ("header_type", B "UInt64")].
Lemma init_state : v_init = mkV (open_tag 0 "VTKFile" root_attrs ++ open_tag 1 "UnstructuredGrid" []) false false false false ug None.
Proof. reflexivity. Qed.
Definition tail_text : bytes := close_tag 1 "UnstructuredGrid" ++ close_tag 0 "VTKFile".
Inductive mode : Set := Idle | InPiece (o t : list Z) | InSection (point : bool) (o t : list Z).
Definition in_mode (m : mode) (out : bytes) (s : vtu) : Prop :=
  match m with
  | Idle => exists cu, s = mkV out false false false false ug cu
  | InPiece o t => s = mkV out false true false false ("Piece" :: ug) (Some (o, t))
  | InSection b o t => s = mkV out false true b (negb b) ((if b then "PointData" else "CellData") :: "Piece" :: ug) (Some (o, t))
  end.
Definition sec_tag (b : bool) := if b then "PointData" else "CellData".
Definition continues (m : mode) (out : bytes) (cs : list call) (s' : vtu) : Prop :=
  done s' /\
  match m with
  | Idle => exists ps, pieces_xml cs ps /\ v_out s' = out ++ concat (map (render 2) ps) ++ tail_text
  | InPiece o t => exists cs1 cs2 xs ps, cs = cs1 ++ cs2 /\ sections_xml o t cs1 xs /\ pieces_xml cs2 ps /\
      v_out s' = out ++ concat (map (render 3) xs) ++ close_tag 2 "Piece" ++ concat (map (render 2) ps) ++ tail_text
  | InSection b o t => exists cs0 cs1 cs2 ys xs ps, cs = cs0 ++ cs1 ++ cs2 /\ arrays_xml o t cs0 ys /\ sections_xml o t cs1 xs /\ pieces_xml cs2 ps /\
      v_out s' = out ++ concat (map (render 4) ys) ++ close_tag 3 (sec_tag b) ++ concat (map (render 3) xs) ++ close_tag 2 "Piece" ++ concat (map (render 2) ps) ++ tail_text
  end.
Lemma close_data_section b out o t : close_data (mkV out false true b (negb b) (sec_tag b :: "Piece" :: ug) (Some (o, t))) =
  (mkV (out ++ close_tag 3 (sec_tag b)) false true false false ("Piece" :: ug) (Some (o, t)), Ok tt).
Proof.
  unfold close_data. destruct b; cbn [v_point v_cell negb sec_tag]; unfold vthen; rewrite close_element_ok; reflexivity.
Qed.
Lemma close_data_none out p el cu : close_data (mkV out false p false false el cu) = (mkV out false p false false el cu, Ok tt).
Proof. reflexivity. Qed.
Lemma close_piece_open out cu : close_piece (mkV out false true false false ("Piece" :: ug) cu) = (mkV (out ++ close_tag 2 "Piece") false false false false ug cu, Ok tt).
Proof. unfold close_piece. cbn [v_piece]. unfold vthen. rewrite close_element_ok. reflexivity. Qed.
Lemma close_idle out cu : v_close (mkV out false false false false ug cu) = (mkV (out ++ tail_text) true false false false [] cu, Ok tt).
Proof.
  unfold v_close, vthen at 1. rewrite close_data_none. unfold vthen at 1, close_piece at 1. cbn [v_piece]. unfold vthen at 1, ug. rewrite close_element_ok. unfold vthen. rewrite close_element_ok.
  unfold vupd, tail_text. cbn [v_out v_piece v_point v_cell v_elems v_cur length]. now rewrite <- app_assoc.
Qed.
(** Everything that ends a piece: closing the data and the piece first. *)
Lemma new_piece_section b out o t p con off typ : new_piece p con off typ (mkV out false true b (negb b) (sec_tag b :: "Piece" :: ug) (Some (o, t))) =
  new_piece p con off typ (mkV ((out ++ close_tag 3 (sec_tag b)) ++ close_tag 2 "Piece") false false false false ug (Some (o, t))).
Proof.
  unfold new_piece. assert (E : forall A (f : vtu * Res unit -> A) s1 s2, s1 = s2 -> f s1 = f s2) by congruence.
  replace ((close_data;; close_piece;; vupd (set_piece true)) (mkV out false true b (negb b) (sec_tag b :: "Piece" :: ug) (Some (o, t))))
    with ((close_data;; close_piece;; vupd (set_piece true)) (mkV ((out ++ close_tag 3 (sec_tag b)) ++ close_tag 2 "Piece") false false false false ug (Some (o, t)))); [reflexivity|].
  symmetry. unfold vthen at 1. rewrite close_data_section. unfold vthen at 1. rewrite close_piece_open. reflexivity.
Qed.
Lemma new_piece_piece out o t p con off typ : new_piece p con off typ (mkV out false true false false ("Piece" :: ug) (Some (o, t))) =
  new_piece p con off typ (mkV (out ++ close_tag 2 "Piece") false false false false ug (Some (o, t))).
Proof.
  unfold new_piece.
  replace ((close_data;; close_piece;; vupd (set_piece true)) (mkV out false true false false ("Piece" :: ug) (Some (o, t))))
    with ((close_data;; close_piece;; vupd (set_piece true)) (mkV (out ++ close_tag 2 "Piece") false false false false ug (Some (o, t)))); [reflexivity|].
  symmetry. unfold vthen at 1. rewrite close_data_none. unfold vthen at 1. rewrite close_piece_open. reflexivity.
Qed.
Lemma close_section b out o t : v_close (mkV out false true b (negb b) (sec_tag b :: "Piece" :: ug) (Some (o, t))) =
  v_close (mkV ((out ++ close_tag 3 (sec_tag b)) ++ close_tag 2 "Piece") false false false false ug (Some (o, t))).
Proof. unfold v_close at 1, vthen at 1. rewrite close_data_section. unfold vthen at 1. rewrite close_piece_open. reflexivity. Qed.
Lemma close_piece_mode out o t : v_close (mkV out false true false false ("Piece" :: ug) (Some (o, t))) =
  v_close (mkV (out ++ close_tag 2 "Piece") false false false false ug (Some (o, t))).
Proof. unfold v_close at 1, vthen at 1. rewrite close_data_none. unfold vthen at 1. rewrite close_piece_open. reflexivity. Qed.
Lemma open_data_piece (b : bool) out o t : open_data (sec_tag b) (mkV out false true false false ("Piece" :: ug) (Some (o, t))) =
  (mkV (out ++ open_tag 3 (sec_tag b) []) false true b (negb b) (sec_tag b :: "Piece" :: ug) (Some (o, t)), Ok tt).
Proof. unfold open_data. cbn [v_piece]. unfold vthen at 1. rewrite close_data_none. unfold vthen. rewrite open_element_ok. destruct b; reflexivity. Qed.
Lemma open_data_section (b b' : bool) out o t : open_data (sec_tag b') (mkV out false true b (negb b) (sec_tag b :: "Piece" :: ug) (Some (o, t))) =
  (mkV ((out ++ close_tag 3 (sec_tag b)) ++ open_tag 3 (sec_tag b') []) false true b' (negb b') (sec_tag b' :: "Piece" :: ug) (Some (o, t)), Ok tt).
Proof. unfold open_data. cbn [v_piece]. unfold vthen at 1. rewrite close_data_section. unfold vthen. rewrite open_element_ok. destruct b'; reflexivity. Qed.

Lemma run_cons s c cs s' : v_run s (c :: cs) = (s', Ok tt) -> exists s1, v_step s c = (s1, Ok tt) /\ v_run s1 cs = (s', Ok tt).
Proof. cbn [v_run]. destruct (v_step s c) as [s1 [[]|]]; [|discriminate]. intro H. now exists s1. Qed.
Lemma no_more s cs s' : done s -> v_run s cs = (s', Ok tt) -> cs = [].
Proof. intros HD H. destruct cs as [|c cs]; [reflexivity|]. apply run_cons in H as (s1 & E & _). exfalso. apply (done_errors s c HD). now rewrite E. Qed.
Lemma sections_start (b : bool) o t adds xs calls ys : arrays_xml o t adds xs -> sections_xml o t calls ys ->
  sections_xml o t ((if b then StartPointdata else StartCelldata) :: adds ++ calls) (Node (sec_tag b) [] xs :: ys).
Proof. destruct b; intros; now constructor. Qed.
Lemma step_start (b : bool) s : v_step s (if b then StartPointdata else StartCelldata) = open_data (sec_tag b) s.
Proof. now destruct b. Qed.

Theorem run_document cs : forall m out s s', in_mode m out s -> v_run s (cs ++ [CloseFile]) = (s', Ok tt) -> continues m out cs s'.
Proof.
  assert (NP : forall p con o t out cu s1 cs s', v_step (mkV out false false false false ug cu) (NewPiece p con o t) = (s1, Ok tt) ->
     (forall m out s s', in_mode m out s -> v_run s (cs ++ [CloseFile]) = (s', Ok tt) -> continues m out cs s') ->
     v_run s1 (cs ++ [CloseFile]) = (s', Ok tt) -> continues Idle out (NewPiece p con o t :: cs) s').
  { intros p con o t out cu s1 cs0 s' E IH H. cbn [v_step] in E. destruct (new_piece p con o t _) as [[s2 c2] r2] eqn:EP in E. injection E as -> ->.
    destruct (piece_ok out false false cu p con o t s1 c2 EP eq_refl eq_refl) as (con' & ts & xp & xc & xo & xt & H1 & _ & H2 & H3 & H4 & H5 & H6 & ->).
    destruct (IH (InPiece (i_vals o) (i_vals t)) _ _ _ eq_refl H) as (HD & cs1 & cs2 & xs & ps & -> & HS & HP & HO). split; [exact HD|].
    eexists. split; [eapply px_piece; eauto|]. rewrite HO. cbn [map concat render]. rewrite <- !app_assoc. reflexivity. }
  induction cs as [|c cs IH]; intros m out s s' HM H; cbn [app] in H; apply run_cons in H as (s1 & E & H).
  - cbn in H. injection H as <-. destruct m as [|o t|b o t]; cbn [in_mode] in HM.
    + destruct HM as (cu & ->). cbn [v_step] in E. rewrite close_idle in E. apply pair_ok in E. subst s1. split; [repeat split|]. exists []. split; [constructor|reflexivity].
    + subst s. cbn [v_step] in E. rewrite close_piece_mode, close_idle in E. apply pair_ok in E. subst s1. split; [repeat split|]. exists [], [], [], []. repeat split; [constructor|constructor|]. cbn. now rewrite <- !app_assoc.
    + subst s. cbn [v_step] in E. change (if b then "PointData" else "CellData") with (sec_tag b) in E. rewrite close_section, close_idle in E. apply pair_ok in E. subst s1. split; [repeat split|].
      exists [], [], [], [], [], []. repeat split; [constructor|constructor|constructor|]. cbn [v_out map concat app]. now rewrite <- !app_assoc.
  - assert (NOC : c <> CloseFile).
    { intros ->. assert (done s1).
      { destruct m as [|o t|b o t]; cbn [in_mode] in HM; [destruct HM as (cu & ->)|subst s|subst s]; cbn [v_step] in E;
          [rewrite close_idle in E|rewrite close_piece_mode, close_idle in E|change (if b then "PointData" else "CellData") with (sec_tag b) in E; rewrite close_section, close_idle in E]; apply pair_ok in E; subst s1; repeat split. }
      apply no_more in H; [|assumption]. destruct cs; discriminate. }
    destruct m as [|o t|b o t]; cbn [in_mode] in HM.
    + destruct HM as (cu & ->). destruct c as [p con o t| | |a n ns|a n ns|]; try discriminate; [exact (NP _ _ _ _ _ _ _ _ _ E IH H)| |contradiction].
      cbn [v_step] in E. unfold add_data_cellpoints in E. cbn [v_cur] in E. destruct cu as [[o t]|]; [|discriminate].
      destruct (reorder_arr vtk_elemresults a o t) as [a' [[]|e]]; discriminate.
    + subst s. assert (ST : forall b : bool, v_run (fst (open_data (sec_tag b) (mkV out false true false false ("Piece" :: ug) (Some (o, t))))) (cs ++ [CloseFile]) = (s', Ok tt) ->
         continues (InPiece o t) out ((if b then StartPointdata else StartCelldata) :: cs) s').
      { intros b Hb. rewrite open_data_piece in Hb. cbn [fst] in Hb. destruct (IH (InSection b o t) _ _ _ eq_refl Hb) as (HD & cs0 & cs1 & cs2 & ys & xs & ps & -> & HA & HS & HP & HO).
        split; [exact HD|]. exists ((if b then StartPointdata else StartCelldata) :: cs0 ++ cs1), cs2, (Node (sec_tag b) [] ys :: xs), ps.
        split; [cbn; now rewrite <- app_assoc|]. split; [now apply sections_start|]. split; [exact HP|]. rewrite HO. cbn [map concat render]. rewrite <- !app_assoc. reflexivity. }
      destruct c as [p con off typ| | |a n ns|a n ns|]; try discriminate; try contradiction.
      * cbn [v_step] in E. rewrite new_piece_piece in E. destruct (NP _ _ _ _ _ _ _ _ _ E IH H) as (HD & ps & HP & HO). split; [exact HD|].
        exists [], (NewPiece p con off typ :: cs), [], ps. repeat split; [constructor|exact HP|]. rewrite HO. cbn [map concat app]. now rewrite <- !app_assoc.
      * apply (ST true). cbn [v_step] in E. change "PointData" with (sec_tag true) in E. rewrite E. exact H.
      * apply (ST false). cbn [v_step] in E. change "CellData" with (sec_tag false) in E. rewrite E. exact H.
      * cbn [v_step] in E. unfold add_data_cellpoints in E. cbn [v_cur] in E. destruct (reorder_arr vtk_elemresults a o t) as [a' [[]|e]]; discriminate.
    + subst s. change (if b then "PointData" else "CellData") with (sec_tag b) in E.
      assert (ST : forall b' : bool, v_run (fst (open_data (sec_tag b') (mkV out false true b (negb b) (sec_tag b :: "Piece" :: ug) (Some (o, t))))) (cs ++ [CloseFile]) = (s', Ok tt) ->
         continues (InSection b o t) out ((if b' then StartPointdata else StartCelldata) :: cs) s').
      { intros b' Hb. rewrite open_data_section in Hb. cbn [fst] in Hb. destruct (IH (InSection b' o t) _ _ _ eq_refl Hb) as (HD & cs0 & cs1 & cs2 & ys & xs & ps & -> & HA & HS & HP & HO).
        split; [exact HD|]. exists [], ((if b' then StartPointdata else StartCelldata) :: cs0 ++ cs1), cs2, [], (Node (sec_tag b') [] ys :: xs), ps.
        split; [cbn; now rewrite <- app_assoc|]. split; [constructor|]. split; [now apply sections_start|]. split; [exact HP|]. rewrite HO. cbn [map concat render app]. rewrite <- !app_assoc. reflexivity. }
      assert (AD : forall a n ns, negb b && negb (negb b) = false -> forall c0 (sx : xml -> Prop), write_array a n ns (mkV out false true b (negb b) (sec_tag b :: "Piece" :: ug) (Some (o, t))) = (s1, Ok tt) ->
         (forall x ys cs0, array_xml a n ns x -> arrays_xml o t cs0 ys -> arrays_xml o t (c0 :: cs0) (x :: ys)) -> continues (InSection b o t) out (c0 :: cs) s').
      { intros a n ns _ c0 _ W HX. apply write_array_ok in W as (x & X & ->). cbn [length ug] in H.
        destruct (IH (InSection b o t) _ _ _ eq_refl H) as (HD & cs0 & cs1 & cs2 & ys & xs & ps & -> & HA & HS & HP & HO). split; [exact HD|].
        exists (c0 :: cs0), cs1, cs2, (x :: ys), xs, ps. split; [reflexivity|]. split; [now apply HX|]. split; [exact HS|]. split; [exact HP|]. rewrite HO. cbn [map concat]. rewrite <- !app_assoc. reflexivity. }
      destruct c as [p con off typ| | |a n ns|a n ns|]; try contradiction.
      * cbn [v_step] in E. rewrite new_piece_section in E. destruct (NP _ _ _ _ _ _ _ _ _ E IH H) as (HD & ps & HP & HO). split; [exact HD|].
        exists [], [], (NewPiece p con off typ :: cs), [], [], ps. repeat split; [constructor|constructor|exact HP|]. rewrite HO. cbn [map concat app]. now rewrite <- !app_assoc.
      * apply (ST true). cbn [v_step] in E. change "PointData" with (sec_tag true) in E. rewrite E. exact H.
      * apply (ST false). cbn [v_step] in E. change "CellData" with (sec_tag false) in E. rewrite E. exact H.
      * cbn [v_step] in E. unfold add_data in E. cbn [v_point v_cell] in E. assert (EB : negb b && negb (negb b) = false) by now destruct b. rewrite EB in E.
        apply (AD a n ns EB (AddData a n ns) (fun _ => True) E). intros; now constructor.
      * cbn [v_step] in E. unfold add_data_cellpoints in E. cbn [v_cur] in E. destruct (reorder_arr vtk_elemresults a o t) as [a' [[]|e]] eqn:ER; [|discriminate].
        unfold add_data in E. cbn [v_point v_cell] in E. assert (EB : negb b && negb (negb b) = false) by now destruct b. rewrite EB in E.
        destruct (write_array a' n ns _) as [s2 r2] eqn:EW in E. injection E as -> ->.
        apply (AD a' n ns EB (AddCellpoints a n ns) (fun _ => True) EW). intros; econstructor; eauto.
Qed.

Theorem whole_document cs s' : v_run v_init (cs ++ [CloseFile]) = (s', Ok tt) -> exists x, document cs x /\ v_out s' = render 0 x /\ done s'.
Proof.
  intro H. rewrite init_state in H. destruct (run_document cs Idle _ _ s' (ex_intro _ None eq_refl) H) as (HD & ps & HP & HO).
  eexists. split; [exists ps; split; [exact HP|reflexivity]|]. split; [|exact HD]. rewrite HO. cbn [render map concat]. unfold tail_text. rewrite ?app_nil_r, <- !app_assoc. reflexivity.
Qed.
(** The call that closes the file is the last one, and the only one. *)
Theorem one_close cs s s' : v_run v_init cs = (s, Ok tt) -> In CloseFile cs -> v_run v_init cs = (s', Ok tt) -> exists cs0, cs = cs0 ++ [CloseFile] /\ ~ In CloseFile cs0.
Proof.
  intros H HI _. apply in_split in HI as (a & b & ->).
  assert (G : forall cs s s', v_run s cs = (s', Ok tt) -> forall a b, cs = a ++ CloseFile :: b -> exists s1, v_run s (a ++ [CloseFile]) = (s1, Ok tt) /\ v_run s1 b = (s', Ok tt)).
  { clear. intros cs. induction cs as [|c cs IH]; intros s s' H a b E; [destruct a; discriminate|]. apply run_cons in H as (s1 & E1 & H1). destruct a as [|c' a]; injection E as -> ->.
    - exists s1. cbn [app v_run]. rewrite E1. auto.
    - destruct (IH s1 s' H1 a b eq_refl) as (s2 & H2 & H3). exists s2. cbn [app v_run]. rewrite E1. auto. }
  destruct (G _ _ _ H a b eq_refl) as (s1 & H1 & H2). destruct (whole_document a s1 H1) as (x & _ & _ & HD). apply (no_more _ _ _ HD) in H2. subst b.
  exists a. split; [reflexivity|]. intro HI. apply in_split in HI as (a1 & a2 & ->). rewrite <- app_assoc in H1. cbn in H1.
  destruct (G _ _ _ H1 a1 (a2 ++ [CloseFile]) eq_refl) as (s2 & H3 & H4). destruct (whole_document a1 s2 H3) as (_ & _ & _ & HD2). apply (no_more _ _ _ HD2) in H4. destruct a2; discriminate.
Qed.
