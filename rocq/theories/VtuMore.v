(** * VtuMore: XML text of documents, calls in the wrong state, reordering. *)
From Verif Require Import Base DecFacts Vtu VtuSpec VtuText VtuProofs.
From Coq Require Import ZifyBool Permutation.
Open Scope string_scope.
Open Scope Z_scope.
Open Scope list_scope.

(** ** Documents are XML text *)
Lemma good_noattrs : good_attrs []. Proof. split; constructor. Qed.
Lemma arrays_good o t cs xs : arrays_xml o t cs xs -> Forall plain_names cs -> Forall good_xml xs.
Proof.
  induction 1 as [|a n ns x cs xs HX _ IH|a n ns a' x cs xs _ HX _ IH]; intro HF; [constructor| |]; inversion HF as [|? ? H1 H3]; subst; cbn [plain_names] in H1; destruct H1 as [H1 H2];
    (constructor; [now apply array_good in HX|now apply IH]).
Qed.
Lemma sections_good o t cs xs : sections_xml o t cs xs -> Forall plain_names cs -> Forall good_xml xs.
Proof.
  induction 1 as [|adds xs cs ys HA _ IH|adds xs cs ys HA _ IH]; intro HF; [constructor| |]; inversion HF as [|? ? _ H3]; subst; apply Forall_app in H3 as [H3 H4];
    (constructor; [constructor; [now apply xname|exact good_noattrs|now apply arrays_good in HA]|now apply IH]).
Qed.
Lemma pieces_good cs ps : pieces_xml cs ps -> Forall plain_names cs -> Forall good_xml ps.
Proof.
  induction 1 as [|p con o t con' ts xp xc xo xt secs xs cs ys _ _ H1 H2 H3 H4 HS _ IH]; intro HF; [constructor|]. inversion HF as [|? ? _ HF2]; subst. apply Forall_app in HF2 as [HF2 HF3].
  constructor; [|now apply IH]. constructor; [now apply xname| |].
  - split; [repeat constructor; cbn [fst snd]; try (now apply xname); apply num_value; unfold Zlen; lia|]. cbn [map fst]. repeat constructor; cbn [In]; [intros [K|[]]; discriminate|intros []].
  - constructor; [constructor; [now apply xname|exact good_noattrs|]|constructor; [constructor; [now apply xname|exact good_noattrs|]|]].
    + constructor; [|constructor]. now apply array_good in H1.
    + constructor; [now apply array_good in H2|]. constructor; [now apply array_good in H3|]. constructor; [now apply array_good in H4|constructor].
    + now apply sections_good in HS.
Qed.
Lemma document_good cs x : document cs x -> Forall plain_names cs -> good_xml x.
Proof.
  intros (ps & HP & ->) HF. constructor; [now apply xname| |].
  - split; [repeat constructor; cbn [fst snd]; now apply xname|]. cbn [map fst]. repeat constructor; cbn [In]; intuition discriminate.
  - constructor; [|constructor]. constructor; [now apply xname|exact good_noattrs|now apply pieces_good in HP].
Qed.
Theorem output_xml cs s : v_run v_init (cs ++ [CloseFile]) = (s, Ok tt) -> Forall plain_names cs -> xml_document (v_out s).
Proof. intros H HF. destruct (whole_document cs s H) as (x & HD & -> & _). now apply render_document, (document_good cs). Qed.

(** Element text never has more '<' than '>'. *)
Definition cnt (c : ascii) (l : bytes) : nat := count_occ ascii_dec l c.
Lemma cnt_app c a b : cnt c (a ++ b) = (cnt c a + cnt c b)%nat. Proof. apply count_occ_app. Qed.
Lemma cnt_cons c a l : cnt c (a :: l) = ((if ascii_dec a c then 1 else 0) + cnt c l)%nat.
Proof. unfold cnt. cbn [count_occ]. now destruct (ascii_dec a c). Qed.
Lemma cnt_none (p : ascii -> bool) c l : forallb p l = true -> p c = false -> cnt c l = O.
Proof.
  intros H Hc. induction l as [|x l IH]; [reflexivity|]. cbn in H. apply andb_prop in H as [H1 H2]. rewrite cnt_cons, (IH H2). destruct (ascii_dec x c); [congruence|reflexivity].
Qed.
Lemma name_no_lt n : xml_name n -> cnt "<" n = O.
Proof. intros (c & r & -> & H1 & H2). rewrite cnt_cons, (cnt_none name_char "<" r H2 eq_refl). destruct (ascii_dec c "<") as [->|]; [discriminate|reflexivity]. Qed.
Lemma atts_no_lt a ns : attributes a ns -> cnt "<" a = O.
Proof.
  induction 1 as [|n v r ns Hn Hv _ IH]; [reflexivity|]. rewrite !cnt_app, (name_no_lt n Hn), (cnt_none value_char "<" v Hv eq_refl), IH. reflexivity.
Qed.
Scheme element_mut := Induction for element Sort Prop with content_mut := Induction for content Sort Prop.
Lemma element_lt_gt e : element e -> (cnt "<" e <= cnt ">" e)%nat.
Proof.
  intro H. induction H using element_mut with (P0 := fun b _ => (cnt "<" b <= cnt ">" b)%nat).
  - rewrite !cnt_app. rewrite (name_no_lt tag) by assumption. rewrite (atts_no_lt atts ns) by assumption. change (cnt "<" (B "<")) with 1%nat. change (cnt ">" (B "<")) with 0%nat. change (cnt "<" (B ">")) with 0%nat.
    change (cnt ">" (B ">")) with 1%nat. change (cnt "<" (B "</")) with 1%nat. change (cnt ">" (B "</")) with 0%nat. lia.
  - reflexivity.
  - rewrite !cnt_cons. destruct (ascii_dec c "<") as [->|]; [discriminate|]. lia.
  - rewrite !cnt_app. lia.
Qed.
Lemma document_lt_gt t : xml_document t -> (cnt "<" t <= cnt ">" t)%nat.
Proof. intros (e & w & -> & He & Hw). rewrite !cnt_app, (cnt_none white "<" w Hw eq_refl). pose proof (element_lt_gt e He). lia. Qed.

(** ** Where accepted calls lead *)
Definition starts (c : call) : bool := match c with StartPointdata | StartCelldata => true | _ => false end.
Definition new (c : call) : bool := match c with NewPiece _ _ _ _ => true | _ => false end.
Definition follows (cs : list call) (m : mode) : Prop :=
  match m with
  | Idle => forall c, In c cs -> new c = false
  | InPiece o t => exists cs1 p con off typ, cs = cs1 ++ [NewPiece p con off typ] /\ o = i_vals off /\ t = i_vals typ
  | InSection b o t => exists cs1 p con off typ cs2, cs = cs1 ++ NewPiece p con off typ :: cs2 /\ existsb new cs2 = false /\ existsb starts cs2 = true /\ o = i_vals off /\ t = i_vals typ
  end.
Lemma run_snoc cs : forall s c s', v_run s (cs ++ [c]) = (s', Ok tt) -> exists s1, v_run s cs = (s1, Ok tt) /\ v_step s1 c = (s', Ok tt).
Proof.
  induction cs as [|c0 cs IH]; intros s c s' H; cbn [app] in H; apply run_cons in H as (s1 & E & H).
  - cbn in H. apply pair_ok in H. subst s'. exists s. now split.
  - destruct (IH _ _ _ H) as (s2 & H1 & H2). exists s2. split; [|exact H2]. cbn [v_run]. rewrite E. exact H1.
Qed.
Lemma step_new s p con o t s1 m out : in_mode m out s -> v_step s (NewPiece p con o t) = (s1, Ok tt) -> exists out', in_mode (InPiece (i_vals o) (i_vals t)) out' s1.
Proof.
  intros HM E. assert (G : forall out cu, v_step (mkV out false false false false ug cu) (NewPiece p con o t) = (s1, Ok tt) -> exists out', in_mode (InPiece (i_vals o) (i_vals t)) out' s1).
  { clear. intros out cu E. cbn [v_step] in E. destruct (new_piece p con o t _) as [[s2 c2] r2] eqn:EP in E. injection E as -> ->.
    destruct (piece_ok out false false cu p con o t s1 c2 EP eq_refl eq_refl) as (con' & ts & xp & xc & xo & xt & _ & _ & _ & _ & _ & _ & _ & ->). eexists. reflexivity. }
  destruct m as [|o0 t0|b o0 t0]; cbn [in_mode] in HM.
  - destruct HM as (cu & ->). exact (G _ _ E).
  - subst s. cbn [v_step] in E. rewrite new_piece_piece in E. exact (G _ _ E).
  - subst s. cbn [v_step] in E. change (if b then "PointData" else "CellData") with (sec_tag b) in E. rewrite new_piece_section in E. exact (G _ _ E).
Qed.
Lemma reach cs : forall s, v_run v_init cs = (s, Ok tt) -> (In CloseFile cs /\ done s) \/ exists m out, in_mode m out s /\ follows cs m.
Proof.
  induction cs as [|c cs IH] using rev_ind; intros s H.
  - right. exists Idle. cbn [v_run] in H. apply pair_ok in H. subst s. rewrite init_state. eexists. split; [now exists None|]. intros c [].
  - apply run_snoc in H as (s1 & H1 & E). destruct (IH s1 H1) as [[_ HD]|(m & out & HM & HF)]; [exfalso; apply (done_errors s1 c HD); now rewrite E|].
    assert (OD : forall b : bool, c = (if b then StartPointdata else StartCelldata) -> exists m' out', in_mode m' out' s /\ follows (cs ++ [c]) m').
    { intros b ->. rewrite step_start in E. destruct m as [|o t|b0 o t]; cbn [in_mode] in HM.
      - destruct HM as (cu & ->). discriminate.
      - subst s1. rewrite open_data_piece in E. apply pair_ok in E. subst s. exists (InSection b o t). eexists. split; [reflexivity|]. destruct HF as (cs1 & p & con & off & typ & -> & -> & ->).
        exists cs1, p, con, off, typ, [if b then StartPointdata else StartCelldata]. split; [now rewrite <- app_assoc|]. split; [now destruct b|]. split; [now destruct b|]. now split.
      - subst s1. change (if b0 then "PointData" else "CellData") with (sec_tag b0) in E. rewrite open_data_section in E. apply pair_ok in E. subst s. exists (InSection b o t). eexists. split; [reflexivity|].
        destruct HF as (cs1 & p & con & off & typ & cs2 & -> & H2 & H3 & -> & ->).
        exists cs1, p, con, off, typ, (cs2 ++ [if b then StartPointdata else StartCelldata]). split; [now rewrite <- app_assoc|]. split; [rewrite existsb_app, H2; now destruct b|]. split; [rewrite existsb_app, H3; reflexivity|]. now split. }
    assert (AD : forall a n ns, add_data a n ns s1 = (s, Ok tt) -> new c = false -> exists m' out', in_mode m' out' s /\ follows (cs ++ [c]) m').
    { clear E. intros a n ns E Hn. destruct m as [|o t|b0 o t]; cbn [in_mode] in HM; [destruct HM as (cu & ->); discriminate|subst s1; discriminate|]. subst s1. unfold add_data in E. cbn [v_point v_cell] in E.
      assert (EB : negb b0 && negb (negb b0) = false) by now destruct b0. rewrite EB in E. apply write_array_ok in E as (x & _ & ->). exists (InSection b0 o t). eexists. split; [reflexivity|].
      destruct HF as (cs1 & p & con & off & typ & cs2 & -> & H2 & H3 & -> & ->). exists cs1, p, con, off, typ, (cs2 ++ [c]). split; [now rewrite <- app_assoc|]. rewrite !existsb_app, H2, H3. cbn [existsb]. rewrite Hn. now repeat split. }
    destruct c as [p con o t| | |a n ns|a n ns|].
    + right. destruct (step_new _ _ _ _ _ _ _ _ HM E) as (out' & HM'). exists (InPiece (i_vals o) (i_vals t)), out'. split; [exact HM'|]. now exists cs, p, con, o, t.
    + right. now apply (OD true).
    + right. now apply (OD false).
    + right. now apply (AD a n ns).
    + right. cbn [v_step] in E. unfold add_data_cellpoints in E. destruct (v_cur s1) as [[o t]|]; [|discriminate]. destruct (reorder_arr vtk_elemresults a o t) as [a' [[]|e]]; [|discriminate].
      destruct (add_data a' n ns s1) as [s2 r2] eqn:EA. injection E as -> ->. now apply (AD a' n ns).
    + left. split; [apply in_or_app; right; now left|]. destruct (whole_document cs s) as (_ & _ & _ & HD); [|exact HD].
      clear -H1 E. revert H1 E. generalize v_init. induction cs as [|c cs IH]; intros s0 H1 E; [cbn [app v_run] in *; apply pair_ok in H1; subst s1; rewrite E; reflexivity|].
      apply run_cons in H1 as (s2 & E2 & H2). cbn [app v_run]. rewrite E2. now apply IH.
Qed.
(** Sections need a piece, data need a section. *)
Theorem start_needs_piece cs s : v_run v_init cs = (s, Ok tt) -> existsb new cs = false -> v_step s StartPointdata = (s, Err VtkError) /\ v_step s StartCelldata = (s, Err VtkError).
Proof.
  intros H HN. assert (P : v_piece s = false).
  { destruct (reach cs s H) as [[_ HD]|(m & out & HM & HF)]; [apply HD|]. destruct m as [|o t|b o t]; [destruct HM as (cu & ->); reflexivity| |]; exfalso.
    - destruct HF as (cs1 & p & con & off & typ & -> & _). rewrite existsb_app in HN. cbn in HN. now rewrite orb_true_r in HN.
    - destruct HF as (cs1 & p & con & off & typ & cs2 & -> & _). rewrite existsb_app in HN. cbn in HN. now rewrite orb_true_r in HN. }
  cbn [v_step]. unfold open_data. rewrite P. now split.
Qed.
Theorem start_after_close cs s : v_run v_init (cs ++ [CloseFile]) = (s, Ok tt) -> v_step s StartPointdata = (s, Err VtkError) /\ v_step s StartCelldata = (s, Err VtkError).
Proof. intro H. destruct (whole_document cs s H) as (_ & _ & _ & (_ & HP & _)). cbn [v_step]. unfold open_data. rewrite HP. now split. Qed.
(** No section since the last new piece (or the start). *)
Definition no_section (cs : list call) : Prop :=
  existsb starts cs = false \/ (exists cs1 p con off typ cs2, cs = cs1 ++ NewPiece p con off typ :: cs2 /\ existsb starts cs2 = false) \/ In CloseFile cs.
Lemma no_section_flags cs s : v_run v_init cs = (s, Ok tt) -> no_section cs -> v_point s = false /\ v_cell s = false.
Proof.
  intros H HN. destruct (reach cs s H) as [[_ HD]|(m & out & HM & HF)]; [split; apply HD|]. destruct m as [|o t|b o t]; [destruct HM as (cu & ->); now split|cbn in HM; subst s; now split|].
  exfalso. destruct HF as (cs1 & p & con & off & typ & cs2 & -> & H2 & H3 & _). destruct HN as [HN|[(cs3 & p' & con' & off' & typ' & cs4 & E & HN)|HC]].
  - rewrite existsb_app in HN. cbn in HN. rewrite H3 in HN. now rewrite orb_true_r in HN.
  - (* the last piece is the same *)
    assert (G : forall (a a' : list call) x x' b b', new x = true -> new x' = true -> existsb new b = false -> a ++ x :: b = a' ++ x' :: b' -> existsb starts b' = false -> existsb starts b = true -> False).
    { clear. induction a as [|y a IH]; intros a' x x' b b' Hx Hx' Hb E Hs Hs2; destruct a' as [|y' a']; cbn in E.
      - injection E as _ ->. congruence.
      - injection E as _ ->. rewrite existsb_app in Hb. cbn in Hb. rewrite Hx' in Hb. now rewrite orb_true_r in Hb.
      - injection E as -> <-. rewrite existsb_app in Hs. cbn in Hs. rewrite Hs2 in Hs. now rewrite !orb_true_r in Hs.
      - injection E as _ E. exact (IH a' x x' b b' Hx Hx' Hb E Hs Hs2). }
    eapply G; [| |exact H2|exact E|exact HN|exact H3]; reflexivity.
  - destruct (one_close _ _ _ H HC H) as (cs0 & E & _).
    assert (K : forall (l l' : list call) x, l = l' ++ [x] -> v_run v_init l = (s, Ok tt) -> x = CloseFile -> done s) by (intros l l' x -> HR ->; now destruct (whole_document l' s HR) as (_ & _ & _ & D)).
    pose proof (K _ _ _ E H eq_refl) as (_ & D & _). cbn in HM. subst s. discriminate.
Qed.
Theorem data_needs_section cs s a n ns : v_run v_init cs = (s, Ok tt) -> no_section cs -> v_step s (AddData a n ns) = (s, Err VtkError).
Proof. intros H HN. destruct (no_section_flags cs s H HN) as [H1 H2]. cbn [v_step]. unfold add_data. now rewrite H1, H2. Qed.
Theorem cellpoints_need_section cs s a n ns : v_run v_init cs = (s, Ok tt) -> no_section cs -> exists e, v_step s (AddCellpoints a n ns) = (s, Err e) /\
  ((exists cs1 p con off typ cs2 a', cs = cs1 ++ NewPiece p con off typ :: cs2 /\ existsb new cs2 = false /\ reorder_arr vtk_elemresults a (i_vals off) (i_vals typ) = (a', Ok tt)) -> ~ In CloseFile cs -> e = VtkError).
Proof.
  intros H HN. destruct (no_section_flags cs s H HN) as [H1 H2]. cbn [v_step]. unfold add_data_cellpoints. destruct (v_cur s) as [[o t]|] eqn:EC.
  - destruct (reorder_arr vtk_elemresults a o t) as [a' r] eqn:ER. destruct r as [[]|e].
    + unfold add_data. rewrite H1, H2. cbn. exists VtkError. now split.
    + exists e. split; [reflexivity|]. intros (cs1 & p & con & off & typ & cs2 & a2 & -> & HB & HR) HC. exfalso.
      destruct (reach _ s H) as [[K _]|(m & out & HM & HF)]; [contradiction|]. destruct m as [|o0 t0|b o0 t0].
      * specialize (HF (NewPiece p con off typ)). rewrite in_app_iff in HF. cbn in HF. assert (true = false) by (apply HF; right; now left). discriminate.
      * destruct HF as (cs3 & p' & con' & off' & typ' & E & -> & ->). cbn in HM. subst s. cbn in EC. injection EC as <- <-.
        destruct cs2 as [|c2 cs2] using rev_ind; [apply app_inj_tail in E as [_ E]; injection E as -> -> -> ->; congruence|].
        rewrite app_comm_cons, app_assoc in E. apply app_inj_tail in E as [_ ->]. rewrite existsb_app in HB. cbn in HB. now rewrite orb_true_r in HB.
      * cbn in HM. subst s. cbn in H1, H2. destruct b; discriminate.
  - exists TypeError. split; [reflexivity|]. intros (cs1 & p & con & off & typ & cs2 & a2 & -> & HB & HR) HC. exfalso.
    destruct (reach _ s H) as [[K _]|(m & out & HM & HF)]; [contradiction|]. destruct m as [|o0 t0|b o0 t0]; [|cbn in HM; subst s; discriminate|cbn in HM; subst s; discriminate].
    specialize (HF (NewPiece p con off typ)). rewrite in_app_iff in HF. cbn in HF. assert (true = false) by (apply HF; right; now left). discriminate.
Qed.
Theorem nothing_after_close cs s c : v_run v_init (cs ++ [CloseFile]) = (s, Ok tt) -> exists e, snd (v_step s c) = Err e.
Proof.
  intro H. destruct (whole_document cs s H) as (_ & _ & _ & HD). pose proof (done_errors s c HD). destruct (snd (v_step s c)) as [[]|e]; [contradiction|now exists e].
Qed.

(** ** Reordering *)
Lemma rmap_pyget {R} (seg : list R) ind : (forall i, In i ind -> (i < length seg)%nat) -> exists seg', rmap (pyget seg) ind = Ok seg' /\ pick_at ind seg seg'.
Proof.
  unfold pick_at. induction ind as [|i ind IH]; intro H; [exists []; now split|]. destruct IH as (r & E & P); [intros j Hj; apply H; now right|].
  cbn [rmap]. unfold pyget at 1. destruct (nth_error seg i) as [x|] eqn:Ex; [|apply nth_error_None in Ex; specialize (H i (or_introl eq_refl)); lia].
  cbn [rbind]. rewrite E. exists (x :: r). cbn. rewrite P, Ex. now split.
Qed.
Lemma slice_mid {R} (pre seg post : list R) : slice (Zlen pre) (Zlen pre + Zlen seg) (pre ++ seg ++ post) = seg.
Proof.
  unfold slice, clamp, Zlen. rewrite !app_length, !Nat2Z.inj_add. destruct (Z.ltb_spec (Z.of_nat (length pre)) 0); [lia|]. destruct (Z.ltb_spec (Z.of_nat (length pre) + Z.of_nat (length seg)) 0); [lia|].
  rewrite !Z.min_l by lia. replace (Z.to_nat (Z.of_nat (length pre) + Z.of_nat (length seg) - Z.of_nat (length pre))) with (length seg) by lia. rewrite Nat2Z.id.
  rewrite skipn_app, skipn_all, Nat.sub_diag. cbn [app skipn]. rewrite firstn_app, firstn_all, Nat.sub_diag. cbn [firstn]. now rewrite app_nil_r.
Qed.
Definition fits (tbl : Z -> option (list nat)) {R} (t : Z) (seg : list R) : Prop :=
  match tbl t with Some ind => length seg = length ind /\ forall i, In i ind -> (i < length seg)%nat | None => True end.
Definition moved (tbl : Z -> option (list nat)) {R} (t : Z) (seg seg' : list R) : Prop :=
  match tbl t with Some ind => pick_at ind seg seg' | None => seg' = seg end.
Lemma pick_length {R} ind (seg seg' : list R) : pick_at ind seg seg' -> length seg' = length ind.
Proof. unfold pick_at. intro H. apply (f_equal (@length _)) in H. now rewrite !map_length in H. Qed.
Lemma reorder_ok {R} tbl ts : forall (segs : list (list R)) pre post, Forall2 (fits tbl) ts segs ->
  exists segs', reorder tbl (Zlen pre) (combine (ends (Zlen pre) segs) ts) (pre ++ concat segs ++ post) = (pre ++ concat segs' ++ post, Ok tt) /\
    Forall2 (fun ts seg' => moved tbl (fst ts) (snd ts) seg') (combine ts segs) segs' /\ map (@length R) segs' = map (@length R) segs.
Proof.
  induction ts as [|t ts IH]; intros segs pre post HF; inversion HF as [|? seg ? segs0 H1 H2]; subst.
  - exists []. cbn. now repeat split.
  - cbn [ends combine concat reorder]. unfold fits in H1. destruct (tbl t) as [ind|] eqn:Et.
    + destruct H1 as [HL HB]. rewrite <- app_assoc, slice_mid. destruct (rmap_pyget seg ind HB) as (seg' & E & P). rewrite E.
      pose proof (pick_length _ _ _ P) as PL. rewrite PL, HL, Nat.eqb_refl.
      assert (EL : Z.to_nat (clamp (Zlen (pre ++ seg ++ concat segs0 ++ post)) (Zlen pre)) = length pre).
      { unfold clamp, Zlen. rewrite !app_length, !Nat2Z.inj_add. destruct (Z.ltb_spec (Z.of_nat (length pre)) 0); [lia|]. rewrite Z.min_l by lia. apply Nat2Z.id. }
      rewrite EL. rewrite firstn_app, firstn_all, Nat.sub_diag. cbn [firstn]. rewrite app_nil_r.
      rewrite <- HL. rewrite <- app_length, (app_assoc pre seg). rewrite skipn_app, skipn_all, Nat.sub_diag. cbn [app skipn].
      assert (ZE : Zlen pre + Zlen seg = Zlen (pre ++ seg')) by (unfold Zlen; rewrite app_length, Nat2Z.inj_add, PL, HL; reflexivity). rewrite ZE.
      destruct (IH segs0 (pre ++ seg') post H2) as (segs' & ER & EM & EL2). exists (seg' :: segs'). cbn [concat]. repeat rewrite <- app_assoc in ER. repeat rewrite <- app_assoc. rewrite ER. split; [repeat rewrite <- app_assoc; reflexivity|]. split.
      * constructor; [unfold moved; cbn [fst snd]; now rewrite Et|exact EM].
      * cbn [map]. rewrite EL2, PL, HL. reflexivity.
    + assert (ZE : Zlen pre + Zlen seg = Zlen (pre ++ seg)) by (unfold Zlen; rewrite app_length, Nat2Z.inj_add; reflexivity). rewrite ZE.
      destruct (IH segs0 (pre ++ seg) post H2) as (segs' & ER & EM & EL2). exists (seg :: segs'). cbn [concat]. repeat rewrite <- app_assoc in ER. repeat rewrite <- app_assoc. rewrite ER. split; [repeat rewrite <- app_assoc; reflexivity|]. split.
      * constructor; [unfold moved; cbn [fst snd]; now rewrite Et|exact EM].
      * cbn [map]. now rewrite EL2.
Qed.
Ltac list_of n seg := (* a list of n elements *) repeat (destruct seg as [|? seg]; [discriminate|]); destruct seg; [|discriminate].
Lemma pick_perm {R} ind (seg seg' : list R) : Permutation ind (seq 0 (length seg)) -> pick_at ind seg seg' -> Permutation seg seg'.
Proof.
  unfold pick_at. intros HP HK. apply (Permutation_map (nth_error seg)) in HP. rewrite <- HK in HP.
  assert (E : map (nth_error seg) (seq 0 (length seg)) = map Some seg).
  { clear. induction seg as [|x seg IH]; [reflexivity|]. cbn [length seq map nth_error]. f_equal. rewrite <- seq_shift, map_map. exact IH. }
  rewrite E in HP. apply Permutation_map_inv in HP as (l & E2 & HP).
  assert (seg' = l) as ->; [|exact HP].
  clear -E2. revert seg' E2. induction l as [|x l IH]; intros [|y r] E2; cbn in E2; try discriminate; [reflexivity|]. injection E2 as -> E2. f_equal. now apply IH.
Qed.
(** The order of repeated reordering. *)
Definition iter_rows {R} (tbl : Z -> option (list nat)) (os ts : list Z) : nat -> list R -> list R :=
  fix go k rows := match k with O => rows | S j => go j (fst (reorder tbl 0 (combine os ts) rows)) end.
