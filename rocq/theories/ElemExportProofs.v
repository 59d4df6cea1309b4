(** * ElemExportProofs: the VTK file shows the element results. *)
From Coq Require Import Field_theory.
From Verif Require Import Base ListFacts Flt H5 Schema Data Struc SeqSpec FileSpec StrucSpec StrucGet StrucRes SaysSpec SaysGives Nd NdProofs Elem ElemSpec ElemResSpec ElemValuesSpec Props_Elem Props_ElemValues
  Vtu VtuSpec VtuText VtuReorder Export ExportSpec ExportItems ExportRun ExportNumbers ExportProofs ElemExport ElemExportSpec.
Open Scope string_scope.
Open Scope Z_scope.
Open Scope list_scope.

(** ** The mesh *)
Lemma front_back {A} (a b c d : list A) : length a = length b -> a ++ c = b ++ d -> a = b /\ c = d.
Proof. revert b. induction a as [|x a IH]; intros [|y b] L E; try discriminate; [now split|]. injection E as -> E. injection L as L. destruct (IH b L E) as [-> ->]. now split. Qed.
Lemma drawn_any e l l' : drawn e -> in_given_order (el_typ e) l l' -> in_vtk_order (el_typ e) l l'.
Proof.
  intros D%drawn_26. unfold in_given_order, in_vtk_order. destruct (Z.eqb_spec (el_typ e) 26) as [E|_]; [now elim D|]. rewrite orb_false_r. auto.
Qed.
Lemma own_points_ok (es : list melem) cons cells : Forall drawn es ->
  Forall2 (fun e c => vtk_cell (el_typ e) (fst c)) es cells -> Forall2 (fun (e : melem) (c : list Z) => length c = length (el_nodes e)) es cons ->
  Forall2 (fun ec c => in_given_order (el_typ (fst ec)) (snd ec) (snd c)) (combine es cons) cells ->
  forall k n, concat cons = map Z.of_nat (seq k n) -> own_points k es cells.
Proof.
  intros HD H1 H2. revert cells HD H1. induction H2 as [|e c es cons L _ IH]; intros cells HD H1 H3 k n E; inversion H1; subst; [constructor|]. cbn [combine] in H3. inversion H3; subst. inversion HD; subst.
  cbn [concat] in E. assert (LN : (length c <= n)%nat). { apply (f_equal (@length Z)) in E. rewrite app_length, map_length, seq_length in E. lia. }
  replace n with (length c + (n - length c))%nat in E by lia. rewrite seq_app, map_app in E.
  assert (EC : c = map Z.of_nat (seq k (length c)) /\ concat cons = map Z.of_nat (seq (k + length c) (n - length c))). { apply front_back; [now rewrite map_length, seq_length|exact E]. }
  destruct EC as [EC ER]. constructor; [assumption| |].
  - rewrite <- L, <- EC. now apply drawn_any.
  - rewrite <- L. now apply (IH l' ) with (n := (n - length c)%nat).
Qed.

(** ** The arrays *)
Lemma rows_exist {A} c n (l : list A) : length l = (n * c)%nat -> exists rows, concat rows = l /\ length rows = n /\ Forall (fun r => length r = c) rows.
Proof.
  revert l. induction n as [|n IH]; intros l L.
  - destruct l; [|discriminate]. exists []. now repeat split.
  - cbn [Nat.mul] in L. destruct (IH (skipn c l)) as (rows & E & LR & FR). { rewrite skipn_length. lia. }
    exists (firstn c l :: rows). cbn [concat length]. rewrite E, firstn_skipn. split; [reflexivity|]. split; [congruence|]. constructor; [|exact FR]. rewrite firstn_length. lia.
Qed.
Section Arrays.
  Context {F : Type}.
  Variable t : dtype F.
  Lemma arr_rows np c (rows : list (list F)) : (0 < c)%nat -> Forall (fun r => length r = c) rows ->
    elem_arr t (mkNd [np; c] (concat rows)) = mkA (dt_name t) (dt_size t) [c] (map (map (dt_item t)) rows).
  Proof. intros P H. unfold elem_arr. cbn [n_shape n_flat prod fold_right]. rewrite Nat.mul_1_r. now rewrite chunks_concat. Qed.
  Lemma surface_rows np k c i (rows : list (list F)) : (0 < k * c)%nat -> Forall (fun r => length r = (k * c)%nat) rows -> (i < k)%nat ->
    surface i (mkNd [np; k; c] (concat rows)) = Ok (mkNd [np; c] (concat (map (on_surface (Some i) c) rows))).
  Proof.
    intros P H L. unfold surface. cbn [n_shape n_flat prod fold_right]. destruct (Nat.ltb_spec i k); [|lia]. rewrite Nat.mul_1_r. rewrite chunks_concat by assumption. now rewrite flat_map_concat_map.
  Qed.
  Lemma surface_length k c i (r : list F) : length r = (k * c)%nat -> (i < k)%nat -> length (on_surface (Some i) c r) = c.
  Proof. intros L H. cbn [on_surface]. rewrite firstn_length, skipn_length, L. pose proof (Nat.mul_le_mono_r (S i) k c H). cbn [Nat.mul] in *. lia. Qed.
  Variables (sz : nat) (vt : string).
  Hypothesis HT : In (dt_name t, dt_size t, vt) [("float32", 4%nat, "Float32"); ("float64", 8%nat, "Float64")].
  Hypothesis HI : forall v, length (dt_item t v) = dt_size t.
  Lemma fine_items c rows : Zlen rows < 2147483648 -> (c <= 8)%nat -> fine (mkA (dt_name t) (dt_size t) [c] (map (map (dt_item t)) rows)).
  Proof.
    intros H L. split; [right; now eexists|]. cbn [a_dtype]. split.
    - destruct HT as [E|[E|[]]]; injection E as <- _ _; eexists; reflexivity.
    - unfold a_size. cbn [a_rows a_tail a_isize prod fold_right]. rewrite map_length, Nat.mul_1_r. unfold Zlen in H. change (2 ^ 64) with 18446744073709551616.
      assert (SB : (dt_size t <= 8)%nat) by (destruct HT as [E|[E|[]]]; injection E as _ <- _; lia).
      assert (Z.of_nat c * Z.of_nat (dt_size t) <= 64) by nia. nia.
  Qed.
  Lemma item_array_ok c rows name x : Forall (fun r => length r = c) rows ->
    array_xml (mkA (dt_name t) (dt_size t) [c] (map (map (dt_item t)) rows)) name [] x -> item_array vt (dt_item t) name c rows x.
  Proof.
    intros HL (vn & nc & header & payload & N & T & E & D & L & U). cbn [a_dtype a_tail a_rows] in *.
    assert (vn = vt). { destruct HT as [Q|[Q|[]]]; injection Q as Q1 _ <-; rewrite <- Q1 in N; [now apply vtk_float32|now apply vtk_float64]. } subst vn.
    destruct T as [[T _]|T]; [discriminate|]. injection T as <-. split; [|exact HL].
    assert (EQ : concat (concat (map (map (dt_item t)) rows)) = flat_map (dt_item t) (concat rows)) by (now rewrite flat_map_concat_map, concat_map).
    rewrite EQ in *. exists header, payload. cbn [numbered app] in E. rewrite ?app_nil_r in E. split; [exact E|]. split; [exact D|]. split; [exact L|]. apply U.
    unfold VtuSpec.shaped. cbn [a_rows a_tail a_isize]. apply Forall_map. eapply Forall_impl; [|exact HL]. cbv beta. intros r Hr. split; [rewrite map_length, Hr; cbn [prod fold_right]; lia|].
    apply Forall_map. apply Forall_forall. intros v _. apply HI.
  Qed.
End Arrays.

(** ** One field *)
Section Field.
  Context {F : Type}.
  Variables (zero one : F) (add mul sub : F -> F -> F) (opp : F -> F) (div : F -> F -> F) (inv : F -> F) (s3 : F) (num : cell -> F).
  Hypothesis HN : numbers_with_root3 zero one add mul sub opp div inv s3.
  Notation call_ := (elem_call zero one add mul sub opp div s3 num).
  Lemma one_block (q : esource F) : (exists l1 vs l2, es_blocks q = l1 ++ (rf_ires (es_ref q), vs) :: l2 /\ ~ In (rf_ires (es_ref q)) (map fst (l1 ++ l2))) ->
    filter (fun i => zmem i (map rf_ires [es_ref q])) (map fst (es_blocks q)) = map rf_ires [es_ref q].
  Proof.
    intros (l1 & vs & l2 & E & N). rewrite E. set (i := rf_ires (es_ref q)) in *. cbn [map]. fold i. rewrite map_app. cbn [map fst]. rewrite filter_app. cbn [filter].
    assert (Z0 : forall l : list eblock, ~ In i (map fst l) -> filter (fun z => zmem z [i]) (map fst l) = []).
    { clear. induction l as [|b l IH]; intro N; [reflexivity|]. cbn [map filter zmem existsb]. destruct (Z.eqb_spec (fst b) i) as [Q|_]; [elim N; now left|]. cbn [orb]. apply IH. intro. apply N. now right. }
    rewrite map_app in N. rewrite !Z0 by (intro; apply N; apply in_or_app; tauto). cbn [zmem existsb app]. now rewrite Z.eqb_refl.
  Qed.
  Lemma that_block (q : esource F) l1 vs l2 b : es_blocks q = l1 ++ (rf_ires (es_ref q), vs) :: l2 -> ~ In (rf_ires (es_ref q)) (map fst (l1 ++ l2)) ->
    In b (es_blocks q) -> fst b = rf_ires (es_ref q) -> snd b = vs.
  Proof.
    intros E N HB EB. rewrite E in HB. rewrite map_app in N. apply in_app_or in HB as [HB|[HB|HB]].
    - elim N. apply in_or_app. left. rewrite <- EB. now apply in_map.
    - now subst b.
    - elim N. apply in_or_app. right. rewrite <- EB. now apply in_map.
  Qed.
  Lemma shape_bound (q : esource F) (e : melem) len : In (ef_type (es_fld q)) (map fst result_kinds) ->
    In (el_typ e, (len, length (el_nodes e), es_shape q)) (elem_sizes (ef_type (es_fld q))) ->
    match ef_surface (es_fld q) with None => es_shape q = [es_comps q] | Some i => exists k, es_shape q = [k; es_comps q] /\ (i < k)%nat end ->
    (0 < es_comps q <= 8)%nat.
  Proof.
    intros _ H S. assert (In (es_shape q) [[6]; [8]; [2; 3]; [2; 5]]%nat).
    { unfold elem_sizes in H. destruct (String.eqb _ "beamforce"); [|destruct (String.eqb _ "generalstress")]; cbn [In] in H; intuition match goal with H : (_, _) = _ |- _ => injection H as _ _ _ <- end; cbn; tauto. }
    destruct (ef_surface (es_fld q)); [destruct S as (k & S & _)|]; rewrite S in H0; cbn [In] in H0; intuition match goal with H : _ :: _ = _ |- _ => first [discriminate H | injection H as <- <- | injection H as <-] end; lia.
  Qed.
  Theorem elem_field h o segs ns es rs nms ms sets kind idx q :
    gives_element_results F zero one add mul sub opp div s3 num h o segs -> mesh_on segs ns es -> refs_on segs rs ->
    proper_on segs es nms ms sets kind -> selected es nms ms sets kind idx -> pick es idx <> [] -> esource_on segs es rs idx kind q ->
    exists rows : list (list (list F)),
      let R := map (on_surface (ef_surface (es_fld q)) (es_comps q)) (concat rows) in
      call_ h o sets (es_fld q) = Ok (AddData (mkA (dt_name (ef_dtype (es_fld q))) (dt_size (ef_dtype (es_fld q))) [es_comps q] (map (map (dt_item (ef_dtype (es_fld q)))) R)) (ef_name (es_fld q)) []) /\
      Forall (fun r => length r = es_comps q) R /\ length R = length (flat_map el_nodes (pick es idx)) /\ (es_comps q <= 8)%nat /\
      Forall2 (fun j r => exists e b v w, nth_error es j = Some e /\ In b (es_blocks q) /\ fst b = rf_ires (es_ref q) /\ In (j, v) (snd b) /\ numbers 0 v w /\
        length r = length (el_nodes e) /\ Forall (fun p => length p = fold_right Nat.mul 1%nat (es_shape q)) r /\
        node_values zero one add mul sub opp div s3 (el_typ e) (ef_type (es_fld q)) (map num w) (concat r)) idx rows.
  Proof.
    intros HG HM HR HP HS HI (T1 & T2 & T3 & T4 & T5 & (l1 & vs & l2 & B1 & B2 & B3) & T7 & T8 & T9 & T10).
    assert (HX : idx <> []) by (intros ->; now apply HI).
    destruct (C65_file F zero one add mul sub opp div inv s3 num h o segs ns es rs nms ms sets (ef_type (es_fld q)) (es_rn q) (es_cn q) kind idx (es_blocks q) (ef_run (es_fld q)) (es_cs q) (ef_cases (es_fld q)) [es_ref q] 0 (es_shape q) HN HG HM HR T1 HP HS HX T2 T3 T4) as (parts & E & HF).
    - discriminate.
    - repeat constructor. intros [].
    - intros r [<-|[]]. exact T5.
    - apply one_block. exists l1, vs, l2. now split.
    - intros b HB [EB|[]]. symmetry in EB. now rewrite (that_block q l1 vs l2 b B1 B2 HB EB).
    - intros j e Hj He. destruct (T7 j e Hj He) as (len & L1 & L2). exists len. split; [exact L1|]. intros b v HB [EB|[]]. apply L2; congruence.
    - inversion HF as [|r0 ps l l' HF1 HF2 EA EB]; subst. inversion HF2; subst. clear HF HF2.
      assert (BD : (0 < es_comps q <= 8)%nat).
      { destruct (pick es idx) as [|e E0] eqn:EP; [now elim HI|]. assert (He : In e (pick es idx)) by (rewrite EP; now left). unfold pick in He. apply in_flat_map in He as (j & Hj & He).
        destruct (nth_error es j) as [e'|] eqn:EN; [|destruct He]. destruct He as [->|[]]. destruct (T7 j e Hj EN) as (len & L1 & _). exact (shape_bound q e len (in_map fst _ _ T1) L1 T8). }
      set (c := es_comps q) in *. set (W := fold_right Nat.mul 1%nat (es_shape q)) in *.
      assert (HW : exists rows, ps = map (@concat F) rows /\ Forall2 (fun j r => exists e b v w, nth_error es j = Some e /\ In b (es_blocks q) /\ fst b = rf_ires (es_ref q) /\ In (j, v) (snd b) /\ numbers 0 v w /\
        length r = length (el_nodes e) /\ Forall (fun p => length p = W) r /\
        node_values zero one add mul sub opp div s3 (el_typ e) (ef_type (es_fld q)) (map num w) (concat r)) idx rows).
      { clear - HF1. induction HF1 as [|j out idx ps (e & b & v & w & H1 & H2 & H3 & H4 & H5 & H6 & H7) _ (rows & -> & IH)]; [exists []; split; [reflexivity|constructor]|].
        destruct (rows_exist W (length (el_nodes e)) out H7) as (r & Er & Lr & Fr). subst out. exists (r :: rows). split; [reflexivity|]. constructor; [|exact IH]. exists e, b, v, w. repeat (split; [assumption|]). exact H6. }
      destruct HW as (rows & -> & HR2). exists rows. cbv zeta.
      assert (FW : Forall (fun r => length r = W) (concat rows)). { clear - HR2. induction HR2 as [|j r idx rows (e & b & v & w & _ & _ & _ & _ & _ & _ & H & _) _ IH]; cbn [concat]; [constructor|]. apply Forall_app. now split. }
      assert (LR : length (concat rows) = length (flat_map el_nodes (pick es idx))).
      { clear - HR2. unfold pick. induction HR2 as [|j r idx rows (e & b & v & w & HE & _ & _ & _ & _ & H & _) _ IH]; [reflexivity|]. cbn [concat flat_map]. rewrite HE, flat_map_app, !app_length. cbn [flat_map]. rewrite app_nil_r. congruence. }
      assert (EF : concat (map (@concat F) [map (@concat F) rows]) = concat (concat rows)). { cbn [map concat]. rewrite app_nil_r. clear. induction rows as [|r rows IH]; [reflexivity|]. cbn [map concat]. now rewrite concat_app, IH. }
      rewrite EF in E. clear EF. cbn [length with_cases] in E.
      assert (FC : Forall (fun r => length r = c) (map (on_surface (ef_surface (es_fld q)) c) (concat rows))).
      { apply Forall_map. eapply Forall_impl; [|exact FW]. cbv beta. intros r Hr. unfold W in Hr. destruct (ef_surface (es_fld q)) as [i|].
        - destruct T8 as (k & S1 & S2). rewrite S1 in Hr. cbn [fold_right] in Hr. rewrite Nat.mul_1_r in Hr. now apply (surface_length k).
        - rewrite T8 in Hr. cbn [fold_right] in Hr. cbn [on_surface]. unfold c. lia. }
      split; [|split; [exact FC|split; [now rewrite map_length|split; [apply BD|exact HR2]]]].
      unfold elem_call. rewrite E. cbn [rbind]. unfold W in FW. destruct (ef_surface (es_fld q)) as [i|].
      + destruct T8 as (k & S1 & S2). rewrite S1 in *. cbn [fold_right] in FW. rewrite Nat.mul_1_r in FW. fold c in FW. fold c. unfold with_cases. rewrite surface_rows; [|nia|exact FW|exact S2]. cbn [rbind].
        rewrite arr_rows; [reflexivity|apply BD|exact FC].
      + rewrite T8 in *. fold c. fold c in FW. cbn [fold_right] in FW. rewrite Nat.mul_1_r in FW. cbn [rbind]. unfold with_cases. rewrite arr_rows; [|apply BD|exact FW].
        do 3 f_equal. rewrite map_id. reflexivity.
  Qed.
End Field.

(** ** The file *)
Theorem elem_exported (F : Type) (zero one : F) add mul sub opp div inv s3 (num : cell -> F) h o segs cw ow ns es rs nms ms sets kind idx (qs : list (esource F)) :
  numbers_with_root3 zero one add mul sub opp div inv s3 ->
  gives_mesh h o segs -> gives_element_results F zero one add mul sub opp div s3 num h o segs -> numbers_ok segs ->
  mesh_on segs ns es -> proper_on segs es nms ms sets kind -> selected es nms ms sets kind idx ->
  pick es idx <> [] -> Forall drawn (pick es idx) -> Zlen ns < 2147483648 -> Zlen (flat_map el_nodes (pick es idx)) < 2147483648 ->
  (qs <> [] -> refs_on segs rs) -> Forall (esource_on segs es rs idx kind) qs ->
  exists text points cells xs, elem_export zero one add mul sub opp div s3 num cw ow h o sets kind (map es_fld qs) = Ok text /\ vtu_parts text points cells xs /\
    at_their_nodes ns (pick es idx) points /\ own_points 0 (pick es idx) cells /\ Forall2 (shows_elem zero one add mul sub opp div s3 num es idx) qs xs /\
    (Forall (fun q => forallb value_char (ef_name (es_fld q)) = true) qs -> xml_document text).
Proof.
  intros HN GM GE HK HM HP HS HI HD B1 B2 HR HF.
  assert (HT : Forall takes (pick es idx)) by (eapply Forall_impl; [|exact HD]; intros e D; now left).
  destruct (mesh_written h o segs cw ow ns es nms ms sets kind idx true GM HK HM HP HS HI HT B1 B2) as (pts & con & cons & nd & pv & cells & S3 & S6 & EC & S1 & BN & LP & P3 & C1 & C2 & C3 & W).
  assert (FL : exists rv, Forall2 (fun (q : esource F) (rows : list (list (list F))) =>
      let R := map (on_surface (ef_surface (es_fld q)) (es_comps q)) (concat rows) in
      elem_call zero one add mul sub opp div s3 num h o sets (es_fld q) = Ok (AddData (mkA (dt_name (ef_dtype (es_fld q))) (dt_size (ef_dtype (es_fld q))) [es_comps q] (map (map (dt_item (ef_dtype (es_fld q)))) R)) (ef_name (es_fld q)) []) /\
      Forall (fun r => length r = es_comps q) R /\ length R = length (flat_map el_nodes (pick es idx)) /\ (es_comps q <= 8)%nat /\
      Forall2 (fun j r => exists e b v w, nth_error es j = Some e /\ In b (es_blocks q) /\ fst b = rf_ires (es_ref q) /\ In (j, v) (snd b) /\ numbers 0 v w /\
        length r = length (el_nodes e) /\ Forall (fun p => length p = fold_right Nat.mul 1%nat (es_shape q)) r /\
        node_values zero one add mul sub opp div s3 (el_typ e) (ef_type (es_fld q)) (map num w) (concat r)) idx rows) qs rv).
  { apply each_one. rewrite Forall_forall in HF |- *. intros q Hq. apply (elem_field zero one add mul sub opp div inv s3 num HN h o segs ns es rs nms ms sets kind idx q GE HM); try assumption; [|now apply HF].
    apply HR. intros ->. destruct Hq. }
  destruct FL as (rv & FL). cbv zeta in FL.
  set (arr_of := fun (qr : esource F * list (list (list F))) => mkA (dt_name (ef_dtype (es_fld (fst qr)))) (dt_size (ef_dtype (es_fld (fst qr)))) [es_comps (fst qr)]
    (map (map (dt_item (ef_dtype (es_fld (fst qr))))) (map (on_surface (ef_surface (es_fld (fst qr))) (es_comps (fst qr))) (concat (snd qr))))).
  set (adds := map (fun qr => (arr_of qr, ef_name (es_fld (fst qr)))) (combine qs rv)).
  assert (EA : rmap (elem_call zero one add mul sub opp div s3 num h o sets) (map es_fld qs) = Ok (map (fun an => AddData (fst an) (snd an) []) adds)).
  { unfold adds. rewrite map_map. cbn [fst snd]. clear - FL. induction FL as [|q r qs rv [H _] _ IH]; [reflexivity|]. cbn [map combine rmap fst snd]. rewrite H. cbn [rbind]. rewrite IH. reflexivity. }
  assert (HQ : Forall (fun q => In (dt_name (ef_dtype (es_fld q)), dt_size (ef_dtype (es_fld q)), es_vtk q) [("float32", 4%nat, "Float32"); ("float64", 8%nat, "Float64")] /\
     forall v, length (dt_item (ef_dtype (es_fld q)) v) = dt_size (ef_dtype (es_fld q))) qs).
  { eapply Forall_impl; [|exact HF]. cbv beta. intros q (_ & _ & _ & _ & _ & _ & _ & _ & T9 & T10). now split. }
  destruct (W adds) as (s & xs & RUN & V & X & PL).
  { unfold adds. apply Forall_map. cbn [fst]. clear - FL B2 HQ. revert HQ. induction FL as [|q r qs rv (_ & _ & H & L & _) _ IH]; intro HQ; cbn [combine]; inversion HQ as [|? ? [Q _] HQ']; subst; constructor; [|now apply IH].
    unfold arr_of. cbn [fst snd]. apply (fine_items _ _ Q); [|exact L]. unfold Zlen in *. now rewrite H. }
  unfold elem_export. rewrite S3. cbn [rbind]. rewrite S6. cbn [rbind]. rewrite EA. cbn [rbind]. rewrite RUN.
  exists (v_out s), pv, cells, xs. split; [reflexivity|]. split; [exact V|]. split; [|split; [|split]].
  - unfold at_their_nodes. unfold selected_nodes in S1. rewrite <- S1. apply F2_map_l. eapply F2_impl; [|exact P3]. cbv beta. intros j p (n & N1 & N2). exists j, n. now repeat split.
  - apply (own_points_ok _ cons cells HD C1) with (n := length con); [|exact C3|].
    + eapply F2_impl; [|exact C2]. cbv beta. intros e c H. symmetry. exact (F2_length _ _ _ H).
    + rewrite <- EC. exact (points_numbered _ _ _ _ _ _ _ S6).
  - unfold adds in X. apply F2_map_l in X. cbn [fst snd] in X. clear - FL X HQ. revert xs X HQ. induction FL as [|q r qs rv (_ & H1 & _ & _ & H2) _ IH]; intros xs X HQ; cbn [combine] in X; inversion X as [|? ? ? ? X1 X2]; inversion HQ as [|? ? [Q1 Q2] HQ']; subst; constructor; [|now apply IH].
    exists r. split; [exact H2|]. unfold arr_of in X1. cbn [fst snd] in X1. exact (item_array_ok _ _ Q1 Q2 _ _ _ _ H1 X1).
  - intro P. apply PL. unfold adds. apply Forall_map. cbn [snd]. clear - FL P. induction FL as [|q r qs rv _ _ IH]; cbn [combine]; constructor; inversion P; subst; [assumption|now apply IH].
Qed.
