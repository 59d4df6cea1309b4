(** * ExportProofs: the file written shows the mesh and the results of the file read. *)
From Coq Require Import Sorted Permutation ZifyBool.
From Verif Require Import Base Flt NumeralMore H5 Schema Data Struc SeqSpec StoreSpec FileSpec StrucSpec StrucRes StrucProofs StrucExist SaysSpec SaysGives.
From Verif Require Import Vtu VtuSpec VtuText VtuProofs VtuReorder VtuMore Export ExportSpec ExportItems ExportRun ExportNumbers.
Open Scope string_scope.
Open Scope Z_scope.
Open Scope list_scope.

(** ** Lists *)
Lemma each_one {A B} (P : A -> B -> Prop) l : Forall (fun x => exists y, P x y) l -> exists ys, Forall2 P l ys.
Proof. induction 1 as [|x l (y & H) _ (ys & IH)]; [exists []; constructor|exists (y :: ys); now constructor]. Qed.
Lemma F2_of_Forall {A B} (P : A -> B -> Prop) (Q : A -> Prop) l m : Forall Q l -> Forall2 P l m -> Forall2 (fun a b => Q a /\ P a b) l m.
Proof. intros H F. induction F; constructor; inversion H; subst; auto. Qed.
Lemma F2_map_l {A B C} (P : B -> C -> Prop) (f : A -> B) l m : Forall2 P (map f l) m <-> Forall2 (fun a c => P (f a) c) l m.
Proof.
  split.
  - revert m. induction l as [|a l IH]; intros m H; cbn [map] in H; inversion H; subst; constructor; auto.
  - induction 1; cbn [map]; constructor; auto.
Qed.
Lemma F2_map_r {A B C} (P : A -> C -> Prop) (f : B -> C) l m : Forall2 P l (map f m) <-> Forall2 (fun a b => P a (f b)) l m.
Proof.
  split.
  - revert l. induction m as [|a m IH]; intros l H; cbn [map] in H; inversion H; subst; constructor; auto.
  - induction 1; cbn [map]; constructor; auto.
Qed.
Lemma F2_join {A B C} (P : A -> B -> Prop) (Q : A -> C -> Prop) l m k : Forall2 P l m -> Forall2 Q l k ->
  Forall2 (fun a bc => P a (fst bc) /\ Q a (snd bc)) l (combine m k).
Proof. intro H. revert k. induction H; intros k F; inversion F; subst; cbn [combine]; constructor; auto. Qed.
Lemma map_fst_combine {A B} (l : list A) (m : list B) : length l = length m -> map fst (combine l m) = l.
Proof. revert m. induction l as [|a l IH]; intros [|b m] H; try discriminate; [reflexivity|]. cbn [combine map fst]. f_equal. apply IH. now injection H. Qed.
Lemma map_snd_combine {A B} (l : list A) (m : list B) : length l = length m -> map snd (combine l m) = m.
Proof. revert m. induction l as [|a l IH]; intros [|b m] H; try discriminate; [reflexivity|]. cbn [combine map snd]. f_equal. apply IH. now injection H. Qed.
Lemma cells_values v vs : Forall2 single_cell v vs -> v = map CF vs.
Proof. induction 1 as [|c x v vs [-> _] _ IH]; [reflexivity|]. cbn [map]. now f_equal. Qed.
Lemma F2_firstn {A B} (P : A -> B -> Prop) n : forall l m, Forall2 P l m -> Forall2 P (firstn n l) (firstn n m).
Proof. induction n; intros l m H; [constructor|]. destruct H; cbn [firstn]; constructor; auto. Qed.

(** ** Entries picked from a list, seen through a map or a relation *)
Lemma pick_back {A B} (f : A -> B) seg ind : forall seg', pick_at ind (map f seg) seg' -> exists s, seg' = map f s /\ pick_at ind seg s.
Proof.
  unfold pick_at. induction ind as [|i ind IH]; intros [|x seg'] H; try discriminate; [exists []; split; reflexivity|].
  cbn [map] in H. injection H as H1 H2. destruct (IH _ H2) as (s & -> & HS). symmetry in H1. rewrite nth_error_map in H1. destruct (nth_error seg i) as [y|] eqn:E; [|discriminate]. injection H1 as <-.
  exists (y :: s). cbn [map]. rewrite E, HS. split; reflexivity.
Qed.
Lemma pick_rel {A B} (P : A -> B -> Prop) a b ind : Forall2 P a b -> forall b', pick_at ind b b' -> exists a', pick_at ind a a' /\ Forall2 P a' b'.
Proof.
  intro HF. unfold pick_at. induction ind as [|i ind IH]; intros [|x b'] H; try discriminate; [exists []; split; [reflexivity|constructor]|].
  cbn [map] in H. injection H as H1 H2. destruct (IH _ H2) as (s & HS & HP). symmetry in H1.
  assert (exists y, nth_error a i = Some y /\ P y x) as (y & E & HY).
  { clear - HF H1. revert i H1. induction HF as [|u v a b H _ IH]; intros [|i] H1; try discriminate; cbn [nth_error] in *; [injection H1 as <-; now exists u|now apply IH]. }
  exists (y :: s). cbn [map]. rewrite E, HS. split; [reflexivity|now constructor].
Qed.
Lemma ends_totals {A} (segs : list (list A)) (ls : list (list Z)) : Forall2 (fun s l => length s = length l) segs ls -> forall n, ends n segs = map (fun y => n + y) (totals ls).
Proof.
  induction 1 as [|s l segs ls H _ IH]; intro n; [reflexivity|]. rewrite totals_cons. cbn [ends map]. unfold Zlen in *. rewrite H. f_equal. rewrite IH, map_map. apply map_ext. intro; lia.
Qed.
Lemma totals_same (a b : list (list Z)) : Forall2 (fun s l => length s = length l) a b -> totals a = totals b.
Proof. intro H. induction H as [|x y a b H _ IH]; [reflexivity|]. rewrite !totals_cons. unfold Zlen. rewrite H, IH. reflexivity. Qed.
Lemma totals_bound ls z : In z (totals ls) -> 0 <= z <= Zlen (concat ls).
Proof.
  unfold totals. rewrite in_map_iff. intros (i & <- & _). unfold Zlen. rewrite <- (firstn_skipn (S i) ls) at 3. rewrite concat_app, app_length. lia.
Qed.

(** ** Elements *)
Definition takes (e : melem) : Prop := drawn e \/ six_nodes e.
Lemma takes_in e : takes e -> In (el_typ e, length (el_nodes e)) [(15, 2%nat); (23, 3%nat); (24, 4%nat); (25, 3%nat); (26, 6%nat); (28, 8%nat)].
Proof. intros [H|[E1 E2]]; [|rewrite E1, E2; cbn; tauto]. unfold drawn in H. cbn [In] in *. tauto. Qed.
Lemma takes_sized {R} e (c : list R) : takes e -> length c = length (el_nodes e) -> sized (el_typ e) c.
Proof.
  intros H%takes_in L. cbn [In] in H. rewrite <- L in H. unfold sized.
  repeat (destruct H as [H|H]; [injection H as <- <-; repeat split; intro; first [reflexivity|discriminate]|]). destruct H.
Qed.
Lemma takes_type e : takes e -> exists v, vtk_typeid (el_typ e) = Some v /\ 0 <= v < 100.
Proof.
  intros H%takes_in. cbn [In] in H.
  repeat (destruct H as [H|H]; [injection H as <- _; eexists; split; [reflexivity|lia]|]). destruct H.
Qed.
Lemma takes_types es : Forall takes es -> exists ts, map_types (map el_typ es) = Ok ts /\ Forall (fun v => 0 <= v < 2147483648) ts.
Proof.
  induction 1 as [|e es H _ (ts & IH & B)]; [exists []; split; [reflexivity|constructor]|]. destruct (takes_type e H) as (v & E & HV).
  exists (v :: ts). cbn [map map_types]. rewrite E, IH. cbn [rbind]. split; [reflexivity|]. constructor; [lia|exact B].
Qed.
Lemma drawn_26 e : drawn e -> el_typ e <> 26.
Proof. unfold drawn. cbn [In]. intros H E. rewrite E in H. repeat (destruct H as [H|H]; [discriminate|]). destruct H. Qed.
Lemma drawn_order e l : drawn e -> in_given_order (el_typ e) (el_nodes e) l -> in_vtk_order (el_typ e) (el_nodes e) l.
Proof.
  intros D%drawn_26. unfold in_given_order, in_vtk_order. destruct (Z.eqb_spec (el_typ e) 26) as [E|_]; [now elim D|]. rewrite orb_false_r. auto.
Qed.

(** ** Connectivity *)
Lemma con_written cw (es : list melem) (cons : list (list Z)) : Forall takes es -> Forall2 (fun e c => length c = length (el_nodes e)) es cons ->
  exists cons', reorder_arr vtk_connectivity (of_ints (int_arr cw (concat cons))) (totals (map el_nodes es)) (map el_typ es) = (of_ints (int_arr cw (concat cons')), Ok tt) /\
    Forall2 (fun ec c' => in_given_order (el_typ (fst ec)) (snd ec) c') (combine es cons) cons' /\ Forall2 (fun c c' => length c = length c') cons cons'.
Proof.
  intros HD HL. set (f := fun z => [le_bytes (w_size cw) z]).
  assert (HS : Forall2 sized (map el_typ es) (map (map f) cons)).
  { apply F2_map_l, F2_map_r. eapply F2_impl; [|exact (F2_of_Forall _ _ _ _ HD HL)]. cbv beta. intros e c [D L]. apply takes_sized; [exact D|now rewrite map_length]. }
  destruct (con_by_element (of_ints (int_arr cw (concat cons))) (map (map f) cons) (map el_typ es) [] HS) as (segs' & E & HP & HK).
  { cbn [of_ints a_rows int_arr i_vals i_isize]. rewrite app_nil_r. fold f. now rewrite concat_map. }
  assert (EQ : ends 0 (map (map f) cons) = totals (map el_nodes es)).
  { rewrite (ends_totals _ (map el_nodes es)); [rewrite <- (map_id (totals _)) at 2; now apply map_ext|]. apply F2_map_l, F2_map_r.
    clear - HL. induction HL; constructor; auto. now rewrite map_length. }
  rewrite EQ in E. assert (exists cons', segs' = map (map f) cons' /\ Forall2 (fun ec c' => in_given_order (el_typ (fst ec)) (snd ec) c') (combine es cons) cons' /\ Forall2 (fun c c' => length c = length c') cons cons') as (cons' & -> & H1 & H2).
  { clear - HK HP HL HD. revert segs' HP HK. induction HL as [|e c es cons L _ IH]; intros segs' HP HK; cbn [map combine] in *.
    - inversion HP. exists []. repeat split; constructor.
    - inversion HP as [|? s' ? ss P1 P2]; subst. inversion HK as [|? ? ? ? [K1 K2] K3]; subst. cbn [fst snd] in *. inversion HD as [|? ? D1 D2]; subst.
      destruct (IH D2 _ P2 K3) as (cs & -> & Q1 & Q2).
      assert (exists c', s' = map f c' /\ in_given_order (el_typ e) c c') as (c' & -> & Q3).
      { unfold in_given_order. destruct (Z.eqb_spec (el_typ e) 23) as [E3|N3]; [cbn [orb]; rewrite E3 in *; destruct (pick_back f c _ _ (K1 (or_introl eq_refl))) as (x & -> & HX); now exists x|].
        destruct (Z.eqb_spec (el_typ e) 28) as [E8|N8]; [rewrite orb_true_r, E8 in *; destruct (pick_back f c _ _ (K1 (or_intror eq_refl))) as (x & -> & HX); now exists x|].
        cbn [orb]. rewrite (K2 N3 N8). now exists c. }
      exists (c' :: cs). split; [reflexivity|]. split; [constructor; assumption|]. constructor; [|exact Q2]. apply Permutation_length in P1. now rewrite !map_length in P1. }
  exists cons'. split; [|now split]. rewrite E. f_equal. unfold with_rows, of_ints. cbn [a_dtype a_isize a_tail int_arr i_dtype i_isize i_vals]. fold f. now rewrite app_nil_r, concat_map.
Qed.

(** ** A field *)
Definition comps (q : source) : nat := if f_cut (q_fld q) then 3%nat else 6%nat.
Definition field_arr (q : source) (rows : list (list cell)) : arr := mkA "float32" 4 [comps q] (map (map item) rows).
Lemma no_complex rows vals : Forall2 (Forall2 single_cell) rows vals -> has_complex rows = false.
Proof.
  intro H. unfold has_complex. induction H as [|r v rows vals H _ IH]; [reflexivity|]. cbn [existsb]. rewrite IH, orb_false_r.
  induction H as [|c x r v [-> _] _ IH2]; [reflexivity|]. cbn [existsb]. exact IH2.
Qed.
Lemma one_block (bs : list block) i l1 vs l2 : bs = l1 ++ (i, vs) :: l2 -> ~ In i (map fst (l1 ++ l2)) ->
  filter (fun k => zmem k [i]) (map fst bs) = [i] /\ forall b, In b bs -> fst b = i -> snd b = vs.
Proof.
  intros -> HN. rewrite map_app in HN. assert (HF : forall l, ~ In i (map (@fst Z (list (list cell))) l) -> filter (fun k => zmem k [i]) (map fst l) = []).
  { induction l as [|b l IH]; intro H; [reflexivity|]. cbn [map filter zmem existsb]. destruct (Z.eqb_spec (fst b) i) as [E|_]; [elim H; left; exact E|].
    cbn [orb]. apply IH. intro HI. apply H. now right. }
  split.
  - rewrite map_app, filter_app, HF by (intro; apply HN, in_or_app; now left). cbn [map filter fst app zmem existsb]. rewrite Z.eqb_refl. cbn [orb].
    f_equal. apply HF. intro; apply HN, in_or_app; now right.
  - intros b HB E. apply in_app_or in HB as [HB|[<-|HB]]; [|reflexivity|]; exfalso; apply HN, in_or_app; [left|right]; rewrite <- E; now apply in_map.
Qed.
Lemma field_ok h o segs ns es rs nms ms sets kind idx dis q :
  gives_node_results h o segs -> numbers_ok segs -> mesh_on segs ns es -> refs_on segs rs -> proper_on segs es nms ms sets kind -> selected es nms ms sets kind idx ->
  idx <> [] -> (nosel sets kind = true -> forall j, (j < length ns)%nat -> In (no_of j) (flat_map el_nodes (pick es idx))) ->
  source_on segs (length ns) rs q ->
  exists nd rows vals, selected_nodes ns es (nosel sets kind) dis idx nd /\
    field_call h o sets kind dis (q_fld q) = Ok (AddData (field_arr q rows) (f_name (q_fld q)) []) /\
    Forall2 (Forall2 single_cell) rows vals /\ Forall (fun r => length r = comps q) rows /\ length rows = length nd /\
    shows_field nd q (f_name (q_fld q), comps q, vals).
Proof.
  intros GR HK HM HR HP HS HI HA (Q1 & Q2 & Q3 & Q4 & Q5 & l1 & vs & l2 & Q6 & Q7 & Q8).
  destruct (one_block _ _ _ _ _ Q6 Q7) as [F1 F2].
  destruct (GR ns es rs HM HR nms ms sets kind idx dis (f_type (q_fld q)) (q_rn q) (q_cn q) (q_blocks q) (f_run (q_fld q)) (q_cs q) (f_cases (q_fld q)) [q_ref q] 0) as (nd & out & N1 & N2 & N3); try assumption; auto.
  - discriminate.
  - repeat constructor. intros [].
  - intros r [<-|[]]. exact Q5.
  - intros b HB [E|[]]. rewrite (F2 b HB (eq_sym E)). eapply Forall_impl; [|exact Q8]. cbv beta. intros v L. exists v. split; [exact L|reflexivity].
  - inversion N3 as [|? a ? ? NA NB]; subst. inversion NB; subst. cbn [StrucRes.shaped] in N2. clear N3 NB.
    assert (V : Forall2 (fun j w => value_at (q_blocks q) (rf_ires (q_ref q)) j w /\ length w = 6%nat) nd a).
    { eapply F2_impl; [|exact NA]. cbv beta. intros j w (v & V1 & V2 & V3). rewrite Q5 in V3. cbn in V3. subst v. now split. }
    clear NA. assert (HV : Forall (fun w => exists v, Forall2 single_cell w v) a).
    { assert (In (q_rn q) ["RVNODDIS"; "RVNODVEL"; "RVNODACC"]) as RN. { cbn in Q1. cbn. destruct Q1 as [E|[E|[E|[]]]]; injection E; auto. }
      clear - V HK RN Q2. induction V as [|j w nd a [V _] _ IH]; constructor; [|exact IH]. exact (value_single _ _ _ _ _ _ _ HK RN Q2 V). }
    apply each_one in HV as (vals & HV).
    assert (L : Forall (fun w => length w = 6%nat) a) by (clear - V; induction V as [|? ? ? ? [_ ?]]; constructor; auto).
    exists nd, (map (firstn (comps q)) a), (map (firstn (comps q)) vals). split; [exact N1|].
    assert (HF : Forall2 (Forall2 single_cell) (map (firstn (comps q)) a) (map (firstn (comps q)) vals)).
    { apply F2_map_l, F2_map_r. eapply F2_impl; [|exact HV]. cbv beta. intros. now apply F2_firstn. }
    split; [|split; [exact HF|]].
    + unfold field_call. rewrite N2. cbn [rbind]. do 2 f_equal. unfold field_arr, comps in *. destruct (f_cut (q_fld q)).
      * unfold first3, rows_arr. now rewrite (no_complex _ _ HV).
      * unfold noderes_arr, rows_arr. rewrite (no_complex _ _ HV). replace (map (firstn 6) a) with a; [reflexivity|]. clear - L. induction L as [|w a L _ IH]; [reflexivity|]. cbn [map]. rewrite <- IH. f_equal. now rewrite <- L, firstn_all.
    + split; [|split].
      * apply Forall_map. eapply Forall_impl; [|exact L]. cbv beta. intros w LW. rewrite firstn_length, LW. unfold comps. now destruct (f_cut (q_fld q)).
      * rewrite map_length. symmetry. exact (F2_length _ _ _ V).
      * split; [reflexivity|]. split; [reflexivity|]. cbn [fst snd]. apply F2_map_r. clear - V HV. revert vals HV. induction V as [|j w nd a [V _] _ IH]; intros vals HV; inversion HV; subst; constructor; auto.
        exists w. split; [exact V|]. rewrite (cells_values w y) by assumption. now rewrite firstn_map.
Qed.

(** ** Points *)
Lemma sorted_below (l : list nat) n : StronglySorted lt l -> Forall (fun j => (j < n)%nat) l -> (length l <= n)%nat.
Proof.
  intros HS HB. rewrite <- (seq_length n 0). apply NoDup_incl_length.
  - clear HB. induction HS as [|x l _ IH HF]; constructor; [|exact IH]. intro HI. rewrite Forall_forall in HF. specialize (HF _ HI). lia.
  - intros j HJ. rewrite Forall_forall in HB. apply in_seq. specialize (HB j HJ). lia.
Qed.
Lemma nodes_count ns es w dis idx (nd : list nat) b : selected_nodes ns es w dis idx nd -> Forall (fun j => (j < length ns)%nat) nd ->
  Zlen ns < b -> Zlen (flat_map el_nodes (pick es idx)) < b -> Zlen nd < b.
Proof.
  unfold selected_nodes. destruct dis; intros H HB H1 H2.
  - apply (f_equal (@length _)) in H. rewrite map_length in H. unfold Zlen in *. lia.
  - destruct H as [H _]. pose proof (sorted_below _ _ H HB). unfold Zlen in *. lia.
Qed.
Lemma points_ok segs ns es nd (sel : list (nat * mnode)) : numbers_ok segs -> mesh_on segs ns es -> nd = map fst sel -> Forall (fun jn => nth_error ns (fst jn) = Some (snd jn)) sel ->
  exists vals, Forall2 (Forall2 single_cell) (map (fun jn => n_xyz (snd jn)) sel) vals /\ Forall (fun r => length r = 3%nat) (map (fun jn => n_xyz (snd jn)) sel) /\
    Forall2 (fun j p => exists n, nth_error ns j = Some n /\ n_xyz n = map CF p) nd vals.
Proof.
  intros HK (HM1 & HM2 & _) -> HS. pose proof HM2 as HC.
  assert (HE : Forall (fun jn => exists vs, Forall2 single_cell (n_xyz (snd jn)) vs /\ length vs = 3%nat) sel).
  { eapply Forall_impl; [|exact HS]. cbv beta. intros [j n] E. exact (coord_single _ _ _ _ HK HC E). }
  apply each_one in HE as (vals & HV). exists vals. split; [|split].
  - apply F2_map_l. eapply F2_impl; [|exact HV]. cbv beta. tauto.
  - apply Forall_map. clear - HV. induction HV as [|x v sel vals [H L] _ IH]; constructor; [|exact IH]. apply F2_length in H. congruence.
  - apply F2_map_l. pose proof (F2_of_Forall _ _ _ _ HS HV) as G. eapply F2_impl; [|exact G]. cbv beta. intros [j n] v (E & S & _). exists n. split; [exact E|now apply cells_values].
Qed.

(** ** All of it *)
Lemma fine_reals nc rows : Zlen rows < 2147483648 -> (nc <= 6)%nat -> fine (mkA "float32" 4 [nc] (map (map item) rows)).
Proof.
  intros H L. split; [right; eexists; reflexivity|]. split; [eexists; reflexivity|]. unfold a_size. cbn [a_rows a_tail a_isize prod fold_right]. rewrite map_length.
  unfold Zlen in H. rewrite ?Nat.mul_1_r. change (2 ^ 64) with 18446744073709551616. nia.
Qed.
Lemma fine_ints w zs : Zlen zs < 2147483648 -> fine (of_ints (int_arr w zs)).
Proof.
  intro H. split; [now left|]. split; [destruct w; eexists; reflexivity|]. unfold a_size, of_ints. cbn [a_rows a_tail a_isize prod fold_right int_arr i_vals i_isize]. rewrite map_length.
  unfold Zlen in H. change (2 ^ 64) with 18446744073709551616. destruct w; cbn [w_size]; lia.
Qed.
Lemma F2_zip_l {A B C} (P : A -> B -> Prop) l m (c : list C) : Forall2 P l m -> length c = length m -> Forall2 (fun a x => P a (fst x)) l (combine m c).
Proof. intro H. revert c. induction H as [|a b l m H _ IH]; intros [|x c] L; try discriminate; cbn [combine]; constructor; [exact H|]. apply IH. now injection L. Qed.
Lemma F2_zip_r {A B C} (P : A -> B -> Prop) l m (c : list C) : Forall2 P l m -> length c = length m -> Forall2 (fun a x => P a (snd x)) l (combine c m).
Proof. intro H. revert c. induction H as [|a b l m H _ IH]; intros [|x c] L; try discriminate; cbn [combine]; constructor; [exact H|]. apply IH. now injection L. Qed.
(** The mesh, and arrays of any kind for the points. *)
Theorem mesh_written h o segs cw ow ns es nms ms sets kind idx dis :
  gives_mesh h o segs -> numbers_ok segs ->
  mesh_on segs ns es -> proper_on segs es nms ms sets kind -> selected es nms ms sets kind idx ->
  pick es idx <> [] -> Forall takes (pick es idx) -> Zlen ns < 2147483648 -> Zlen (flat_map el_nodes (pick es idx)) < 2147483648 ->
  exists pts con cons nd pv cells,
    get_coords h o sets kind dis = Ok pts /\ get_elements h o sets kind dis = Ok (con, totals (map el_nodes (pick es idx)), map el_typ (pick es idx)) /\
    con = concat cons /\ selected_nodes ns es (nosel sets kind) dis idx nd /\ Zlen nd < 2147483648 /\ length pts = length nd /\
    Forall2 (fun j p => exists n, nth_error ns j = Some n /\ n_xyz n = map CF p) nd pv /\
    Forall2 (fun e c => vtk_cell (el_typ e) (fst c)) (pick es idx) cells /\
    Forall2 (fun e c => Forall2 (fun z i => 0 <= i /\ exists j, nth_error nd (Z.to_nat i) = Some j /\ z = no_of j) (el_nodes e) c) (pick es idx) cons /\
    Forall2 (fun ec c => in_given_order (el_typ (fst ec)) (snd ec) (snd c)) (combine (pick es idx) cons) cells /\
    forall adds, Forall (fun an => fine (fst an)) adds ->
      exists s xs, v_run v_init (NewPiece (points_arr pts) (of_ints (int_arr cw con)) (int_arr ow (totals (map el_nodes (pick es idx)))) (int_arr W32 (map el_typ (pick es idx))) ::
                         StartPointdata :: map (fun an => AddData (fst an) (snd an) []) adds ++ [CloseFile]) = (s, Ok tt) /\
        vtu_parts (v_out s) pv cells xs /\ Forall2 (fun an x => array_xml (fst an) (snd an) [] x) adds xs /\
        (Forall (fun an => forallb value_char (snd an) = true) adds -> xml_document (v_out s)).
Proof.
  intros GM HK HM HP HS HI HD B1 B2.
  assert (HX : idx <> []) by (intros ->; now apply HI).
  destruct (GM ns es HM nms ms sets kind idx dis HP HS) as (_ & _ & G). destruct (G (or_introl HX)) as (sel & cons & S1 & S2 & S3 & _ & _ & S6 & S7). clear G.
  set (nd := map fst sel) in *. set (E := pick es idx) in *. set (pts := map (fun jn => n_xyz (snd jn)) sel) in *.
  destruct (points_ok segs ns es nd sel HK HM eq_refl S2) as (pv & P1 & P2 & P3). fold pts in P1, P2.
  assert (BN : Zlen nd < 2147483648).
  { apply (nodes_count ns es _ _ _ _ _ S1); [|exact B1|exact B2]. unfold nd. apply Forall_map. eapply Forall_impl; [|exact S2]. cbv beta. intros jn EN. apply nth_error_Some. congruence. }
  assert (CL : Forall2 (fun e c => length c = length (el_nodes e)) E cons). { eapply F2_impl; [|exact S7]. cbv beta. intros e c H. symmetry. exact (F2_length _ _ _ H). }
  destruct (con_written cw E cons HD CL) as (cons' & R1 & R2 & R3). destruct (takes_types E HD) as (ts & T1 & T2).
  assert (LC : length (concat cons') = length (flat_map el_nodes E)).
  { rewrite flat_map_concat_map. clear - CL R3. revert cons' R3. induction CL as [|e c E cons H _ IH]; intros cons' R3; inversion R3; subst; [reflexivity|]. cbn [map concat]. rewrite !app_length. rewrite (IH _ H4). lia. }
  assert (LE : Zlen E < 2147483648).
  { assert (Zlen E <= Zlen (flat_map el_nodes E)); [|lia]. unfold Zlen. apply inj_le. clear - HD. induction HD as [|e l D _ IH]; [reflexivity|]. cbn [flat_map length]. rewrite app_length.
    assert (1 <= length (el_nodes e))%nat; [|lia]. apply takes_in in D. cbn [In] in D. repeat (destruct D as [D|D]; [injection D as _ <-; lia|]). destruct D. }
  assert (LT : length ts = length E). { apply map_types_spec, F2_length in T1. rewrite map_length in T1. now symmetry. }
  assert (LS : length cons' = length E). { apply F2_length in R3. apply F2_length in CL. congruence. }
  exists pts, (concat cons), cons, nd, pv, (combine ts cons'). split; [exact S3|]. split; [exact S6|]. split; [reflexivity|]. split; [exact S1|]. split; [exact BN|].
  split; [unfold pts, nd; now rewrite !map_length|]. split; [exact P3|]. split; [|split; [|split]].
  - pose proof (map_types_spec _ _ T1) as T. apply (F2_zip_l (fun e t => vtk_cell (el_typ e) t) E ts cons'); [apply F2_map_l; exact T|]. congruence.
  - eapply F2_impl; [|exact S7]. cbv beta. intros e c H. eapply F2_impl; [|exact H]. cbv beta. intros z i (A1 & j & n & A2 & A3 & _). split; [exact A1|]. exists j. now split.
  - apply (F2_zip_r _ (combine E cons) cons' ts R2). congruence.
  - intros adds FA.
    destruct (script_runs (points_arr pts) (of_ints (int_arr cw (concat cons))) (int_arr ow (totals (map el_nodes E))) (int_arr W32 (map el_typ E)) (of_ints (int_arr cw (concat cons'))) ts adds) as (s & RUN).
    + apply fine_reals; [|lia]. unfold pts. unfold Zlen in *. rewrite map_length. unfold nd in BN. now rewrite map_length in BN.
    + apply fine_ints. unfold Zlen in *. rewrite LC. exact B2.
    + apply fine_ints. unfold Zlen in *. rewrite totals_length, map_length. exact LE.
    + apply (fine_ints W64). unfold Zlen in *. rewrite LT. exact LE.
    + exact FA.
    + exact R1.
    + cbn [int_arr i_vals]. intro H. apply map_eq_nil in H. now apply HI.
    + exact T1.
    + destruct (whole_document (NewPiece (points_arr pts) (of_ints (int_arr cw (concat cons))) (int_arr ow (totals (map el_nodes E))) (int_arr W32 (map el_typ E)) :: StartPointdata :: map (fun an => AddData (fst an) (snd an) []) adds) s RUN) as (x & DX & OUT & _).
      destruct (script_document _ _ _ _ _ _ DX) as (con1 & ts1 & xp & xc & xo & xt & xs & Y1 & Y2 & Y3 & Y4 & Y5 & Y6 & Y7 & Y8).
      cbn [int_arr i_vals] in Y1, Y2.
      assert (C1 : con1 = of_ints (int_arr cw (concat cons'))). { change (reorder_arr vtk_connectivity (of_ints (int_arr cw (concat cons))) (totals (map el_nodes E)) (map el_typ E) = (con1, Ok tt)) in Y1. rewrite R1 in Y1. now injection Y1. }
      assert (T3 : ts1 = ts). { apply map_types_spec in T1. clear - Y2 T1. revert ts T1. induction Y2 as [|a b l m H _ IH]; intros ts T1; inversion T1; subst; [reflexivity|]. f_equal; [|now apply IH]. destruct H; inversion H2; reflexivity. }
      subst con1 ts1. exists s, xs. split; [exact RUN|]. split; [|split; [exact Y7|]].
      * exists xp, xc, xo, xt. split; [|split; [|split; [|split]]].
        -- rewrite OUT, Y8. cbn [points_arr a_rows int_arr i_vals]. replace (Zlen (combine ts cons')) with (Zlen (totals (map el_nodes E))) by (unfold Zlen; rewrite combine_length, totals_length, map_length; lia).
           replace (Zlen pv) with (Zlen (map (map item) pts)) by (unfold Zlen; rewrite map_length; now rewrite (F2_length _ _ _ P1)). reflexivity.
        -- exact (real_array_ok pts pv 3 _ _ P1 P2 Y3).
        -- rewrite flat_map_concat_map, map_snd_combine by congruence. apply (whole_array_ok cw); [|exact Y4].
           apply Forall_concat. clear - S7 R2 BN. revert cons' R2. induction S7 as [|e c E cons H _ IH]; intros cons' R2; inversion R2; subst; constructor; [|now apply IH]. cbn [fst snd] in *.
           assert (HC : Forall (fun z => 0 <= z < 2147483648) c).
           { clear - H BN. induction H as [|z i l c (H1 & j & n & H2 & _) _ IH]; constructor; [|exact IH]. assert (nth_error nd (Z.to_nat i) <> None) as Q by congruence. apply nth_error_Some in Q. unfold Zlen in BN. lia. }
           unfold in_given_order in H2. destruct (_ || _).
           ++ apply Forall_forall. intros z Hz. apply (in_map Some) in Hz. rewrite H2 in Hz. apply in_map_iff in Hz as (i & EI & _). apply nth_error_In in EI. rewrite Forall_forall in HC. now apply HC.
           ++ now subst.
        -- rewrite map_snd_combine by congruence. apply (whole_array_ok ow).
           ++ apply Forall_forall. intros z Hz. apply totals_bound in Hz. unfold Zlen in *. lia.
           ++ rewrite (totals_same cons' (map el_nodes E)); [exact Y5|]. apply F2_map_r. clear - CL R3. revert cons' R3. induction CL as [|e c E cons H _ IH]; intros cons' R3; inversion R3; subst; constructor; [congruence|now apply IH].
        -- rewrite map_fst_combine by congruence. exact (whole_array_ok W64 ts _ _ T2 Y6).
      * intro PL. apply (output_xml (NewPiece (points_arr pts) (of_ints (int_arr cw (concat cons))) (int_arr ow (totals (map el_nodes E))) (int_arr W32 (map el_typ E)) :: StartPointdata :: map (fun an => AddData (fst an) (snd an) []) adds) s RUN).
        constructor; [exact I|]. constructor; [exact I|]. apply Forall_map. cbn [plain_names fst snd]. eapply Forall_impl; [|exact PL]. cbv beta. intros an H. split; [exact H|constructor].
Qed.
(** The cells, by nodes. *)
Lemma cells_shown nd (E : list melem) cons cells : Forall2 (fun e c => vtk_cell (el_typ e) (fst c)) E cells ->
  Forall2 (fun e c => Forall2 (fun z i => 0 <= i /\ exists j, nth_error nd (Z.to_nat i) = Some j /\ z = no_of j) (el_nodes e) c) E cons ->
  Forall2 (fun ec c => in_given_order (el_typ (fst ec)) (snd ec) (snd c)) (combine E cons) cells ->
  Forall2 (fun e c => vtk_cell (el_typ e) (fst c) /\ exists l, in_given_order (el_typ e) (el_nodes e) l /\
    Forall2 (fun z i => 0 <= i /\ exists j, nth_error nd (Z.to_nat i) = Some j /\ z = no_of j) l (snd c)) E cells.
Proof.
  intros H1 H2. revert cells H1. induction H2 as [|e c E cons H _ IH]; intros cells H1 H3; inversion H1; subst; cbn [combine] in H3; inversion H3; subst; constructor; [|now apply IH].
  cbn [fst snd] in *. split; [assumption|]. unfold in_given_order in *. destruct (_ || _).
  - match goal with HH : pick_at _ c _ |- _ => destruct (pick_rel _ _ _ _ H _ HH) as (l & L1 & L2) end. exists l. now split.
  - exists (el_nodes e). split; [reflexivity|]. now subst.
Qed.
Theorem export_shows h o segs cw ow ns es rs nms ms sets kind idx dis qs :
  gives_mesh h o segs -> gives_node_results h o segs -> numbers_ok segs ->
  mesh_on segs ns es -> proper_on segs es nms ms sets kind -> selected es nms ms sets kind idx ->
  pick es idx <> [] -> Forall takes (pick es idx) -> Zlen ns < 2147483648 -> Zlen (flat_map el_nodes (pick es idx)) < 2147483648 ->
  (qs <> [] -> refs_on segs rs /\ (nosel sets kind = true -> forall j, (j < length ns)%nat -> In (no_of j) (flat_map el_nodes (pick es idx)))) ->
  Forall (source_on segs (length ns) rs) qs ->
  exists text g nd, export cw ow h o sets kind dis (map q_fld qs) = Ok text /\ vtu_file text g /\ selected_nodes ns es (nosel sets kind) dis idx nd /\
    shows_by in_given_order ns (pick es idx) nd g /\ Forall2 (shows_field nd) qs (g_data g) /\
    (Forall (fun q => forallb value_char (f_name (q_fld q)) = true) qs -> xml_document text).
Proof.
  intros GM GR HK HM HP HS HI HD B1 B2 HQ HF.
  destruct (mesh_written h o segs cw ow ns es nms ms sets kind idx dis GM HK HM HP HS HI HD B1 B2) as (pts & con & cons & nd & pv & cells & S3 & S6 & EC & S1 & BN & LP & P3 & C1 & C2 & C3 & W).
  assert (HX : idx <> []) by (intros ->; now apply HI).
  assert (FL : exists rv, Forall2 (fun q r => field_call h o sets kind dis (q_fld q) = Ok (AddData (field_arr q (fst r)) (f_name (q_fld q)) []) /\
      Forall2 (Forall2 single_cell) (fst r) (snd r) /\ Forall (fun x => length x = comps q) (fst r) /\ length (fst r) = length nd /\ shows_field nd q (f_name (q_fld q), comps q, snd r)) qs rv).
  { apply each_one. rewrite Forall_forall in HF |- *. intros q Hq. destruct HQ as [R1 R2]; [intros ->; destruct Hq|].
    destruct (field_ok h o segs ns es rs nms ms sets kind idx dis q GR HK HM R1 HP HS HX R2 (HF q Hq)) as (nd' & rows & vals & N1 & N2 & N3 & N4 & N5 & N6).
    rewrite (selected_nodes_unique _ _ _ _ _ _ _ N1 S1) in N5, N6. exists (rows, vals). cbn [fst snd]. repeat (split; [assumption|]). exact N6. }
  destruct FL as (rv & FL).
  set (adds := map (fun qr => (field_arr (fst qr) (fst (snd qr)), f_name (q_fld (fst qr)))) (combine qs rv)).
  assert (EA : rmap (field_call h o sets kind dis) (map q_fld qs) = Ok (map (fun an => AddData (fst an) (snd an) []) adds)).
  { unfold adds. rewrite map_map. cbn [fst snd]. clear - FL. induction FL as [|q r qs rv [H _] _ IH]; [reflexivity|]. cbn [map combine rmap fst snd]. rewrite H. cbn [rbind]. rewrite IH. reflexivity. }
  destruct (W adds) as (s & xs & RUN & V & X & PL).
  { unfold adds. apply Forall_map. cbn [fst]. clear - FL BN. induction FL as [|q r qs rv (_ & _ & _ & H & _) _ IH]; cbn [combine]; constructor; [|exact IH]. cbn [fst snd].
    apply fine_reals; [|unfold comps; destruct (f_cut (q_fld q)); lia]. unfold Zlen in *. now rewrite H. }
  unfold export, export_calls. rewrite S3. cbn [rbind]. rewrite S6. cbn [rbind]. rewrite EA. cbn [rbind]. rewrite RUN.
  exists (v_out s), (mkGrid pv cells (map (fun qr => (f_name (q_fld (fst qr)), comps (fst qr), snd (snd qr))) (combine qs rv))), nd.
  split; [reflexivity|]. split; [|split; [exact S1|split; [|split]]].
  - exists xs. cbn [g_points g_cells g_data]. split; [exact V|]. unfold adds in X. apply F2_map_l in X. apply F2_map_l. cbn [fst snd] in *. clear - FL X. revert xs X. induction FL as [|q r qs rv (_ & H1 & H2 & _) _ IH]; intros xs X; cbn [combine] in *; inversion X; subst; constructor; [|now apply IH].
    cbn [fst snd] in *. exact (real_array_ok (fst r) (snd r) (comps q) _ _ H1 H2 H3).
  - cbn [g_points g_cells]. split; [exact P3|]. exact (cells_shown nd _ _ _ C1 C2 C3).
  - cbn [g_data]. clear - FL. induction FL as [|q r qs rv (_ & _ & _ & _ & H) _ IH]; cbn [combine map]; constructor; [exact H|exact IH].
  - intro P. apply PL. unfold adds. apply Forall_map. cbn [snd]. clear - FL P. induction FL as [|q r qs rv _ _ IH]; cbn [combine]; constructor; inversion P; subst; [assumption|now apply IH].
Qed.
(** The elements with VTK's order. *)
Lemma shows_drawn ns es nd g : Forall drawn es -> shows_by in_given_order ns es nd g -> shows_mesh ns es nd g.
Proof.
  intros HD [H1 H2]. split; [exact H1|]. eapply F2_impl; [|exact (F2_of_Forall _ _ _ _ HD H2)]. cbv beta. intros e c (D & T & l & L1 & L2). split; [exact T|]. exists l. split; [now apply drawn_order|exact L2].
Qed.
(** The triangles with six nodes are shown wrongly. *)
Lemma six_wrong ns es nd g e : In e es -> six_nodes e -> NoDup (el_nodes e) -> shows_by in_given_order ns es nd g -> ~ shows_mesh ns es nd g.
Proof.
  intros HI [ET EL] ND [_ H] [_ H']. revert H H'. generalize (g_cells g) as cs. induction es as [|x es IH]; intros cs H H'; [destruct HI|].
  inversion H as [|? c ? ct (_ & l & L1 & L2) HR]; subst. inversion H' as [|? ? ? ? (_ & lv & L1' & L2') HR']; subst. destruct HI as [->|HI]; [|now apply (IH HI ct)].
  unfold in_given_order in L1. unfold in_vtk_order in L1'. rewrite ET in *. cbn in L1. subst l.
  assert (lv = el_nodes e) as ->.
  { clear - L2 L2'. revert L2 L2'. generalize (snd c) (el_nodes e). intros k m H. revert lv. induction H as [|z i m k (_ & j & A1 & A2) _ IH]; intros lv H'; inversion H' as [|? ? ? ? (_ & j' & B1 & B2) H3]; subst; [reflexivity|].
    f_equal; [congruence|now apply IH]. }
  destruct (el_nodes e) as [|a [|b [|c0 [|d [|f [|g0 [|]]]]]]]; try discriminate. unfold pick_at in L1'. cbn in L1'. injection L1' as -> -> _ _.
  inversion ND as [|? ? N1 N2]; subst. inversion N2 as [|? ? N3 _]; subst. apply N3. now left.
Qed.
