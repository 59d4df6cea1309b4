(** * VtuReorder: reordering by element, and pieces written repeatedly. *)
From Verif Require Import Base DecFacts Vtu VtuSpec VtuText VtuProofs VtuMore.
From Coq Require Import ZifyBool Permutation.
Open Scope string_scope.
Open Scope Z_scope.
Open Scope list_scope.

(** ** Reordering an array by element *)
Lemma F2_length {A B} (P : A -> B -> Prop) l l' : Forall2 P l l' -> length l = length l'.
Proof. induction 1; cbn; auto. Qed.
Lemma F2_impl {A B} (P Q : A -> B -> Prop) l l' : (forall a b, P a b -> Q a b) -> Forall2 P l l' -> Forall2 Q l l'.
Proof. intro H. induction 1; constructor; auto. Qed.
Definition sized {R} (t : Z) (seg : list R) : Prop := (t = 23 -> length seg = 3%nat) /\ (t = 26 -> length seg = 6%nat) /\ (t = 28 -> length seg = 8%nat).
Lemma fits_con {R} t (seg : list R) : sized t seg -> fits vtk_connectivity t seg.
Proof.
  intros (H1 & H2 & H3). unfold fits, vtk_connectivity. destruct (Z.eqb_spec t 23) as [E|]; [rewrite (H1 E); split; [reflexivity|cbn; intros i Hi; lia]|].
  destruct (Z.eqb_spec t 28) as [E|]; [rewrite (H3 E); split; [reflexivity|cbn; intros i Hi; lia]|exact I].
Qed.
Lemma fits_res {R} t (seg : list R) : sized t seg -> fits vtk_elemresults t seg.
Proof.
  intros (H1 & H2 & H3). unfold fits, vtk_elemresults. destruct (Z.eqb_spec t 26) as [E|]; [rewrite (H2 E); split; [reflexivity|cbn; intros i Hi; lia]|exact I].
Qed.
Lemma reorder_arr_ok tbl a segs ts rest : Forall2 (fits tbl) ts segs -> a_rows a = concat segs ++ rest ->
  exists segs', reorder_arr tbl a (ends 0 segs) ts = (with_rows a (concat segs' ++ rest), Ok tt) /\
    Forall2 (fun ts seg' => moved tbl (fst ts) (snd ts) seg') (combine ts segs) segs' /\ map (@length _) segs' = map (@length _) segs.
Proof.
  intros HF HA. destruct (reorder_ok tbl ts segs [] rest HF) as (segs' & E & M & L). exists segs'. split; [|now split].
  unfold reorder_arr. cbn [app] in E. change (Zlen (@nil (list bytes))) with 0 in E. now rewrite HA, E.
Qed.
Definition perm_of (t : Z) : list nat := corners t ++ middles t.
Lemma Forall2_combine {A B C} (P : A -> B -> C -> Prop) (Q : A -> B -> Prop) (U : A -> B -> C -> Prop) (as_ : list A) : forall bs cs,
  Forall2 Q as_ bs -> Forall2 (fun ab c => P (fst ab) (snd ab) c) (combine as_ bs) cs -> (forall a b c, Q a b -> P a b c -> U a b c) -> Forall2 (fun ab c => U (fst ab) (snd ab) c) (combine as_ bs) cs.
Proof.
  induction as_ as [|a as_ IH]; intros bs cs H1 H2 HU; inversion H1; subst; cbn in *; inversion H2; subst; constructor; cbn [fst snd] in *; eauto.
Qed.
Lemma Forall2_snd {A B} (P : B -> B -> Prop) (ts : list A) : forall bs cs, length ts = length bs -> Forall2 (fun ab c => P (snd ab) c) (combine ts bs) cs -> Forall2 P bs cs.
Proof. induction ts as [|t ts IH]; intros [|b bs] cs HL H; try discriminate; cbn in H; inversion H; subst; constructor; auto. Qed.
Ltac explode seg := repeat (let x := fresh "x" in destruct seg as [|x seg]; [discriminate|]); destruct seg; [|discriminate].
Lemma moved_con {R} t (seg seg' : list R) : sized t seg -> moved vtk_connectivity t seg seg' ->
  Permutation seg seg' /\ (t = 23 \/ t = 28 -> pick_at (perm_of t) seg seg') /\ (t <> 23 -> t <> 28 -> seg' = seg).
Proof.
  intros (H1 & H2 & H3) M. unfold moved, vtk_connectivity in M. destruct (Z.eqb_spec t 23) as [->|N1].
  - split; [|split; [intros _; exact M|congruence]]. apply (pick_perm _ _ _) in M; [exact M|]. rewrite (H1 eq_refl). cbn. apply perm_skip. constructor.
  - destruct (Z.eqb_spec t 28) as [->|N2].
    + split; [|split; [intros _; exact M|congruence]]. apply (pick_perm _ _ _) in M; [exact M|]. rewrite (H3 eq_refl). change (seq 0 8) with [0; 1; 2; 3; 4; 5; 6; 7]%nat.
      apply NoDup_Permutation; [repeat constructor; cbn; lia|repeat constructor; cbn; lia|]. intro x. cbn. lia.
    + subst seg'. split; [apply Permutation_refl|]. split; [intros [->| ->]; contradiction|reflexivity].
Qed.
Lemma moved_res {R} t (seg seg' : list R) : sized t seg -> moved vtk_elemresults t seg seg' ->
  Permutation seg seg' /\ (t = 26 -> pick_at (perm_of t) seg seg') /\ (t <> 26 -> seg' = seg).
Proof.
  intros (H1 & H2 & H3) M. unfold moved, vtk_elemresults in M. destruct (Z.eqb_spec t 26) as [->|N1].
  - split; [|split; [intros _; exact M|congruence]]. apply (pick_perm _ _ _) in M; [exact M|]. rewrite (H2 eq_refl). change (seq 0 6) with [0; 1; 2; 3; 4; 5]%nat.
    apply NoDup_Permutation; [repeat constructor; cbn; lia|repeat constructor; cbn; lia|]. intro x. cbn. lia.
  - subst seg'. split; [apply Permutation_refl|]. split; [contradiction|reflexivity].
Qed.
Theorem con_by_element a segs ts rest : Forall2 sized ts segs -> a_rows a = concat segs ++ rest ->
  exists segs', reorder_arr vtk_connectivity a (ends 0 segs) ts = (with_rows a (concat segs' ++ rest), Ok tt) /\ Forall2 (@Permutation _) segs segs' /\
    Forall2 (fun tse seg' => (fst tse = 23 \/ fst tse = 28 -> pick_at (perm_of (fst tse)) (snd tse) seg') /\ (fst tse <> 23 -> fst tse <> 28 -> seg' = snd tse)) (combine ts segs) segs'.
Proof.
  intros HS HA. destruct (reorder_arr_ok vtk_connectivity a segs ts rest) as (segs' & E & M & _); [|exact HA|].
  { clear HA. induction HS; constructor; auto using fits_con. }
  exists segs'. split; [exact E|].
  pose proof (Forall2_combine (moved vtk_connectivity) sized (fun t seg seg' => Permutation seg seg' /\ (t = 23 \/ t = 28 -> pick_at (perm_of t) seg seg') /\ (t <> 23 -> t <> 28 -> seg' = seg)) ts segs segs' HS M (@moved_con _)) as G.
  split.
  - apply (Forall2_snd _ ts); [now apply F2_length in HS|]. eapply F2_impl; [|exact G]. cbv beta. tauto.
  - eapply F2_impl; [|exact G]. cbv beta. tauto.
Qed.
Theorem res_by_element a segs ts rest : Forall2 sized ts segs -> a_rows a = concat segs ++ rest ->
  exists segs', reorder_arr vtk_elemresults a (ends 0 segs) ts = (with_rows a (concat segs' ++ rest), Ok tt) /\ Forall2 (@Permutation _) segs segs' /\
    Forall2 (fun tse seg' => (fst tse = 26 -> pick_at (perm_of (fst tse)) (snd tse) seg') /\ (fst tse <> 26 -> seg' = snd tse)) (combine ts segs) segs'.
Proof.
  intros HS HA. destruct (reorder_arr_ok vtk_elemresults a segs ts rest) as (segs' & E & M & _); [|exact HA|].
  { clear HA. induction HS; constructor; auto using fits_res. }
  exists segs'. split; [exact E|].
  pose proof (Forall2_combine (moved vtk_elemresults) sized (fun t seg seg' => Permutation seg seg' /\ (t = 26 -> pick_at (perm_of t) seg seg') /\ (t <> 26 -> seg' = seg)) ts segs segs' HS M (@moved_res _)) as G.
  split.
  - apply (Forall2_snd _ ts); [now apply F2_length in HS|]. eapply F2_impl; [|exact G]. cbv beta. tauto.
  - eapply F2_impl; [|exact G]. cbv beta. tauto.
Qed.

(** ** The same cells again *)
Definition left_over (o t : list Z) (con : arr) : arr := fst (reorder_arr vtk_connectivity con o t).
Fixpoint left_n (o t : list Z) (k : nat) (con : arr) : arr := match k with O => con | S j => left_n o t j (left_over o t con) end.
Lemma with_rows_same a : with_rows a (a_rows a) = a. Proof. now destruct a. Qed.
Lemma reorder_none {R} tbl ots : forall st (rows : list R), Forall (fun ot => tbl (snd ot) = None) ots -> reorder tbl st ots rows = (rows, Ok tt).
Proof. induction ots as [|[o t] ots IH]; intros st rows H; [reflexivity|]. inversion H; subst. cbn [reorder]. cbn in H2. rewrite H2. now apply IH. Qed.
Theorem left_linear o t con : Forall (fun t => t <> 23 /\ t <> 28) t -> left_over o t con = con.
Proof.
  intro H. unfold left_over, reorder_arr. rewrite reorder_none; [apply with_rows_same|].
  apply Forall_forall. intros [o1 t1] HI. apply in_combine_r in HI. rewrite Forall_forall in H. destruct (H _ HI) as [H1 H2]. cbn. unfold vtk_connectivity.
  destruct (Z.eqb_spec t1 23); [contradiction|]. destruct (Z.eqb_spec t1 28); [contradiction|reflexivity].
Qed.
Definition mv {R} (t : Z) (seg : list R) : list R :=
  match vtk_connectivity t with Some ind => flat_map (fun i => match nth_error seg i with Some x => [x] | None => [] end) ind | None => seg end.
Lemma pick_mv {R} ind (seg seg' : list R) : pick_at ind seg seg' -> seg' = flat_map (fun i => match nth_error seg i with Some x => [x] | None => [] end) ind.
Proof.
  unfold pick_at. revert seg'. induction ind as [|i ind IH]; intros [|x r] H; cbn in H; try discriminate; [reflexivity|]. injection H as H1 H2. cbn [flat_map]. rewrite <- H1. cbn. f_equal. now apply IH.
Qed.
Definition mvs {R} (ts : list Z) (segs : list (list R)) : list (list R) := map (fun p => mv (fst p) (snd p)) (combine ts segs).
Lemma sized_mv {R} t (seg : list R) : sized t seg -> sized t (mv t seg).
Proof.
  intros (H1 & H2 & H3). unfold mv, vtk_connectivity. destruct (Z.eqb_spec t 23) as [->|N1].
  - specialize (H1 eq_refl). explode seg. repeat split; intros; try lia; reflexivity.
  - destruct (Z.eqb_spec t 28) as [->|N2]; [specialize (H3 eq_refl); explode seg; repeat split; intros; try lia; reflexivity|]. repeat split; assumption.
Qed.
Lemma length_mv {R} t (seg : list R) : sized t seg -> length (mv t seg) = length seg.
Proof.
  intros (H1 & H2 & H3). unfold mv, vtk_connectivity. destruct (Z.eqb_spec t 23) as [->|N1]; [specialize (H1 eq_refl); explode seg; reflexivity|].
  destruct (Z.eqb_spec t 28) as [->|N2]; [specialize (H3 eq_refl); explode seg; reflexivity|reflexivity].
Qed.
Lemma mv6 {R} t (seg : list R) : sized t seg -> mv t (mv t (mv t (mv t (mv t (mv t seg))))) = seg.
Proof.
  intros (H1 & H2 & H3). unfold mv, vtk_connectivity. destruct (Z.eqb_spec t 23) as [->|N1]; [specialize (H1 eq_refl); explode seg; reflexivity|].
  destruct (Z.eqb_spec t 28) as [->|N2]; [specialize (H3 eq_refl); explode seg; reflexivity|reflexivity].
Qed.
Lemma mvs_facts {R} ts : forall (segs : list (list R)), Forall2 sized ts segs -> Forall2 sized ts (mvs ts segs) /\ map (@length R) (mvs ts segs) = map (@length R) segs.
Proof.
  induction ts as [|t ts IH]; intros segs H; inversion H; subst; [split; constructor|]. destruct (IH _ H4) as [I1 I2]. unfold mvs in *. cbn [combine map fst snd]. split.
  - constructor; [now apply sized_mv|exact I1].
  - f_equal; [now apply length_mv|exact I2].
Qed.
Lemma ends_lengths {A} (s s' : list (list A)) : forall st, map (@length A) s = map (@length A) s' -> ends st s = ends st s'.
Proof.
  revert s'. induction s as [|x s IH]; intros [|y s'] st H; try discriminate; [reflexivity|]. cbn in H. injection H as H1 H2. cbn [ends]. unfold Zlen. rewrite H1. f_equal. now apply IH.
Qed.
Lemma left_mvs con segs ts rest : Forall2 sized ts segs -> a_rows con = concat segs ++ rest ->
  left_over (ends 0 segs) ts con = with_rows con (concat (mvs ts segs) ++ rest).
Proof.
  intros HS HA. unfold left_over. destruct (reorder_arr_ok vtk_connectivity con segs ts rest) as (segs' & E & M & _); [clear HA; induction HS; constructor; auto using fits_con|exact HA|].
  rewrite E. cbn [fst]. f_equal. f_equal. f_equal. clear -HS M. revert segs' M. induction HS as [|t seg ts segs _ _ IH]; intros segs' M; cbn in M; inversion M; subst; [reflexivity|].
  unfold mvs. cbn [combine map fst snd]. f_equal; [|now apply IH]. cbn in H1. unfold moved in H1. unfold mv. destruct (vtk_connectivity t); [now apply pick_mv|assumption].
Qed.
Theorem left_period con segs ts rest : Forall2 sized ts segs -> a_rows con = concat segs ++ rest -> left_n (ends 0 segs) ts 6 con = con.
Proof.
  intros HS HA. cbn [left_n].
  assert (ST : forall s c, Forall2 sized ts s -> map (@length _) s = map (@length _) segs -> a_rows c = concat s ++ rest ->
      left_over (ends 0 segs) ts c = with_rows c (concat (mvs ts s) ++ rest) /\ Forall2 sized ts (mvs ts s) /\ map (@length _) (mvs ts s) = map (@length _) segs).
  { intros s c H1 H2 H3. rewrite <- (ends_lengths s segs 0 H2), (left_mvs c s ts rest H1 H3). destruct (mvs_facts ts s H1) as [F1 F2]. split; [reflexivity|]. split; [exact F1|congruence]. }
  destruct (ST segs con HS eq_refl HA) as (E1 & S1 & L1). rewrite E1. destruct (ST _ (with_rows con (concat (mvs ts segs) ++ rest)) S1 L1 eq_refl) as (E2 & S2 & L2). rewrite E2.
  match goal with |- context [left_over _ _ (with_rows ?c ?r)] => destruct (ST _ (with_rows c r) S2 L2 eq_refl) as (E3 & S3 & L3); rewrite E3 end.
  match goal with |- context [left_over _ _ (with_rows ?c ?r)] => destruct (ST _ (with_rows c r) S3 L3 eq_refl) as (E4 & S4 & L4); rewrite E4 end.
  match goal with |- context [left_over _ _ (with_rows ?c ?r)] => destruct (ST _ (with_rows c r) S4 L4 eq_refl) as (E5 & S5 & L5); rewrite E5 end.
  match goal with |- context [left_over _ _ (with_rows ?c ?r)] => destruct (ST _ (with_rows c r) S5 L5 eq_refl) as (E6 & S6 & L6); rewrite E6 end.
  assert (G : mvs ts (mvs ts (mvs ts (mvs ts (mvs ts (mvs ts segs))))) = segs).
  { clear -HS. induction HS as [|t seg ts segs H _ IH]; [reflexivity|]. unfold mvs in *. cbn [combine map fst snd]. rewrite IH. f_equal. now apply mv6. }
  rewrite G. unfold with_rows. cbn [a_dtype a_isize a_tail]. rewrite <- HA. now destruct con.
Qed.

(** ** Text written does not depend on what was written before *)
Definition pre (q : bytes) (s : vtu) : vtu := mkV (q ++ v_out s) (v_closed s) (v_piece s) (v_point s) (v_cell s) (v_elems s) (v_cur s).
Definition framed (m : VM) : Prop := forall q s, m (pre q s) = (pre q (fst (m s)), snd (m s)).
Lemma fr_then m k : framed m -> framed k -> framed (m ;; k).
Proof. intros H1 H2 q s. unfold vthen. rewrite H1. destruct (m s) as [s1 [[]|e]]; cbn [fst snd]; [apply H2|reflexivity]. Qed.
Lemma fr_write b : framed (vwrite b).
Proof. intros q s. unfold vwrite, pre. cbn. destruct (v_closed s) eqn:E; cbn; [now rewrite E|]. now rewrite <- app_assoc. Qed.
Lemma fr_raise e : framed (vraise e). Proof. intros q s. reflexivity. Qed.
Lemma fr_open tag kw : framed (open_element tag kw).
Proof.
  intros q s. unfold open_element. cbn [pre v_elems].
  change (set_elems (tag :: v_elems s) (pre q s)) with (pre q (set_elems (tag :: v_elems s) s)). apply (fr_write _ q (set_elems (tag :: v_elems s) s)).
Qed.
Lemma fr_close tag : framed (close_element tag).
Proof.
  intros q s. unfold close_element. cbn [pre v_elems]. destruct (v_elems s) as [|t r] eqn:E; [unfold pre; cbn; reflexivity|].
  destruct (String.eqb tag t); [|unfold pre, set_elems; cbn; reflexivity].
  change (set_elems r (pre q s)) with (pre q (set_elems r s)). apply (fr_write _ q (set_elems r s)).
Qed.
Lemma fr_array a n cs : framed (write_array a n cs).
Proof.
  unfold write_array. destruct (match a_tail a with [] => Some 1%nat | [n0] => Some n0 | _ => None end); [|apply fr_raise]. destruct (vtk_datatype (a_dtype a)); [|apply fr_raise].
  apply fr_then; [apply fr_open|]. apply fr_then; [intros q s0; apply (fr_write _ q s0)|]. apply fr_then; [cbv zeta; destruct (_ <? _); [apply fr_write|apply fr_raise]|]. apply fr_then; [apply fr_write|apply fr_close].
Qed.
Lemma fr_piece p con o t q out cu : new_piece p con o t (mkV (q ++ out) false false false false ug cu) =
  let '(s1, c1, r1) := new_piece p con o t (mkV out false false false false ug cu) in (pre q s1, c1, r1).
Proof.
  unfold new_piece. rewrite !begin_piece. destruct (reorder_arr vtk_connectivity con (i_vals o) (i_vals t)) as [con' [[]|e]]; [|reflexivity].
  destruct (typeidmapper t) as [ts|e]; [|reflexivity].
  match goal with |- (let (_, _) := ?m (set_cur ?c ?s) in _) = _ =>
    assert (F : framed m) by (repeat (apply fr_then; [first [apply fr_open|apply fr_array|apply fr_close]|]); apply fr_close);
    change (set_cur c s) with (pre q (set_cur c (mkV out false true false false ug cu))); rewrite F; destruct (m (set_cur c (mkV out false true false false ug cu))) as [s3 r3] end.
  reflexivity.
Qed.
(** What a successful call writes. *)
Definition text_of (p : arr) (o t : iarr) (con : arr) : bytes :=
  v_out (fst (fst (new_piece p con o t (mkV [] false false false false ug None)))) ++ close_tag 2 "Piece".
Lemma cur_indep p con o t out cu : fst (fst (new_piece p con o t (mkV out false false false false ug cu))) = fst (fst (new_piece p con o t (mkV out false false false false ug None))) \/
  snd (new_piece p con o t (mkV out false false false false ug cu)) <> Ok tt.
Proof.
  unfold new_piece. rewrite !begin_piece. destruct (reorder_arr vtk_connectivity con (i_vals o) (i_vals t)) as [con' [[]|e]]; [|right; discriminate].
  destruct (typeidmapper t) as [ts|e]; [|right; discriminate]. left. reflexivity.
Qed.
(** Writing the same piece k times, with the array that is left each time. *)
Fixpoint again (p : arr) (o t : iarr) (k : nat) (con : arr) (s : vtu) : vtu * Res unit :=
  match k with
  | O => (s, Ok tt)
  | S j => match new_piece p con o t s with (s', con', Ok _) => again p o t j con' s' | (s', _, Err e) => (s', Err e) end
  end.
Lemma piece_out p con o t out cu s1 c1 : new_piece p con o t (mkV out false false false false ug cu) = (s1, c1, Ok tt) ->
  c1 = left_over (i_vals o) (i_vals t) con /\ s1 = mkV (v_out s1) false true false false ("Piece" :: ug) (Some (i_vals o, i_vals t)) /\ v_out s1 ++ close_tag 2 "Piece" = out ++ text_of p o t con.
Proof.
  intro H. destruct (piece_ok out false false cu p con o t s1 c1 H eq_refl eq_refl) as (con' & ts & xp & xc & xo & xt & E1 & E2 & _ & _ & _ & _ & _ & E3).
  split; [unfold left_over; now rewrite E1|]. split; [rewrite E3; reflexivity|]. unfold text_of.
  destruct (cur_indep p con o t out cu) as [K|K]; [|rewrite H in K; contradiction]. rewrite H in K. cbn [fst] in K.
  pose proof (fr_piece p con o t out [] None) as F. rewrite app_nil_r in F. rewrite K, F.
  destruct (new_piece p con o t (mkV [] false false false false ug None)) as [[s2 c2] r2]. cbn [fst]. unfold pre. cbn [v_out]. now rewrite <- app_assoc.
Qed.
Lemma again_idle p o t k : forall con out cu s', again p o t k con (mkV out false false false false ug cu) = (s', Ok tt) ->
  exists out' cu', fst (v_close s') = mkV (out' ++ tail_text) true false false false [] cu' /\ snd (v_close s') = Ok tt /\ out' = out ++ concat (map (fun i => text_of p o t (left_n (i_vals o) (i_vals t) i con)) (seq 0 k)).
Proof.
  induction k as [|k IH]; intros con out cu s' H.
  - cbn [again] in H. apply pair_ok in H. subst s'. exists out, cu. rewrite close_idle. cbn. now rewrite app_nil_r.
  - cbn [again] in H. destruct (new_piece p con o t (mkV out false false false false ug cu)) as [[s1 c1] [[]|e]] eqn:E; [|discriminate].
    destruct (piece_out _ _ _ _ _ _ _ _ E) as (-> & E2 & E3). rewrite E2 in H.
    assert (SEQ : concat (map (fun i => text_of p o t (left_n (i_vals o) (i_vals t) i con)) (seq 0 (S k))) =
        text_of p o t con ++ concat (map (fun i => text_of p o t (left_n (i_vals o) (i_vals t) i (left_over (i_vals o) (i_vals t) con))) (seq 0 k))).
    { cbn [seq map concat left_n]. f_equal. rewrite <- seq_shift, map_map. reflexivity. }
    rewrite SEQ. destruct k as [|k].
    + cbn [again] in H. apply pair_ok in H. subst s'. rewrite close_piece_mode, close_idle, E3. eexists _, _. cbn [fst snd]. split; [reflexivity|]. split; [reflexivity|]. cbn. now rewrite app_nil_r.
    + assert (H' : again p o t (S k) (left_over (i_vals o) (i_vals t) con) (mkV (v_out s1 ++ close_tag 2 "Piece") false false false false ug (Some (i_vals o, i_vals t))) = (s', Ok tt)).
      { cbn [again] in H |- *. rewrite new_piece_piece in H. exact H. }
      rewrite E3 in H'. destruct (IH _ _ _ _ H') as (out' & cu' & K1 & K2 & ->). eexists _, _. split; [exact K1|]. split; [exact K2|]. now rewrite <- app_assoc.
Qed.
Theorem again_text p o t k con s : again p o t k con v_init = (s, Ok tt) ->
  snd (v_close s) = Ok tt /\ v_out (fst (v_close s)) = v_out v_init ++ concat (map (fun i => text_of p o t (left_n (i_vals o) (i_vals t) i con)) (seq 0 k)) ++ tail_text.
Proof.
  intro H. rewrite init_state in H. destruct (again_idle p o t k con _ _ s H) as (out' & cu' & K1 & K2 & ->). split; [exact K2|]. rewrite K1. cbn [v_out]. rewrite init_state. cbn [v_out]. now rewrite <- app_assoc.
Qed.
Lemma left_n_linear o t k con : Forall (fun t => t <> 23 /\ t <> 28) t -> left_n o t k con = con.
Proof. intro H. induction k as [|k IH]; [reflexivity|]. cbn [left_n]. now rewrite left_linear. Qed.
Theorem again_linear p o t k con s : again p o t k con v_init = (s, Ok tt) -> Forall (fun t => t <> 23 /\ t <> 28) (i_vals t) ->
  v_out (fst (v_close s)) = v_out v_init ++ concat (repeat (text_of p o t con) k) ++ tail_text.
Proof.
  intros H HL. destruct (again_text p o t k con s H) as [_ E]. rewrite E. f_equal. f_equal. f_equal.
  clear E H. generalize 0%nat. induction k as [|k IH]; intro n; [reflexivity|]. cbn [seq map repeat]. rewrite left_n_linear by exact HL. f_equal. apply IH.
Qed.
