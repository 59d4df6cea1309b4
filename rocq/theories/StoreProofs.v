(** * StoreProofs: recdata/vldata against StoreSpec. *)
From Verif Require Import Base Flt SeqFile H5 Schema Parsers SeqSpec StoreSpec ListFacts SeqProofs FltProofs.
From Coq Require Import ZifyBool ZifyNat.
Open Scope string_scope.
Open Scope Z_scope.
Open Scope list_scope.
Open Scope monad_scope.

(** ** Conversions *)
Lemma trunc_int_of f z : trunc_is f z -> int_of f = Ok z.
Proof.
  destruct f as [| |s|s m e]; cbn [int_of trunc_is]; try tauto; [now intros ->|].
  intros (a & Ha & -> & H1 & H2). f_equal.
  destruct (0 <=? e) eqn:E.
  - rewrite Z.shiftl_mul_pow2 by lia. rewrite <- H1 by lia. reflexivity.
  - rewrite Z.shiftr_div_pow2 by lia. specialize (H2 ltac:(lia)).
    assert (Zpos m / 2 ^ (- e) = a) as ->; [|reflexivity].
    symmetry. apply (Z.div_unique _ _ _ (Zpos m - a * 2 ^ (- e))); [left; lia|ring].
Qed.
Lemma int_of_trunc f z : int_of f = Ok z -> trunc_is f z.
Proof.
  destruct f as [| |s|s m e]; cbn [int_of trunc_is]; try discriminate; [now injection 1|].
  intro H. injection H as <-.
  exists (if 0 <=? e then Z.shiftl (Zpos m) e else Z.shiftr (Zpos m) (- e)).
  destruct (0 <=? e) eqn:E.
  - rewrite Z.shiftl_mul_pow2 by lia. assert (0 < 2 ^ e) by (apply Z.pow_pos_nonneg; lia).
    repeat split; try nia; lia.
  - rewrite Z.shiftr_div_pow2 by lia. assert (0 < 2 ^ (- e)) by (apply Z.pow_pos_nonneg; lia).
    pose proof (Z.div_mod (Zpos m) (2 ^ (- e)) ltac:(lia)).
    pose proof (Z.mod_pos_bound (Zpos m) (2 ^ (- e)) ltac:(lia)).
    repeat split; try lia; try nia.
Qed.

Lemma fix_bytes_text n s t : text_of n s t -> fix_bytes n s = t.
Proof.
  intros (z & E & Ht). unfold fix_bytes. rewrite E, rev_app_distr, rev_repeat.
  rewrite dropwhile_all; [|apply Forall_repeat; reflexivity].
  rewrite dropwhile_none; [apply rev_involutive|].
  destruct t as [|a t] using rev_ind; [exact I|]. clear IHt.
  rewrite rev_app_distr. cbn. destruct Ht as [Ht|Ht]; [destruct t; discriminate|].
  rewrite last_last in Ht. now apply Ascii.eqb_neq.
Qed.

Lemma set_int_ok z : int32 z -> set_int z = Ok (CI z).
Proof.
  unfold int32, set_int. intro H.
  now replace ((-2147483648 <=? z) && (z <=? 2147483647))%bool with true by lia.
Qed.
Lemma rmap_Forall2 {A B} (f : A -> Res B) l l' : Forall2 (fun a b => f a = Ok b) l l' -> rmap f l = Ok l'.
Proof. induction 1; cbn; [reflexivity|]. now rewrite H, IHForall2. Qed.

Lemma Forall2_imp {A B} (R S : A -> B -> Prop) l l' : (forall a b, R a b -> S a b) -> Forall2 R l l' -> Forall2 S l l'.
Proof. intro H. induction 1; constructor; auto. Qed.

Lemma conv_cell_stored t : forall v c, stored t v c -> conv_cell t v = Ok c.
Proof.
  induction t as [| |n| |n t IH]; intros v c H; destruct v, c; cbn [stored] in H; try tauto; cbn [conv_cell].
  - destruct H as [H1 H2]. rewrite (trunc_int_of _ _ H1). now apply set_int_ok.
  - destruct H as [-> H]. now apply set_int_ok.
  - now rewrite H.
  - destruct H as [H1 H2]. rewrite (proj2 (forallb_forall _ _)).
    + now rewrite (fix_bytes_text _ _ _ H2).
    + rewrite Forall_forall in H1. intros x Hx. apply H1 in Hx. lia.
  - destruct H as [-> ->]. reflexivity.
  - destruct H as [-> ->]. reflexivity.
  - destruct H as [Hl H]. unfold rbind.
    rewrite (rmap_Forall2 _ _ _ (Forall2_imp _ _ _ _ IH H)).
    rewrite <- (Forall2_len _ _ _ H), Hl, Nat.eqb_refl. reflexivity.
Qed.
Lemma conv_elem_stored t : forall v c, stored t v c -> conv_elem t v = Ok c.
Proof.
  induction t as [| |n| |n t IH]; intros v c H; destruct v, c; cbn [stored] in H; try tauto; cbn [conv_elem].
  - destruct H as [H1 H2]. unfold int32_cast. rewrite (trunc_int_of _ _ H1). unfold int32 in H2.
    now replace ((-2147483648 <=? z) && (z <=? 2147483647))%bool with true by lia.
  - destruct H as [-> H]. reflexivity.
  - now rewrite H.
  - destruct H as [_ H2]. now rewrite (fix_bytes_text _ _ _ H2).
  - destruct H as [-> ->]. reflexivity.
  - destruct H as [-> ->]. reflexivity.
  - destruct H as [Hl H]. rewrite Hl, Nat.eqb_refl. unfold rbind.
    now rewrite (rmap_Forall2 _ _ _ (Forall2_imp _ _ _ _ IH H)).
Qed.
Lemma conv_row_stored ts : forall vs cs, length ts = length vs ->
  Forall2 (fun tv c => stored (fst tv) (snd tv) c) (combine ts vs) cs -> conv_row ts vs = Ok cs.
Proof.
  induction ts as [|t ts IH]; intros [|v vs] cs Hl H; try discriminate; cbn [combine] in H.
  - now inversion H.
  - inversion H as [|? c ? cs' H1 H2]; subst. cbn [conv_row]. unfold rbind.
    cbn [fst snd] in H1. rewrite (conv_cell_stored _ _ _ H1), (IH vs cs'); auto.
Qed.

(** ** The store *)
Lemma path_eqb_spec p : forall q, path_eqb p q = true <-> p = q.
Proof.
  induction p as [|a p IH]; intros [|b q]; cbn; try (split; congruence).
  rewrite andb_true_iff, String.eqb_eq, IH. split; [intros [-> ->]|injection 1]; auto.
Qed.
Lemma path_eqb_refl p : path_eqb p p = true. Proof. now apply path_eqb_spec. Qed.
Lemma path_eqb_neq p q : p <> q -> path_eqb p q = false.
Proof. intro H. destruct (path_eqb p q) eqn:E; [|reflexivity]. apply path_eqb_spec in E. congruence. Qed.

Lemma find_upd_same p f h : h5_find p (h5_upd p f h) = option_map f (h5_find p h).
Proof.
  unfold h5_find, h5_upd. induction h as [|[q n] h IH]; cbn; [reflexivity|].
  destruct (path_eqb p q) eqn:E; cbn; rewrite E; auto.
Qed.
Lemma find_upd_other p q f h : p <> q -> h5_find q (h5_upd p f h) = h5_find q h.
Proof.
  intro Hn. unfold h5_find, h5_upd. induction h as [|[x n] h IH]; cbn; [reflexivity|].
  destruct (path_eqb p x) eqn:E; cbn; destruct (path_eqb q x) eqn:E2; auto.
  apply path_eqb_spec in E. apply path_eqb_spec in E2. congruence.
Qed.
Lemma find_add p q n h : h5_find q (h5_add p n h) =
  match h5_find q h with Some x => Some x | None => if path_eqb q p then Some n else None end.
Proof.
  unfold h5_find, h5_add. induction h as [|[x m] h IH]; cbn; [reflexivity|].
  destruct (path_eqb q x); auto.
Qed.

(** ** Buffers: what table and arrays will hold once everything is written *)
Definition vl_inv (h : h5) (v : vl) (a : list cell) : Prop :=
  exists items cs, h5_find (v_path v) h = Some (Arr (v_type v) items) /\
    Forall2 (stored (v_type v)) (v_data v) cs /\ a = items ++ cs /\ v_next v = Zlen a.

Record rd_inv (batch : Z) (d : descr) (elts : list ctype) (T : path) (As : list path)
       (r : recd) (h : h5) (c : content) : Prop := {
  ri_path : r_path r = T;
  ri_types : r_types r = map snd d;
  ri_As : map v_path (r_vls r) = As;
  ri_elts : map v_type (r_vls r) = elts;
  ri_rows : exists rows, h5_find T h = Some (Table d rows) /\ c_rows c = rows ++ r_buf r;
  ri_vls : Forall2 (vl_inv h) (r_vls r) (c_arrs c);
  ri_nodup : NoDup (T :: As);
  ri_buf : Zlen (r_buf r) < batch }.

(** *** vldata.add, one call per array *)
Definition number (l : list (list pyval)) : adds := combine (seq 0 (length l)) l.

Fixpoint map2 {A B C} (f : A -> B -> C) (l : list A) (m : list B) : list C :=
  match l, m with
  | a :: l', b :: m' => f a b :: map2 f l' m'
  | _, _ => []
  end.
Lemma upd_nth_app {A} (f : A -> A) pre x l : upd_nth (length pre) f (pre ++ x :: l) = pre ++ f x :: l.
Proof. induction pre; cbn; congruence. Qed.
Lemma vladds_number ds : forall pre l r, length l = length ds -> r_vls r = pre ++ l ->
  rd_vladds (combine (seq (length pre) (length ds)) ds) r
  = mkRd (r_path r) (r_types r) (r_buf r) (pre ++ map2 vl_add ds l).
Proof.
  induction ds as [|d ds IH]; intros pre [|v l] r Hl Hr; try discriminate; cbn [length seq combine rd_vladds].
  - cbn. destruct r; cbn in *. now rewrite Hr.
  - cbn [map2]. replace (S (length pre)) with (length (pre ++ [vl_add d v])) by (rewrite app_length; cbn; lia).
    rewrite (IH (pre ++ [vl_add d v]) l).
    + cbn. rewrite <- app_assoc. reflexivity.
    + cbn in Hl. lia.
    + unfold rd_vladd. cbn. rewrite Hr, upd_nth_app, <- app_assoc. reflexivity.
Qed.
Lemma vladds_spec ds r : length (r_vls r) = length ds ->
  rd_vladds (number ds) r = mkRd (r_path r) (r_types r) (r_buf r) (map2 vl_add ds (r_vls r)).
Proof. intro H. apply (vladds_number ds [] (r_vls r)); auto. Qed.

Lemma vl_add_path d v : v_path (vl_add d v) = v_path v. Proof. now destruct d. Qed.
Lemma vl_add_type d v : v_type (vl_add d v) = v_type v. Proof. now destruct d. Qed.
Lemma map2_map {A B C} (f : A -> B -> B) (g : B -> C) : (forall a b, g (f a b) = g b) ->
  forall l m, length l = length m -> map g (map2 f l m) = map g m.
Proof. intros H. induction l; intros [|b m] Hl; try discriminate; cbn; [reflexivity|]. f_equal; auto. Qed.

Lemma vl_add_inv h v a d ds : vl_inv h v a -> Forall2 (stored (v_type v)) d ds ->
  vl_inv h (vl_add d v) (a ++ ds) /\
  [PI (v_start (vl_add d v)); PI (v_stop (vl_add d v))] = range (Zlen a) d.
Proof.
  intros (items & cs & H1 & H2 & -> & H4) Hd. destruct d as [|x d].
  - inversion Hd; subst. rewrite app_nil_r. split; [|reflexivity]. exists items, cs. auto.
  - split.
    + exists items, (cs ++ ds). cbn [vl_add v_path v_type v_data v_next]. repeat split; auto.
      * now apply Forall2_app.
      * now rewrite app_assoc.
      * pose proof (Forall2_len _ _ _ Hd) as L. rewrite Zlen_app, <- H4. unfold Zlen. lia.
    + cbn [vl_add v_start v_stop range]. now rewrite H4.
Qed.

Lemma vladd_all h : forall vls arrs data ds arrs', Forall2 (vl_inv h) vls arrs -> length data = length vls ->
  Forall2 (fun td cs => Forall2 (stored (fst td)) (snd td) cs) (combine (map v_type vls) data) ds ->
  app2 arrs ds arrs' ->
  Forall2 (vl_inv h) (map2 vl_add data vls) arrs' /\
  flat_map (fun v => [PI (v_start v); PI (v_stop v)]) (map2 vl_add data vls) = ranges (map Zlen arrs) data.
Proof.
  induction vls as [|v vls IH]; intros arrs data ds arrs' Hv Hl Hd Ha.
  - inversion Hv; subst. destruct data; [|discriminate]. cbn in Hd. inversion Hd; subst. inversion Ha; subst.
    split; [constructor|reflexivity].
  - inversion Hv as [|? a ? arrs0 V1 V2]; subst. destruct data as [|d data]; [discriminate|].
    cbn [map combine] in Hd. inversion Hd as [|? e ? ds0 D1 D2]; subst. inversion Ha; subst.
    cbn [fst snd] in D1. destruct (vl_add_inv _ _ _ _ _ V1 D1) as [W1 W2].
    assert (Hl' : length data = length vls) by (cbn in Hl; lia).
    match goal with A : app2 arrs0 ds0 _ |- _ => destruct (IH arrs0 data ds0 _ V2 Hl' D2 A) as [I1 I2] end.
    cbn [map2 flat_map map ranges]. split; [constructor; auto|].
    rewrite I2. f_equal. exact W2.
Qed.

(** *** Writing *)
Lemma rmap_conv_elem t l cs : Forall2 (stored t) l cs -> rmap (conv_elem t) l = Ok cs.
Proof. intro H. apply rmap_Forall2. eapply Forall2_imp; [|exact H]. apply conv_elem_stored. Qed.

Definition pseth (s : pst) h := mkP (p_in s) (p_g s) h.

Lemma vl_inv_frame h h' v a : h5_find (v_path v) h' = h5_find (v_path v) h -> vl_inv h v a -> vl_inv h' v a.
Proof. intros E (items & cs & H & R). exists items, cs. now rewrite E. Qed.

Lemma vls_write_spec : forall vls arrs s, Forall2 (vl_inv (p_out s)) vls arrs -> NoDup (map v_path vls) ->
  exists vls' h', vls_write vls s = Ok (vls', pseth s h') /\
    Forall2 (vl_inv h') vls' arrs /\ map v_path vls' = map v_path vls /\ map v_type vls' = map v_type vls /\
    Forall2 (fun v a => h5_find (v_path v) h' = Some (Arr (v_type v) a)) vls arrs /\
    (forall p, ~ In p (map v_path vls) -> h5_find p h' = h5_find p (p_out s)).
Proof.
  induction vls as [|v vls IH]; intros arrs s Hv Hn.
  - inversion Hv; subst. exists [], (p_out s). cbn. destruct s. repeat split; auto.
  - inversion Hv as [|? a ? arrs0 V1 V2]; subst. cbn [map] in Hn. inversion Hn as [|? ? N1 N2]; subst.
    assert (W : exists v' h1, vl_write v s = Ok (v', pseth s h1) /\ vl_inv h1 v' a /\ v_path v' = v_path v /\
      v_type v' = v_type v /\ h5_find (v_path v) h1 = Some (Arr (v_type v) a) /\
      (forall p, p <> v_path v -> h5_find p h1 = h5_find p (p_out s))).
    { destruct V1 as (items & cs & F & S & -> & N). unfold vl_write. destruct (v_data v) as [|x data] eqn:E.
      - inversion S; subst. exists v, (p_out s). destruct s. repeat split; auto.
        + exists items, []. rewrite E. auto.
        + now rewrite app_nil_r.
      - eexists _, _. unfold sbind, geth, seth, liftR, slift. rewrite (rmap_conv_elem _ _ _ S).
        split; [reflexivity|]. cbn [v_path v_type p_out].
        assert (G : h5_find (v_path v) (h5_upd (v_path v) (append_items cs) (p_out s))
                    = Some (Arr (v_type v) (items ++ cs))).
        { rewrite find_upd_same, F. reflexivity. }
        repeat split; auto.
        + exists (items ++ cs), []. cbn. rewrite app_nil_r. repeat split; auto.
        + intros p Hp. apply find_upd_other. congruence. }
    destruct W as (v' & h1 & W1 & W2 & W3 & W4 & W5 & W6).
    edestruct (IH arrs0 (pseth s h1)) as (vls' & h' & I1 & I2 & I3 & I4 & I5 & I6); [|exact N2|].
    { cbn. clear IH. assert (Q : forall w, In w vls -> v_path w <> v_path v).
      { intros w Hw E. apply N1. rewrite <- E. now apply in_map. }
      clear - V2 Q W6. induction V2; constructor; auto with datatypes.
      eapply vl_inv_frame; [|eassumption]. apply W6. apply Q. now left. }
    exists (v' :: vls'), h'. cbn [vls_write]. unfold sbind. rewrite W1, I1. split; [reflexivity|].
    cbn [map]. rewrite I3, I4, W3, W4. repeat split; auto.
    + constructor; [|exact I2]. eapply vl_inv_frame; [|exact W2]. rewrite W3. apply I6. exact N1.
    + constructor; [|exact I5]. rewrite I6 by exact N1. exact W5.
    + intros p Hp. cbn in Hp. rewrite I6 by tauto. cbn. apply W6. intros ->. tauto.
Qed.

(** After write the table and the arrays hold exactly the content. *)
Lemma rd_write_spec batch d elts T As r s c : 0 < batch -> rd_inv batch d elts T As r (p_out s) c ->
  exists r' h', rd_write r s = Ok (r', pseth s h') /\ rd_inv batch d elts T As r' h' c /\
    h5_find T h' = Some (Table d (c_rows c)) /\
    Forall2 (fun at_ a => h5_find (fst at_) h' = Some (Arr (snd at_) a)) (combine As elts) (c_arrs c) /\
    (forall p, ~ In p (T :: As) -> h5_find p h' = h5_find p (p_out s)).
Proof.
  intros Hb [I1 I2 I3 I4 (rows & I5 & I5') I6 I7 I8]. inversion I7 as [|? ? N1 N2]; subst T.
  unfold rd_write, sbind, geth, seth.
  set (h1 := h5_upd (r_path r) (append_rows (r_buf r)) (p_out s)).
  edestruct (vls_write_spec (r_vls r) (c_arrs c) (pseth s h1)) as (vls' & h' & J1 & J2 & J3 & J4 & J5 & J6).
  { cbn. clear - I6 N1 I3. subst As. assert (Q : forall w, In w (r_vls r) -> v_path w <> r_path r).
    { intros w Hw E. apply N1. rewrite <- E. now apply in_map. }
    unfold h1. clear N1. induction I6; constructor; auto with datatypes.
    eapply vl_inv_frame; [|eassumption]. apply find_upd_other. intro E. apply (Q x); [now left|congruence]. }
  { now rewrite I3. }
  unfold pseth in *. cbn [p_in p_g p_out] in *. rewrite J1.
  assert (HT : h5_find (r_path r) h' = Some (Table d (c_rows c))).
  { rewrite J6 by now rewrite I3. unfold h1. rewrite find_upd_same, I5. cbn. now rewrite I5'. }
  eexists _, _. split; [reflexivity|]. split; [|split; [exact HT|split]].
  - constructor; cbn [r_path r_types r_vls r_buf]; auto; try congruence.
    + exists (c_rows c). rewrite app_nil_r. auto.
  - subst As elts. clear - J5. induction J5; cbn [map combine]; constructor; auto.
  - intros p Hp. cbn [In] in Hp. rewrite J6 by (rewrite I3; tauto). unfold h1. apply find_upd_other. tauto.
Qed.

(** *** One record *)
Lemma rd_inv_vladds batch d elts T As r h rows arrs ds data arrs' :
  rd_inv batch d elts T As r h (mkC rows arrs) ->
  length data = length elts ->
  Forall2 (fun td cs => Forall2 (stored (fst td)) (snd td) cs) (combine elts data) ds ->
  app2 arrs ds arrs' ->
  let r1 := rd_vladds (number data) r in
  rd_inv batch d elts T As r1 h (mkC rows arrs') /\ r_buf r1 = r_buf r /\
  flat_map (fun v => [PI (v_start v); PI (v_stop v)]) (r_vls r1) = ranges (map Zlen arrs) data.
Proof.
  intros [I1 I2 I3 I4 I5 I6 I7 I8] Hl Hd Ha r1.
  assert (L : length (r_vls r) = length data) by (rewrite Hl, <- I4, map_length; reflexivity).
  subst r1. rewrite vladds_spec by exact L. cbn [c_rows c_arrs] in *.
  edestruct vladd_all as [V1 V2]; [exact I6|symmetry; exact L|rewrite I4; exact Hd|exact Ha|].
  cbn [r_vls r_buf]. split; [|split; [reflexivity|exact V2]].
  constructor; cbn [r_path r_types r_vls r_buf c_rows c_arrs]; auto.
  - rewrite map2_map; auto using vl_add_path.
  - rewrite map2_map; auto using vl_add_type.
Qed.

Lemma rd_add_spec d elts T As r e c c' s : 0 < g_batch (p_g s) ->
  rd_inv (g_batch (p_g s)) d elts T As r (p_out s) c ->
  put_entry (map snd d) elts c e c' ->
  exists r' h', rd_add (e_row e) (rd_vladds (number (e_data e)) r) s = Ok (r', pseth s h') /\
    rd_inv (g_batch (p_g s)) d elts T As r' h' c' /\
    (forall p, ~ In p (T :: As) -> h5_find p h' = h5_find p (p_out s)).
Proof.
  intros Hb Hr Hp. destruct Hp as [rows arrs e cs ds arrs' L1 L2 Hc Lc Hd Ha].
  edestruct rd_inv_vladds as (J1 & J2 & J3); [exact Hr|exact L1|exact Hd|exact Ha|].
  set (r1 := rd_vladds (number (e_data e)) r) in *. clearbody r1.
  unfold rd_add, sbind, getg. cbv zeta. rewrite J3. destruct J1 as [I1 I2 I3 I4 I5 I6 I7 I8].
  unfold liftR, slift. rewrite I2, (conv_row_stored _ _ _ Lc Hc).
  replace (g_batch (p_g s) <=? Zlen (r_buf r1)) with false by lia.
  assert (K : forall b, Zlen (r_buf r1 ++ [cs]) < b ->
    rd_inv b d elts T As (mkRd (r_path r1) (map snd d) (r_buf r1 ++ [cs]) (r_vls r1)) (p_out s)
           (mkC (rows ++ [cs]) arrs')).
  { intros b Hlt. constructor; cbn [r_path r_types r_vls r_buf c_rows c_arrs]; auto.
    destruct I5 as (rows0 & F & E). cbn in E. exists rows0. split; [exact F|]. rewrite E. now rewrite app_assoc. }
  cbn [r_buf]. destruct (Zlen (r_buf r1 ++ [cs]) =? g_batch (p_g s)) eqn:E.
  - edestruct (rd_write_spec (g_batch (p_g s) + 1)) as (r' & h' & W1 & W2 & W3 & W4 & W5); [lia|apply K; lia|].
    exists r', h'. rewrite W1. split; [reflexivity|]. split; [|exact W5].
    destruct W2 as [A1 A2 A3 A4 A5 A6 A7 A8].
    constructor; auto.
    assert (B : r_buf r' = []).
    { clear - W1. unfold rd_write, sbind, geth, seth in W1.
      destruct (vls_write _ _) as [[v s1]|]; [|discriminate]. injection W1 as <- _. reflexivity. }
    rewrite B. exact Hb.
  - eexists _, (p_out s). unfold sret. destruct s as [si sg so]. cbn [p_in p_g p_out] in *. split; [reflexivity|].
    split; [|auto]. apply K. rewrite Zlen_app. unfold Zlen in *. cbn [length]. rewrite app_length in E. cbn in *. lia.
Qed.
