(** * FileProofs: parse_file stores what the file says. *)
From Verif Require Import Base Flt SeqFile H5 Schema Parsers SeqSpec StoreSpec ParserSpec LayoutSpec FileSpec
  ListFacts SeqProofs SeqTerm SeqMore StoreProofs ParserRun LayoutProofs LayoutBodies.
From Coq Require Import ZifyBool ZifyNat.
Open Scope string_scope.
Open Scope Z_scope.
Open Scope list_scope.
Open Scope monad_scope.

(** ** The nodes of different record types are different *)
Definition node_names (n : string) : list string := lower_s n :: arr_names n.
Lemma own_names w n : own w n = map (fun m => w ++ [m]) (node_names n).
Proof. reflexivity. Qed.
Fixpoint nodup_b (l : list string) : bool :=
  match l with [] => true | x :: r => negb (str_in x r) && nodup_b r end.
Lemma str_in_spec x l : str_in x l = true <-> In x l.
Proof.
  unfold str_in. rewrite existsb_exists. split.
  - intros (y & H & E). apply String.eqb_eq in E. now subst.
  - intro H. exists x. split; [exact H|apply String.eqb_refl].
Qed.
Lemma nodup_b_spec l : nodup_b l = true -> NoDup l.
Proof.
  induction l as [|x r IH]; cbn; [constructor|]. intro H. apply andb_true_iff in H as [H1 H2].
  constructor; [|auto]. intro X. apply str_in_spec in X. rewrite X in H1. discriminate.
Qed.
Lemma all_nodes_nodup : NoDup (flat_map node_names stored_types).
Proof. apply nodup_b_spec. vm_compute. reflexivity. Qed.
Lemma nodup_flat {A B} (f : A -> list B) l : NoDup (flat_map f l) ->
  (forall a, In a l -> NoDup (f a)) /\
  (NoDup l -> forall a b x, In a l -> In b l -> In x (f a) -> In x (f b) -> a = b).
Proof.
  induction l as [|a l IH]; [split; easy|]. cbn [flat_map]. intro H.
  assert (D : forall x, In x (f a) -> ~ In x (flat_map f l)).
  { clear IH. revert H. induction (f a) as [|y ys IHy]; [easy|]. cbn [app]. intro H.
    inversion H as [|? ? H1 H2]; subst. rewrite in_app_iff in H1. intros x [->|Hx]; [tauto|]. now apply IHy. }
  assert (N1 : NoDup (f a)).
  { clear - H. induction (f a) as [|y ys IHy]; [constructor|]. cbn in H. inversion H as [|? ? H1 H2]; subst.
    rewrite in_app_iff in H1. constructor; [tauto|auto]. }
  assert (N2 : NoDup (flat_map f l)).
  { clear - H. induction (f a) as [|y ys IHy]; [exact H|]. cbn in H. inversion H; auto. }
  destruct (IH N2) as [I1 I2]. split.
  - intros b [->|Hb]; auto.
  - intros Hl b c x [->|Hb] [->|Hc] X Y; auto.
    + exfalso. apply (D _ X). apply in_flat_map. eauto.
    + exfalso. apply (D _ Y). apply in_flat_map. eauto.
    + inversion Hl; eauto.
Qed.
Lemma stored_nodup : NoDup stored_types.
Proof. apply nodup_b_spec. vm_compute. reflexivity. Qed.
Lemma inj_last (w : path) : forall a b : string, w ++ [a] = w ++ [b] -> a = b.
Proof. intros a b H. apply app_inv_head in H. now injection H. Qed.
Lemma own_nodup w n : In n stored_types -> NoDup (own w n).
Proof.
  intro H. rewrite own_names. apply FinFun.Injective_map_NoDup; [intros a b; apply inj_last|].
  now apply (nodup_flat _ _ all_nodes_nodup).
Qed.
Lemma own_disjoint w n m p : In n stored_types -> In m stored_types -> n <> m ->
  In p (own w n) -> ~ In p (own w m).
Proof.
  rewrite !own_names, !in_map_iff. intros Hn Hm Hne (a & <- & Ha) (b & E & Hb).
  apply inj_last in E. subst b. apply Hne.
  eapply (proj2 (nodup_flat _ _ all_nodes_nodup)); eauto using stored_nodup.
Qed.

(** ** Invariant *)
Inductive place (g : glob) (h : h5) (id : Z) (w : path) : bool -> bool -> Prop :=
| place_top hier :
    opt_truthy (g_indsel g) = false -> g_hashier g = hier -> g_attop g = hier ->
    w = [g_prefix g ++ g_ftid g ++ str_of_Z id]%string ->
    (hier = true -> exists row rows, g_htab g = Some (tpath w "HIERARCH") /\
        tab_rows (tpath w "HIERARCH") h = row :: rows /\ g_hrec g = Some row) ->
    place g h id w false hier
| place_sub p row rows t :
    g_hashier g = true -> g_attop g = false -> g_htab g = Some p -> (length p <= length w)%nat ->
    tab_rows p h = row :: rows -> col_int 2 row = Ok t ->
    w = [g_prefix g ++ g_ftid g ++ str_of_Z t;
         g_ftid g ++ str_of_Z id ++ (if opt_truthy (g_indsel g) then "_" ++ str_of_opt (g_indsel g) else "")]%string ->
    place g h id w true false.

Lemma app_nil_s s : (s ++ "")%string = s.
Proof. induction s; cbn; congruence. Qed.
Lemma place_path g h id w sub hier : place g h id w sub hier -> g_seltyp g = Some id -> id <> 0 -> get_path g h = Ok w.
Proof.
  intros P S Hid. unfold get_path. rewrite S. destruct P as [hier H1 H2 H3 -> H5|p row rows t H1 H2 H3 H4 H5 H6 ->].
  - rewrite H1, H2, H3. cbn [opt_truthy]. replace (id =? 0) with false by lia. cbn [negb]. destruct hier; reflexivity.
  - rewrite H1, H2. unfold hier_cell. rewrite H3, H5. cbn [nth_error]. rewrite H6. unfold rbind.
    destruct (opt_truthy (g_indsel g)); [|rewrite app_nil_s]; reflexivity.
Qed.

Record finv (g : glob) (h : h5) (id : Z) (w : path) (sub : bool) (st : fstate) : Prop := {
  fi_ctx : ctx_of g (s_ctx st);
  fi_batch : 0 < g_batch g;
  fi_id : g_seltyp g = (if s_known st then Some id else None);
  fi_place : place g h id w sub (s_hier st);
  fi_gr : groupable h w;
  fi_tabs : forall n, In n stored_types -> tab_ok g h w n (s_tabs st n);
  fi_names : g_names g = s_names st;
  fi_known : s_known st = true -> grouped h w }.

(** What a file does not change. *)
Definition gkeep (g g' : glob) : Prop :=
  g_ihref g' = g_ihref g /\ g_indsel g' = g_indsel g /\ g_ftid g' = g_ftid g /\
  g_prefix g' = g_prefix g /\ g_batch g' = g_batch g /\
  (g_attop g' = false -> g_attop g = false /\ g_hrec g' = g_hrec g /\ g_htab g' = g_htab g).

Lemma own_length w n p : In p (own w n) -> length p = S (length w).
Proof. rewrite own_names, in_map_iff. intros (m & <- & _). rewrite app_length. cbn. lia. Qed.
Lemma tab_rows_same h h' w ps p : same_but h h' w ps -> ~ In p ps -> tab_rows p h' = tab_rows p h.
Proof. intros S H. unfold tab_rows. destruct (S p H) as [->|(_ & -> & ->)]; reflexivity. Qed.
Lemma grouped_same h h' w n : grouped h w -> same_but h h' w (own w n) -> grouped h' w.
Proof.
  intros G S q Hq. destruct (S q) as [->|(_ & _ & ->)]; eauto. intro X. exact (leads_not_own _ _ _ Hq X).
Qed.
Lemma tab_ok_other g h g' h' w n m oc : In n stored_types -> In m stored_types -> m <> n ->
  tab_ok g h w m oc -> sget m (g_tables g') = sget m (g_tables g) -> same_but h h' w (own w n) ->
  tab_ok g' h' w m oc.
Proof.
  intros Hn Hm Hne T E S.
  assert (F : forall p, In p (own w m) -> h5_find p h' = h5_find p h).
  { intros p Hp. destruct (S p) as [->|(L & _)]; [|reflexivity|].
    - eapply own_disjoint; eauto.
    - exfalso. exact (leads_not_own _ _ _ L Hp). }
  destruct oc as [c|]; cbn [tab_ok] in *; rewrite E.
  - destruct T as (T1 & (T2 & T3) & T4 & T5). split; [exact T1|]. split; [|split; [exact T4|eapply grouped_same; eauto]].
    split; [rewrite F by (now left); exact T2|].
    assert (Q : forall p, In p (apaths w m) -> h5_find p h' = h5_find p h) by (intros p Hp; apply F; now right).
    clear - T3 Q. revert T3 Q. generalize (apaths w m) (elts_of m) (c_arrs c).
    induction l as [|p l IH]; intros [|e es] [|a as_] H Q; cbn [combine] in *; inversion H; subst; constructor.
    + cbn [fst snd] in *. rewrite Q by (now left). assumption.
    + apply IH; auto. intros x Hx. apply Q. now right.
  - destruct T as (T1 & T2). split; [exact T1|]. intros p Hp. rewrite F by exact Hp. auto.
Qed.

(** A stored run keeps the invariant. *)
Lemma finv_put g h id w sub st g' h' n c' con' hier' :
  finv g h id w sub st -> In n stored_types ->
  tab_ok g' h' w n (Some con') -> (forall m, m <> n -> sget m (g_tables g') = sget m (g_tables g)) ->
  g_batch g' = g_batch g -> g_names g' = g_names g -> g_seltyp g' = Some id -> place g' h' id w sub hier' ->
  ctx_of g' c' -> same_but h h' w (own w n) -> groupable h' w ->
  finv g' h' id w sub (mkF c' true hier' (put_tab n con' (s_tabs st)) (s_names st)).
Proof.
  intros [I1 I2 I3 I4 I5 I6 I7 I8] Hn T O E1 E2 E3 P C S G.
  constructor; cbn [s_ctx s_known s_hier s_tabs s_names]; auto.
  - lia.
  - intros m Hm. unfold put_tab. destruct (String.eqb_spec m n) as [->|Hne]; [exact T|].
    apply (tab_ok_other g h g' h' w n m); auto.
  - now rewrite E2.
  - intros _. apply T.
Qed.
Definition same_place (g g' : glob) : Prop :=
  g_indsel g' = g_indsel g /\ g_ftid g' = g_ftid g /\ g_attop g' = g_attop g /\ g_prefix g' = g_prefix g /\
  g_hashier g' = g_hashier g /\ g_htab g' = g_htab g /\ g_hrec g' = g_hrec g.
Lemma place_keep g h id w sub hier g' h' n : place g h id w sub hier -> same_place g g' ->
  same_but h h' w (own w n) -> In n stored_types -> n <> "HIERARCH" -> place g' h' id w sub hier.
Proof.
  intros I4 (E2 & E4 & E5 & E6 & E7 & E8 & E9) S Hn Hne.
  assert (HH : In "HIERARCH" stored_types) by (apply str_in_spec; vm_compute; reflexivity).
  destruct I4 as [hier H1 H2 H3 -> H5|p row rows t H1 H2 H3 H4 H5 H6 ->].
  - rewrite <- E6, <- E4. constructor; rewrite ?E2, ?E5, ?E7, ?E8, ?E9; auto.
    intro X. destruct (H5 X) as (row & rows & A & B & D). exists row, rows. rewrite E6, E4. repeat split; auto.
    rewrite (tab_rows_same _ _ _ _ _ S); [exact B|]. eapply own_disjoint; [exact HH|exact Hn|congruence|now left].
  - rewrite <- E6, <- E4, <- E2. rewrite <- E6, <- E4, <- E2 in H4.
    apply (place_sub g' h' id _ p row rows t); rewrite ?E5, ?E7, ?E8, ?E9; auto.
    rewrite (tab_rows_same _ _ _ _ _ S); [exact H5|]. intro X. apply own_length in X.
    rewrite <- E6, <- E4, <- E2 in X. lia.
Qed.
Lemma place_ext g h id w sub hier g' : place g h id w sub hier -> same_place g g' -> place g' h id w sub hier.
Proof.
  intros I4 (E2 & E4 & E5 & E6 & E7 & E8 & E9).
  destruct I4 as [hier H1 H2 H3 -> H5|p row rows t H1 H2 H3 H4 H5 H6 ->].
  - rewrite <- E6, <- E4. constructor; rewrite ?E2, ?E5, ?E7, ?E8, ?E9, ?E6, ?E4; auto.
  - rewrite <- E6, <- E4, <- E2. rewrite <- E6, <- E4, <- E2 in H4.
    apply (place_sub g' h id _ p row rows t); rewrite ?E5, ?E7, ?E8, ?E9; auto.
Qed.
Lemma finv_store g h id w sub st g' h' n c' con' :
  finv g h id w sub st -> In n stored_types -> n <> "HIERARCH" -> s_known st = true ->
  tab_ok g' h' w n (Some con') -> (forall m, m <> n -> sget m (g_tables g') = sget m (g_tables g)) ->
  gsame g g' -> ctx_of g' c' -> same_but h h' w (own w n) -> groupable h' w ->
  finv g' h' id w sub (mkF c' true (s_hier st) (put_tab n con' (s_tabs st)) (s_names st)).
Proof.
  intros HI Hn Hh K T O (E1 & E2 & E3 & E4 & E5 & E6 & E7 & E8 & E9 & E10 & E11) C S G.
  pose proof HI as [I1 I2 I3 I4 I5 I6 I7 I8]. rewrite K in I3.
  eapply finv_put; eauto; [congruence|].
  eapply place_keep; eauto. repeat split; auto.
Qed.

(** ** Readers *)
Lemma finv_modg g h id w sub st f :
  finv g h id w sub st -> gframe g (f g) -> ctx_of (f g) (s_ctx st) -> finv (f g) h id w sub st.
Proof.
  intros [I1 I2 I3 I4 I5 I6 I7 I8] (E1 & E2 & E3 & E4 & E5 & E6 & E7 & E8 & E9 & E10 & E11 & E12) C.
  constructor; auto.
  - lia.
  - now rewrite E3.
  - destruct I4 as [hier H1 H2 H3 -> H5|p row rows t H1 H2 H3 H4 H5 H6 ->].
    + rewrite <- E6, <- E4. constructor; rewrite ?E2, ?E4, ?E5, ?E6, ?E7, ?E8, ?E9; auto.
    + rewrite <- E6, <- E4, <- E2. rewrite <- E6, <- E4, <- E2 in H4.
      apply (place_sub (f g) h id _ p row rows t); rewrite ?E5, ?E7, ?E8, ?E9; auto.
  - intros n Hn. specialize (I6 n Hn). destruct (s_tabs st n); cbn [tab_ok] in *; now rewrite E11.
  - now rewrite E12.
Qed.
Lemma finv_name g h id w sub st n : finv g h id w sub st -> finv (add_name n g) h id w sub (saw st n).
Proof.
  intros [I1 I2 I3 I4 I5 I6 I7 I8]. constructor; cbn [saw s_ctx s_known s_hier s_tabs s_names]; auto.
  - destruct I1. constructor; auto.
  - eapply place_ext; [exact I4|repeat split].
  - cbn. now rewrite I7.
Qed.

Definition jref_start kinds : Jref kinds (map (fun _ => (0, 0)) (atoms_of "WDRESREF")).
Proof. exists (0, 0), (0, 0), (0, 0). cbn. auto. Qed.
Lemma jk_start kinds n : Jk kinds n (map (fun _ => (0, 0)) (atoms_of n)).
Proof. unfold Jk. destruct (String.eqb_spec n "WDRESREF") as [->|]; [apply jref_start|exact I]. Qed.

Lemma sconmesh_ref kinds k c it rest c' : layout kinds k c "SCONMESH" it rest c' ->
  exists x z, nth_error (i_fs it) 2 = Some x /\ trunc_is x z /\ z <= 1.
Proof.
  intro H. remember "SCONMESH" as n eqn:E. destruct H; try discriminate E;
  try (subst; exfalso; match goal with H : In _ _ |- _ => cbn in H;
    repeat (destruct H as [H|H]; [discriminate H|]); exact H end).
  cbn [i_fs nth_error]. eauto.
Qed.

Lemma laid_bodies : forallb (fun n => str_in n (map fst bodies)) laid_types = true.
Proof. vm_compute. reflexivity. Qed.
Lemma sget_fst {A} (l : list (string * A)) n : In n (map fst l) -> exists b, sget n l = Some b /\ In (n, b) l.
Proof.
  induction l as [|[m b] l IH]; [easy|]. cbn [map fst sget]. intro H. unfold sget, dget. fold (@dget string A).
  destruct (String.eqb_spec n m) as [->|Hne].
  - exists b. split; [reflexivity|now left].
  - destruct H as [H|H]; [congruence|]. destruct (IH H) as (b' & E & I). exists b'. split; [exact E|now right].
Qed.
Lemma laid_reader n : In n laid_types -> exists b, sget n bodies = Some b /\ sget n readers = Some (reader_for n b).
Proof.
  intro H. pose proof laid_bodies as F. rewrite forallb_forall in F. apply F in H. apply str_in_spec in H.
  apply sget_fst in H as (b & E & I). exists b. split; [exact E|].
  pose proof bodies_readers as B. rewrite Forall_forall in B. exact (B _ I).
Qed.
Lemma laid_stored n : In n laid_types -> In n stored_types /\ n <> "HIERARCH" /\ n <> "".
Proof.
  unfold laid_types. rewrite filter_In. intros [H1 H2]. split; [exact H1|]. split; intros ->; [discriminate|].
  apply str_in_spec in H1. vm_compute in H1. discriminate.
Qed.

Lemma enc_run_first (L : kind -> ctx -> string -> item -> list ascii -> ctx -> Prop) k n c it its c' m mfs bs tail :
  enc_run L k n c it its c' m mfs bs tail -> exists rest c1, L k c n it rest c1.
Proof. destruct 1; eauto. Qed.

Definition keeps (g g' : glob) (h h' : h5) (w : path) : Prop := gkeep g g' /\ same_but h h' w (all_own w).
Lemma in_all_own w n : In n stored_types -> incl (own w n) (all_own w).
Proof. intros H p Hp. apply in_flat_map. eauto. Qed.

Lemma laid_step kinds k id w sub st g h fr n it its c' m mfs bs tail con' :
  id <> 0 -> finv g h id w sub st -> In n laid_types -> s_known st = true ->
  enc_run (layout kinds) k n (s_ctx st) it its c' m mfs bs tail ->
  put_entries (cols_of n) (elts_of n) (base_content n (s_tabs st n)) (map i_entry (it :: its)) con' ->
  exists rd g' h' fr', sget n readers = Some rd /\
    rd n (i_fs it) (mkP (mkIn k bs false fr) g h) = Ok ((m, mfs), mkP (mkIn k tail false fr') g' h') /\
    finv g' h' id w sub (mkF c' true (s_hier st) (put_tab n con' (s_tabs st)) (s_names st)) /\ keeps g g' h h' w.
Proof.
  intros Hid HI Hn K HR HP.
  destruct (laid_reader n Hn) as (b & B1 & B2). destruct (laid_stored n Hn) as (N1 & N2 & N3).
  assert (X : forall g, finv g h id w sub st -> exists g' h' fr',
    run_reader b n (i_fs it) (mkP (mkIn k bs false fr) g h) = Ok ((m, mfs), mkP (mkIn k tail false fr') g' h') /\
    finv g' h' id w sub (mkF c' true (s_hier st) (put_tab n con' (s_tabs st)) (s_names st)) /\ keeps g g' h h' w).
  { clear g HI. intros g HI. pose proof HI as [I1 I2 I3 I4 I5 I6 I7 I8].
    rewrite K in I3. pose proof (place_path _ _ _ _ _ _ I4 I3 Hid) as PT.
    destruct (run_reader_spec (layout kinds) (Jk kinds n) b n (jk_start kinds n)
      (fun k0 c0 it0 rest0 c1 HL => layout_reads kinds k0 c0 n it0 rest0 c1 HL b B1)
      k (s_ctx st) it its c' m mfs bs tail g h fr w (s_tabs st n) con' HR I1 I2 PT I5 (own_nodup w n N1) (I6 n N1) HP)
      as (g' & h' & fr' & E & T & O & S & C & SB & G).
    exists g', h', fr'. split; [exact E|]. split.
    - eapply finv_store; eauto.
    - split; [unfold gkeep; destruct S; intuition congruence|]. eapply same_but_incl; [exact SB|now apply in_all_own]. }
  exists (reader_for n b). unfold reader_for in *.
  destruct (String.eqb_spec n "SCONMESH") as [->|Ns]; [|destruct (String.eqb_spec n "RDIELCOR") as [->|Nr]].
  - destruct (X g HI) as (g' & h' & fr' & E & R). exists g', h', fr'. split; [exact B2|]. split; [|exact R].
    unfold rd_sconmesh. unfold sbind at 1. destruct (enc_run_first _ _ _ _ _ _ _ _ _ _ _ HR) as (rest & c1 & L).
    destruct (sconmesh_ref _ _ _ _ _ _ L) as (x & z & Q1 & Q2 & Q3). rewrite (lift_int _ 2 _ _ _ Q1 Q2).
    replace (1 <? z) with false by lia. injection B1 as <-. exact E.
  - destruct (X (set_ielcor None g)) as (g' & h' & fr' & E & R).
    { apply finv_modg with (f := set_ielcor None); [exact HI|repeat split|]. destruct (fi_ctx _ _ _ _ _ _ HI). constructor; auto. }
    exists g', h', fr'. split; [exact B2|]. split; [|exact R].
    unfold rd_rdielcor. unfold sbind at 1. unfold modg. cbn [p_in p_g p_out]. injection B1 as <-. exact E.
  - destruct (X g HI) as (g' & h' & fr' & E & R). exists g', h', fr'. auto.
Qed.

(** Tables without companion arrays, row by row. *)
Lemma put_plain n con e con' : atoms_of n = [] -> put_entry (cols_of n) (elts_of n) con e con' ->
  exists cs, conv_row (map snd (table_descr n)) (e_row e) = Ok cs /\ con' = mkC (c_rows con ++ [cs]) [] /\ e_data e = [].
Proof.
  intros Ha H. unfold elts_of in H. rewrite Ha in H. destruct H as [rows arrs e cs ds arrs' L1 L2 Hc Lc Hd Hp].
  destruct arrs; [|discriminate]. destruct (e_data e) eqn:E; [|discriminate].
  inversion Hd; subst. inversion Hp; subst. exists cs. cbn [ranges map] in *. rewrite app_nil_r in *.
  split; [now apply conv_row_stored|]. auto.
Qed.
Lemma append_holds h w n con cs : atoms_of n = [] -> holds h w n con ->
  holds (h5_upd (tpath w n) (append_rows [cs]) h) w n (mkC (c_rows con ++ [cs]) []).
Proof.
  intros Ha [H1 H2]. split.
  - rewrite find_upd_same, H1. reflexivity.
  - unfold apaths, arr_names. rewrite Ha. constructor.
Qed.
Lemma append_same h h1 w n cs : same_but h h1 w (own w n) ->
  same_but h (h5_upd (tpath w n) (append_rows [cs]) h1) w (own w n).
Proof.
  intros S q Hq. rewrite find_upd_other; [now apply S|]. intros <-. apply Hq. now left.
Qed.
Lemma append_groupable h w n cs : groupable h w -> groupable (h5_upd (tpath w n) (append_rows [cs]) h) w.
Proof.
  intros G q Hq. rewrite find_upd_other; [now apply G|]. intros <-. now apply leads_not_leaf in Hq.
Qed.
Lemma append_grouped h w n cs : grouped h w -> grouped (h5_upd (tpath w n) (append_rows [cs]) h) w.
Proof.
  intros G q Hq. rewrite find_upd_other; [now apply G|]. intros <-. now apply leads_not_leaf in Hq.
Qed.

Lemma set_seltyp_frame z g : g_indsel (set_seltyp z g) = g_indsel g. Proof. reflexivity. Qed.
Lemma ident_step k id w sub st g h fr f gg x fs a b d con' m mfs bs tail :
  id <> 0 -> finv g h id w sub st ->
  trunc_is f a -> trunc_is gg b -> trunc_is x d -> (s_known st = false -> b = id) ->
  put_entries (cols_of "IDENT") (elts_of "IDENT") (base_content "IDENT" (s_tabs st "IDENT"))
                  [mkEntry [PI a; PI b; PI d] []] con' ->
  enc_next k m mfs bs tail ->
  exists g' h' fr',
    rd_ident "IDENT" (f :: gg :: x :: fs) (mkP (mkIn k bs false fr) g h) = Ok ((m, mfs), mkP (mkIn k tail false fr') g' h') /\
    finv g' h' id w sub (mkF (s_ctx st) true (s_hier st) (put_tab "IDENT" con' (s_tabs st)) (s_names st)) /\ keeps g g' h h' w.
Proof.
  intros Hid HI Ta Tb Td Hb HP HN. pose proof HI as [I1 I2 I3 I4 I5 I6 I7 I8].
  assert (HS : In "IDENT" stored_types) by (apply str_in_spec; vm_compute; reflexivity).
  apply put_cons_inv in HP as (con1 & P1 & P2). apply put_nil_inv in P2. subst con1.
  destruct (put_plain "IDENT" _ _ _ eq_refl P1) as (cs & Q1 & Q2 & _). cbn [e_row] in Q1.
  set (g1 := set_seltyp (Some id) g).
  assert (E1 : (if opt_truthy (g_seltyp g) then sret tt
       else do st <- liftR (int_at (f :: gg :: x :: fs) 1); modg (set_seltyp (Some st))) (mkP (mkIn k bs false fr) g h)
     = Ok (tt, mkP (mkIn k bs false fr) g1 h)).
  { rewrite I3. destruct (s_known st).
    - cbn [opt_truthy]. replace (id =? 0) with false by lia. cbn [negb]. unfold sret, g1.
      destruct g; cbn in *. now rewrite I3.
    - cbn [opt_truthy]. unfold sbind. rewrite (lift_int (f :: gg :: x :: fs) 1 _ _ _ eq_refl Tb). unfold modg. cbn [p_in p_g p_out].
      now rewrite Hb. }
  assert (PT : get_path g1 h = Ok w).
  { eapply place_path; [|reflexivity|exact Hid]. eapply place_ext; [exact I4|repeat split]. }
  assert (T1 : tab_ok g1 h w "IDENT" (s_tabs st "IDENT")) by (apply (I6 _ HS)).
  destruct (get_table_spec g1 h w "IDENT" _ (mkIn k bs false fr) T1 PT I5 (own_nodup w _ HS))
    as (g2 & h2 & E2 & T2 & H2 & F2 & O2 & S2 & G2 & L2).
  unfold rd_ident. unfold sbind at 1. unfold getg. cbn [p_g]. unfold sbind at 1. rewrite E1.
  unfold sbind at 1. rewrite E2. do 3 (unfold sbind at 1).
  rewrite (lift_int (f :: gg :: x :: fs) 0 _ _ _ eq_refl Ta), (lift_int (f :: gg :: x :: fs) 1 _ _ _ eq_refl Tb), (lift_int (f :: gg :: x :: fs) 2 _ _ _ eq_refl Td).
  unfold sbind at 1. unfold liftR at 1, slift at 1. rewrite Q1. cbv [sbind geth seth]. cbn [p_in p_g p_out fst].
  destruct (rheader_next k m mfs bs tail (mkP (mkIn k bs false fr) g2 (h5_upd (tpath w "IDENT") (append_rows [cs]) h2)) HN eq_refl eq_refl)
    as (fr' & E3). rewrite E3. cbn [p_g p_out].
  eexists _, _, fr'. split; [reflexivity|].
  destruct F2 as (Q01 & Q02 & Q3 & Q4 & Q5 & Q6 & Q7 & Q8 & Q9 & Q10 & Q11 & Q12 & Q13 & Q14 & Q15 & Q16 & Q17).
  assert (SB : same_but h (h5_upd (tpath w "IDENT") (append_rows [cs]) h2) w (own w "IDENT")) by now apply append_same.
  split.
  - eapply finv_put; eauto.
    + split; [exact T2|]. split; [rewrite Q2; apply append_holds; [reflexivity|exact H2]|]. split.
      * right. rewrite Q2. cbn [c_rows]. destruct (c_rows _); discriminate.
      * now apply append_grouped.
    + eapply place_keep; [exact I4| |exact SB|exact HS|discriminate]. repeat split; auto.
    + destruct I1. constructor; rewrite ?Q12, ?Q13, ?Q14, ?Q15, ?Q16; auto.
    + now apply append_groupable.
  - change (g_attop g2 = g_attop g) in Q5. change (g_hrec g2 = g_hrec g) in Q9.
    split; [repeat split; auto; congruence|]. eapply same_but_incl; [exact SB|now apply in_all_own].
Qed.

(** ** HIERARCH *)
Lemma ok_hierarch k c it rest c' : hier_layout k c "HIERARCH" it rest c' -> body_ok Jany b_hierarch k c "HIERARCH" it rest c'.
Proof.
  destruct 1 as [fs a b d ns ih bs rest L T H]. st H A. unfold b_hierarch, sbind. rd A [a; b; d; ns] ih.
  rewrite (lift_int [a; b; d; ns] 3 _ _ _ eq_refl T). rd A ih (@nil flt). fin2 A; apply HC.
Qed.
Lemma at_swap k ld d pad rest g h s g' h' : at_ k ld d pad rest g h s -> at_ k ld d pad rest g' h' (mkP (p_in s) g' h').
Proof. intros [A B C]. now split. Qed.

Definition hier_tail (n n1 : string) (fs1 : list flt) (t : path) (r1 : recd) : P (string * list flt) := fun s =>
    (do (x, r) <- run_loop (fuel_of s) n b_hierarch n1 fs1 r1;
     dos rd_write r;
     do h <- geth;
     match tab_rows t h with
     | [] => sraise IndexError
     | row :: _ => dos modg (set_top t row); sret x
     end) s.

Lemma hier_first k id w st g h fr it c1 x n1 fs1 rest tail con1 :
  id <> 0 -> finv g h id w false st ->
  hier_layout k (s_ctx st) "HIERARCH" it rest c1 -> enc_next k n1 fs1 rest tail ->
  nth_error (i_fs it) 2 = Some x -> trunc_is x id ->
  put_entry (cols_of "HIERARCH") (elts_of "HIERARCH") (base_content "HIERARCH" (s_tabs st "HIERARCH")) (i_entry it) con1 ->
  exists g2 h2 r1 fr1,
    rd_hierarch "HIERARCH" (i_fs it) (mkP (mkIn k (i_bs it ++ rest) false fr) g h) =
      hier_tail "HIERARCH" n1 fs1 (tpath w "HIERARCH") r1 (mkP (mkIn k tail false fr1) g2 h2) /\
    rd_inv (g_batch g) (table_descr "HIERARCH") (elts_of "HIERARCH") (tpath w "HIERARCH") (apaths w "HIERARCH") r1 h2 con1 /\
    gtables_frame (set_seltyp (Some id) g) g2 /\
    sget "HIERARCH" (g_tables g2) = Some (tpath w "HIERARCH", apaths w "HIERARCH") /\
    (forall m, m <> "HIERARCH" -> sget m (g_tables g2) = sget m (g_tables g)) /\
    c1 = s_ctx st /\ same_but h h2 w (own w "HIERARCH") /\ groupable h2 w /\ grouped h2 w.
Proof.
  intros Hid HI HL HN Hx Tx HP. pose proof HI as [I1 I2 I3 I4 I5 I6 I7 I8].
  assert (HS : In "HIERARCH" stored_types) by (apply str_in_spec; vm_compute; reflexivity).
  destruct HL as [fs a b d ns ih bs rest L T H]. cbn [i_fs i_bs i_entry] in *.
  destruct (at_start k Lead0 _ bs rest g h fr H) as (pad & A).
  set (s0 := mkP (mkIn k (bs ++ rest) false fr) g h) in *; clearbody s0.
  unfold rd_hierarch. unfold sbind at 1. rd A [a; b; d; ns] ih. unfold sbind at 1.
  rewrite (lift_int fs 2 _ _ _ Hx Tx). unfold sbind at 1. unfold modg at 1.
  rewrite (at_g _ _ _ _ _ _ _ _ A), (at_h _ _ _ _ _ _ _ _ A).
  set (g1 := set_seltyp (Some id) g).
  assert (PT : get_path g1 h = Ok w).
  { eapply place_path; [|reflexivity|exact Hid]. eapply place_ext; [exact I4|repeat split]. }
  assert (T1 : tab_ok g1 h w "HIERARCH" (s_tabs st "HIERARCH")) by (apply (I6 _ HS)).
  destruct (get_table_spec g1 h w "HIERARCH" _ (p_in s) T1 PT I5 (own_nodup w _ HS))
    as (g2 & h2 & E2 & T2 & H2 & F2 & O2 & S2 & G2 & L2).
  unfold sbind at 1. rewrite E2. unfold sbind at 1. unfold geth at 1. cbn [p_out].
  apply at_swap with (g' := g2) (h' := h2) in A. set (s1 := mkP (p_in s) g2 h2) in *. clearbody s1.
  unfold sbind at 1. rewrite (lift_int [a; b; d; ns] 3 _ _ _ eq_refl T). unfold sbind at 1. rd A ih (@nil flt).
  destruct (at_done _ _ _ _ _ _ _ A) as (D1 & D2 & D3 & D4).
  assert (B2 : g_batch g2 = g_batch g) by apply F2.
  pose proof (rd_init_inv (g_batch g) h2 w "HIERARCH" _ I2 H2 (own_nodup w _ HS)) as RI.
  edestruct (rd_add_spec (table_descr "HIERARCH") (elts_of "HIERARCH") (tpath w "HIERARCH") (apaths w "HIERARCH")
     (rd_init "HIERARCH" (tpath w "HIERARCH", apaths w "HIERARCH") h2)
     (mkEntry (nums (fs ++ [a; b; d; ns])) [nums ih]) (base_content "HIERARCH" (s_tabs st "HIERARCH")) con1 s2) as (r1 & h3 & A1 & A2 & A3);
    rewrite ?D3, ?D4, ?B2; auto.
  cbn [e_row e_data number combine length seq] in A1.
  unfold sbind at 1. change (pfs (fs ++ [a; b; d; ns])) with (nums (fs ++ [a; b; d; ns])). change (pfs ih) with (nums ih).
  cbn [fst snd]. change (number [nums ih]) with [(0%nat, nums ih)] in A1. rewrite A1.
  destruct (rheader_next k n1 fs1 rest tail (pseth s2 h3) HN) as (fr2 & N2); auto.
  unfold sbind at 1. rewrite N2. unfold pseth. cbn [p_g p_out]. rewrite D4.
  exists g2, h3, r1, fr2. rewrite D3, D4, B2 in *.
  assert (SB : same_but h h3 w (own w "HIERARCH")).
  { intros q Hq. rewrite A3 by exact Hq. now apply S2. }
  split; [reflexivity|]. split; [exact A2|]. split; [exact F2|]. split; [exact T2|]. split; [exact O2|].
  split; [reflexivity|]. split; [exact SB|]. split.
  - intros q Hq. rewrite A3 by (intro X; exact (leads_not_own _ _ _ Hq X)). now apply G2.
  - intros q Hq. rewrite A3 by (intro X; exact (leads_not_own _ _ _ Hq X)). now apply L2.
Qed.

Lemma hier_step k id w st g h fr it its c' x m mfs bs tail con' :
  id <> 0 -> finv g h id w false st ->
  nth_error (i_fs it) 2 = Some x -> trunc_is x id ->
  enc_run hier_layout k "HIERARCH" (s_ctx st) it its c' m mfs bs tail ->
  put_entries (cols_of "HIERARCH") (elts_of "HIERARCH") (base_content "HIERARCH" (s_tabs st "HIERARCH"))
              (map i_entry (it :: its)) con' ->
  exists g' h' fr',
    rd_hierarch "HIERARCH" (i_fs it) (mkP (mkIn k bs false fr) g h) = Ok ((m, mfs), mkP (mkIn k tail false fr') g' h') /\
    finv g' h' id w false (mkF c' true true (put_tab "HIERARCH" con' (s_tabs st)) (s_names st)) /\ keeps g g' h h' w.
Proof.
  intros Hid HI Hx Tx HR HP. pose proof HI as [I1 I2 I3 I4 I5 I6 I7 I8].
  assert (HS : In "HIERARCH" stored_types) by (apply str_in_spec; vm_compute; reflexivity).
  pose proof (put_entries_rows _ _ _ _ _ HP) as Rows. cbn [map length] in Rows.
  cbn [map] in HP. apply put_cons_inv in HP as (con1 & P1 & P2).
  assert (X : exists g3 h3 r3 fr3,
     rd_hierarch "HIERARCH" (i_fs it) (mkP (mkIn k bs false fr) g h) =
     (dos rd_write r3; do h <- geth; match tab_rows (tpath w "HIERARCH") h with
        | [] => sraise IndexError | row :: _ => dos modg (set_top (tpath w "HIERARCH") row); sret (m, mfs) end)
        (mkP (mkIn k tail false fr3) g3 h3) /\
     rd_inv (g_batch g) (table_descr "HIERARCH") (elts_of "HIERARCH") (tpath w "HIERARCH") (apaths w "HIERARCH") r3 h3 con' /\
     gsame (set_seltyp (Some id) g) g3 /\ ctx_of g3 c' /\
     sget "HIERARCH" (g_tables g3) = Some (tpath w "HIERARCH", apaths w "HIERARCH") /\
     (forall m, m <> "HIERARCH" -> sget m (g_tables g3) = sget m (g_tables g)) /\
     same_but h h3 w (own w "HIERARCH") /\ groupable h3 w /\ grouped h3 w).
  { inversion HR as [c it0 c1 n1 fs1 rest tl HL HN Hne|c it0 c1 it2 its2 c2 n1 fs1 hb rest tl HL HH HR2]; subst.
    - apply put_nil_inv in P2. subst con1.
      destruct (hier_first k id w st g h fr it c' x m mfs rest tail con' Hid HI HL HN Hx Tx P1)
        as (g2 & h2 & r1 & fr1 & E & R1 & F2 & T2 & O2 & -> & S2 & G2 & L2).
      exists g2, h2, r1, fr1. split; [|split; [exact R1|split; [|split; [|auto 10]]]].
      + rewrite E. unfold hier_tail, fuel_of. cbn [p_in f_rest run_loop]. apply String.eqb_neq in Hne.
        unfold sbind at 1. rewrite Hne. reflexivity.
      + destruct F2 as (Q01 & Q02 & Q3 & Q4 & Q5 & Q6 & Q7 & Q8 & Q9 & Q10 & Q11 & _). repeat split; auto.
      + destruct F2 as (_ & _ & _ & _ & _ & _ & _ & _ & _ & _ & _ & Q12 & Q13 & Q14 & Q15 & Q16 & Q17).
        destruct I1. constructor; rewrite ?Q12, ?Q13, ?Q14, ?Q15, ?Q16; auto.
    - destruct (hier_first k id w st g h fr it c1 x "HIERARCH" (i_fs it2) (hb ++ rest) rest con1 Hid HI HL
         (next_header _ _ _ _ _ HH) Hx Tx P1)
        as (g2 & h2 & r1 & fr1 & E & R1 & F2 & T2 & O2 & -> & S2 & G2 & L2).
      assert (B2 : g_batch g2 = g_batch g) by apply F2.
      assert (C2 : ctx_of g2 (s_ctx st)).
      { destruct F2 as (_ & _ & _ & _ & _ & _ & _ & _ & _ & _ & _ & Q12 & Q13 & Q14 & Q15 & Q16 & Q17).
        destruct I1. constructor; rewrite ?Q12, ?Q13, ?Q14, ?Q15, ?Q16; auto. }
      edestruct (run_loop_spec hier_layout b_hierarch "HIERARCH" Jany ok_hierarch k (s_ctx st) it2 its2 c' m mfs rest tail HR2
        (table_descr "HIERARCH") (elts_of "HIERARCH") (tpath w "HIERARCH") (apaths w "HIERARCH") r1 g2 h2 fr1 con1 con'
        (fuel_of (mkP (mkIn k rest false fr1) g2 h2))) as (r3 & h3 & g3 & fr3 & E3 & R3 & F3 & C3 & O3); rewrite ?B2; auto.
      { exact I. }
      { unfold fuel_of. cbn [p_in f_rest]. apply enc_run_len in HR2. lia. }
      exists g3, h3, r3, fr3. rewrite B2 in R3. split; [|split; [exact R3|split; [|split; [exact C3|]]]].
      + rewrite E. unfold hier_tail. unfold sbind at 1. rewrite E3. reflexivity.
      + destruct F2 as (Q01 & Q02 & Q3 & Q4 & Q5 & Q6 & Q7 & Q8 & Q9 & Q10 & Q11 & _).
        destruct F3 as (V1 & V2 & V3 & V4 & V5 & V6 & V7 & V8 & V9 & V10 & V11 & V12).
        unfold gsame. intuition congruence.
      + assert (T3 : g_tables g3 = g_tables g2) by apply F3. rewrite T3.
        split; [exact T2|]. split; [exact O2|]. split; [|split].
        * intros q Hq. rewrite O3 by exact Hq. now apply S2.
        * intros q Hq. rewrite O3 by (intro X; exact (leads_not_own _ _ _ Hq X)). now apply G2.
        * intros q Hq. rewrite O3 by (intro X; exact (leads_not_own _ _ _ Hq X)). now apply L2. }
  destruct X as (g3 & h3 & r3 & fr3 & E & R3 & F3 & C3 & T3 & O3 & S3 & G3 & L3).
  rewrite E. unfold sbind at 1.
  edestruct (rd_write_spec (g_batch g) _ _ _ _ r3 (mkP (mkIn k tail false fr3) g3 h3) con' I2 R3)
    as (r4 & h4 & E4 & _ & T4 & A4 & O4).
  rewrite E4. cbn [pseth p_in p_g p_out] in *. unfold sbind at 1. unfold geth at 1, pseth at 1. cbn [p_out].
  unfold tab_rows. rewrite T4. destruct (c_rows con') as [|row rows] eqn:CR; [cbn in Rows; lia|].
  unfold sbind, modg, sret, pseth. cbn [p_in p_g p_out].
  eexists _, h4, fr3. split; [reflexivity|].
  assert (SB : same_but h h4 w (own w "HIERARCH")).
  { intros q Hq. rewrite O4 by exact Hq. now apply S3. }
  destruct F3 as (V1 & V2 & V3 & V4 & V5 & V6 & V7 & V8 & V9 & V10 & V11). cbn in V3.
  assert (L4 : grouped h4 w).
  { intros q Hq. rewrite O4 by (intro X; exact (leads_not_own _ _ _ Hq X)). now apply L3. }
  split.
  - eapply finv_put; eauto.
    + split; [exact T3|]. split; [split; [now rewrite CR|exact A4]|]. split; [right; rewrite CR; discriminate|exact L4].
    + inversion I4 as [hier H1 H2 H3 H4 H5|]; subst. constructor; cbn [set_top g_indsel g_hashier g_attop g_prefix g_ftid].
      * now rewrite V2.
      * reflexivity.
      * reflexivity.
      * rewrite V6, V4. reflexivity.
      * intros _. exists row, rows. repeat split. unfold tab_rows. now rewrite T4.
    + destruct C3. constructor; auto.
    + intros q Hq. rewrite O4 by (intro X; exact (leads_not_own _ _ _ Hq X)). now apply G3.
  - split; [repeat split; auto; discriminate|]. eapply same_but_incl; [exact SB|now apply in_all_own].
Qed.

(** ** RSUPTRAN, HSUPTRAN *)
Lemma matrix_length (n : nat) : forall (m : nat) rows, matrix m n rows -> length (concat rows) = (m * n)%nat.
Proof.
  induction m as [|m IH]; intros [|r rows] [L H]; try discriminate; [reflexivity|].
  inversion H as [|? ? H1 H2]; subst. cbn [concat]. rewrite app_length, IH; [lia|]. split; [cbn in L; lia|exact H2].
Qed.
Lemma ok_suptran k c n it rest c' : tran_layout k c n it rest c' -> body_ok Jany b_xsuptran k c n it rest c'.
Proof.
  destruct 1 as [n nf it nf' it' x y rows v bs rest Hn T1 T2 M E H].
  pose proof (matrix_length 4 4 _ M) as L. rewrite E in L. cbn [length] in L.
  st H A. unfold b_xsuptran, sbind.
  rewrite (lift_int [nf; it; x; y] 0 _ _ _ eq_refl T1), (lift_int [nf; it; x; y] 1 _ _ _ eq_refl T2).
  rd A v (@nil flt). change (slice_from 2 [nf; it; x; y] ++ v) with (x :: y :: v). rewrite <- E.
  rewrite (rows_of_matrix 3 4 _ M). fin2 A; apply HC.
Qed.
Lemma tran_data k c n it rest c' : tran_layout k c n it rest c' -> e_data (i_entry it) = [].
Proof. now destruct 1. Qed.

Lemma xsup_step k n w c it c1 rest g h fr m mfs tail con con1 fuel :
  atoms_of n = [] ->
  tran_layout k c n it rest c1 -> enc_next k m mfs rest tail -> ctx_of g c ->
  holds h w n con -> put_entry (cols_of n) (elts_of n) con (i_entry it) con1 ->
  exists g' h' fr',
    xsup_loop (S fuel) n (tpath w n) n (i_fs it) (mkP (mkIn k (i_bs it ++ rest) false fr) g h) =
    xsup_loop fuel n (tpath w n) m mfs (mkP (mkIn k tail false fr') g' h') /\
    gframe g g' /\ ctx_of g' c1 /\ holds h' w n con1 /\ same_but h h' w (own w n) /\
    (groupable h w -> groupable h' w) /\ (grouped h w -> grouped h' w).
Proof.
  intros Ha HL HN HC HH HP.
  destruct (ok_suptran _ _ _ _ _ _ HL g h fr HC) as (ad & s1 & E1 & _ & B1 & B2 & B3 & B4 & B5).
  destruct (put_plain n _ _ _ Ha HP) as (cs & Q1 & Q2 & _).
  cbn [xsup_loop]. rewrite String.eqb_refl. unfold sbind at 1. rewrite E1. cbv beta iota.
  unfold sbind at 1. unfold liftR at 1, slift at 1. rewrite Q1.
  unfold sbind at 1. unfold geth at 1. unfold sbind at 1. unfold seth at 1.
  destruct (rheader_next k m mfs rest tail (mkP (p_in s1) (p_g s1) (h5_upd (tpath w n) (append_rows [cs]) (p_out s1))) HN B1 B2) as (fr' & E3).
  unfold sbind at 1. rewrite E3. cbn [p_g p_out]. rewrite B3.
  eexists _, _, fr'. split; [reflexivity|]. split; [exact B4|]. split; [exact B5|]. split; [rewrite Q2; now apply append_holds|].
  split; [apply append_same; intros q _; now left|]. split; [apply append_groupable|apply append_grouped].
Qed.
Lemma xsup_spec k n w c it its c' m mfs bs tail :
  enc_run tran_layout k n c it its c' m mfs bs tail -> atoms_of n = [] ->
  forall g h fr con con' fuel, ctx_of g c -> holds h w n con ->
    put_entries (cols_of n) (elts_of n) con (map i_entry (it :: its)) con' -> (length its < fuel)%nat ->
  exists g' h' fr',
    xsup_loop fuel n (tpath w n) n (i_fs it) (mkP (mkIn k bs false fr) g h) = Ok ((m, mfs), mkP (mkIn k tail false fr') g' h') /\
    gframe g g' /\ ctx_of g' c' /\ holds h' w n con' /\ same_but h h' w (own w n) /\
    (groupable h w -> groupable h' w) /\ (grouped h w -> grouped h' w).
Proof.
  intros HR Ha. induction HR as [c it c' m mfs bs tail HL HN Hne | c it c1 it2 its c' m mfs hb bs tail HL HH HR IH];
    intros g h fr con con' fuel HC HH0 HP Hf; (destruct fuel as [|fuel]; [lia|]);
    cbn [map] in HP; apply put_cons_inv in HP as (con1 & P1 & P2).
  - apply put_nil_inv in P2. subst con1.
    destruct (xsup_step k n w c it c' bs g h fr m mfs tail con con' fuel Ha HL HN HC HH0 P1) as (g' & h' & fr' & E & R).
    exists g', h', fr'. split; [|exact R]. rewrite E. apply String.eqb_neq in Hne. destruct fuel; cbn [xsup_loop]; rewrite Hne; reflexivity.
  - destruct (xsup_step k n w c it c1 (hb ++ bs) g h fr n (i_fs it2) bs con con1 fuel Ha HL (next_header _ _ _ _ _ HH) HC HH0 P1)
      as (g1 & h1 & fr1 & E & F1 & C1 & H1 & S1 & G1 & L1).
    destruct (IH g1 h1 fr1 con1 con' fuel C1 H1 P2) as (g' & h' & fr' & E' & F' & C' & H' & S' & G' & L').
    { cbn [length] in Hf. lia. }
    exists g', h', fr'. rewrite E, E'. split; [reflexivity|]. split; [eapply gframe_trans; eauto|]. split; [exact C'|].
    split; [exact H'|]. split; [|auto]. eapply same_but_incl; [eapply same_but_trans; [exact S1|exact S']|].
    intros q Hq. apply in_app_iff in Hq. tauto.
Qed.

Lemma tran_facts n : In n tran_types -> In n stored_types /\ n <> "HIERARCH" /\ atoms_of n = [] /\
  sget n readers = Some rd_xsuptran.
Proof. intros [<-|[<-|[]]]; (split; [apply str_in_spec; vm_compute; reflexivity|]; repeat split; discriminate). Qed.

Lemma tran_step k id w sub st g h fr n it its c' m mfs bs tail con' :
  id <> 0 -> finv g h id w sub st -> In n tran_types -> s_known st = true ->
  enc_run tran_layout k n (s_ctx st) it its c' m mfs bs tail ->
  put_entries (cols_of n) (elts_of n) (base_content n (s_tabs st n)) (map i_entry (it :: its)) con' ->
  exists g' h' fr',
    rd_xsuptran n (i_fs it) (mkP (mkIn k bs false fr) g h) = Ok ((m, mfs), mkP (mkIn k tail false fr') g' h') /\
    finv g' h' id w sub (mkF c' true (s_hier st) (put_tab n con' (s_tabs st)) (s_names st)) /\ keeps g g' h h' w.
Proof.
  intros Hid HI Hn K HR HP. pose proof HI as [I1 I2 I3 I4 I5 I6 I7 I8].
  destruct (tran_facts n Hn) as (N1 & N2 & N3 & _). rewrite K in I3.
  pose proof (place_path _ _ _ _ _ _ I4 I3 Hid) as PT.
  destruct (get_table_spec g h w n _ (mkIn k bs false fr) (I6 n N1) PT I5 (own_nodup w _ N1))
    as (g2 & h2 & E2 & T2 & H2 & F2 & O2 & S2 & G2 & L2).
  assert (C2 : ctx_of g2 (s_ctx st)).
  { destruct F2 as (_ & _ & _ & _ & _ & _ & _ & _ & _ & _ & _ & Q12 & Q13 & Q14 & Q15 & Q16 & Q17).
    destruct I1. constructor; rewrite ?Q12, ?Q13, ?Q14, ?Q15, ?Q16; auto. }
  edestruct (xsup_spec k n w _ _ _ _ _ _ _ _ HR N3 g2 h2 fr (base_content n (s_tabs st n)) con'
    (fuel_of (mkP (mkIn k bs false fr) g2 h2)) C2 H2 HP) as (g' & h' & fr' & E3 & F3 & C3 & H3 & S3 & G3 & L3).
  { unfold fuel_of. cbn [p_in f_rest]. apply enc_run_len in HR. lia. }
  exists g', h', fr'. split; [unfold rd_xsuptran; unfold sbind at 1; rewrite E2; exact E3|].
  pose proof (put_entries_rows _ _ _ _ _ HP) as Rows. cbn [map length] in Rows.
  assert (SB : same_but h h' w (own w n)).
  { eapply same_but_incl; [eapply same_but_trans; [exact S2|exact S3]|]. intros q Hq. apply in_app_iff in Hq. tauto. }
  destruct F2 as (Q01 & Q02 & Q3 & Q4 & Q5 & Q6 & Q7 & Q8 & Q9 & Q10 & Q11 & _).
  destruct F3 as (V1 & V2 & V3 & V4 & V5 & V6 & V7 & V8 & V9 & V10 & V11 & V12).
  assert (GS : gsame g g') by (unfold gsame; intuition congruence).
  split.
  - eapply finv_store; eauto.
    + split; [rewrite V11; exact T2|]. split; [exact H3|]. split; [|auto]. right. intro X. rewrite X in Rows. cbn in Rows. lia.
    + intros x Hx. rewrite V11. now apply O2.
  - split; [unfold gkeep; intuition congruence|]. eapply same_but_incl; [exact SB|now apply in_all_own].
Qed.

(** ** Records passed over *)
Lemma enc_pass_fuel k n : forall fs bs m mfs tail, enc_pass k n fs bs m mfs tail -> n <> "" ->
  forall fuel s, (length bs <= fuel)%nat -> f_kind (p_in s) = k -> f_rest (p_in s) = bs ->
  exists fr', skip_run (S fuel) n n fs s = Ok ((m, mfs), mkP (mkIn k tail false fr') (p_g s) (p_out s)).
Proof.
  induction 1 as [fs rb bs m mfs tail HR HN Hne | fs rb fs2 hb bs m mfs tail HR HH HP IH];
    intros Hn fuel s Hf Hk Hr; cbn [skip_run]; rewrite String.eqb_refl; unfold sbind, liftF;
    destruct s as [[k0 r0 hr fr] g h]; cbn [p_in f_kind f_rest p_g p_out] in *; subst k0 r0.
  - destruct (skip_restofrecord_spec k n fs m mfs rb bs tail hr fr HR HN) as (fr' & E). rewrite E.
    exists fr'. apply String.eqb_neq in Hne. destruct fuel; cbn [skip_run]; rewrite Hne; reflexivity.
  - destruct (skip_restofrecord_spec k n fs n fs2 rb (hb ++ bs) bs hr fr HR (next_header _ _ _ _ _ HH)) as (fr' & E). rewrite E.
    rewrite !app_length in Hf. apply enc_header_nonempty in HH. destruct fuel as [|fuel]; [lia|].
    destruct (IH Hn fuel (mkP (mkIn k bs false fr') g h)) as (fr2 & E2); [lia|reflexivity|reflexivity|].
    exists fr2. exact E2.
Qed.

Lemma keeps_refl g h w : keeps g g h h w.
Proof. split; [repeat split; auto|]. intros q _. now left. Qed.
Lemma keeps_trans g1 g2 g3 h1 h2 h3 w : keeps g1 g2 h1 h2 w -> keeps g2 g3 h2 h3 w -> keeps g1 g3 h1 h3 w.
Proof.
  intros [A1 B1] [A2 B2]. split; [unfold gkeep in *; intuition congruence|].
  eapply same_but_incl; [eapply same_but_trans; eauto|]. intros q Hq. apply in_app_iff in Hq. tauto.
Qed.
Lemma keeps_name g g' n h h' w : keeps (add_name n g) g' h h' w -> keeps g g' h h' w.
Proof. intros [A B]. split; [exact A|exact B]. Qed.

Lemma wanted_asked only n : wanted only n = true <-> asked only n.
Proof.
  unfold wanted, asked. destruct only as [|x l]; [tauto|]. rewrite str_in_spec. split; [auto|].
  intros [H|H]; [discriminate|exact H].
Qed.
Lemma eq0_lt f : flt_eq f f0 = true -> flt_lt f f0 = false.
Proof. unfold flt_eq, flt_lt. destruct (fcmp f f0) as [[]|]; try discriminate; reflexivity. Qed.

(** How long the loop runs. *)
Lemma enc_next_short k m mfs bs tail : enc_next k m mfs bs tail -> m <> "" -> (length tail < length bs)%nat.
Proof.
  intros [n fs hb tl H|bs' H] Hm; [|congruence]. rewrite app_length. apply enc_header_nonempty in H. lia.
Qed.
Lemma enc_run_short L k n c it its c' m mfs bs tail : enc_run L k n c it its c' m mfs bs tail -> m <> "" -> (length tail < length bs)%nat.
Proof.
  induction 1 as [c it c' m mfs bs tail HL HN Hne | c it c1 it2 its c' m mfs hb bs tail HL HH HR IH]; intro Hm; rewrite !app_length.
  - apply enc_next_short in HN; [lia|exact Hm].
  - specialize (IH Hm). lia.
Qed.
Lemma enc_pass_short k n fs bs m mfs tail : enc_pass k n fs bs m mfs tail -> m <> "" -> (length tail < length bs)%nat.
Proof.
  induction 1 as [fs rb bs m mfs tail HR HN Hne | fs rb fs2 hb bs m mfs tail HR HH HP IH]; intro Hm; rewrite !app_length.
  - apply enc_next_short in HN; [lia|exact Hm].
  - specialize (IH Hm). lia.
Qed.
Lemma reads_len only k id sub st segs n fs bs st' : reads only k id sub st segs n fs bs st' ->
  (length segs <= S (length bs))%nat /\ (n = "" -> segs = []).
Proof.
  assert (S1 : forall m (tail bs : list ascii) (segs : list seg), (m <> "" -> (length tail < length bs)%nat) ->
     (length segs <= S (length tail))%nat -> (m = "" -> segs = []) -> (S (length segs) <= S (length bs))%nat).
  { intros m tl b sg H1 H2 H3. destruct (String.eqb_spec m "") as [->|Hm]; [rewrite H3 by reflexivity; cbn; lia|].
    specialize (H1 Hm). lia. }
  induction 1; cbn [length]; (split; [|try discriminate; try reflexivity; try congruence]);
    try (destruct IHreads as [Q1 Q2]); try lia.
  - eapply S1; eauto using enc_run_short.
  - intros ->. exfalso. match goal with H : In "" laid_types |- _ => apply laid_stored in H as (_ & _ & H); congruence end.
  - eapply S1; eauto using enc_run_short.
  - intros ->. exfalso. match goal with H : In "" tran_types |- _ => destruct H as [H|[H|[]]]; discriminate end.
  - eapply S1; eauto using enc_run_short.
  - eapply S1; eauto using enc_next_short.
  - eapply S1; eauto using enc_next_short.
  - eapply S1; eauto using enc_next_short.
  - eapply S1; eauto using enc_pass_short.
  - apply (S1 m tail (b ++ bs) segs); auto. intro Hm. rewrite app_length. match goal with H : enc_next _ _ _ _ _ |- _ => apply enc_next_short in H; [lia|exact Hm] end.
Qed.

Definition Fin (g : glob) (h : h5) (id : Z) (w : path) (sub : bool) (st' : fstate) (r : Res (unit * pst)) : Prop :=
  exists i' g' h', r = Ok (tt, mkP i' g' h') /\ finv g' h' id w sub st' /\ keeps g g' h h' w.
Lemma Fin_trans g1 g2 h1 h2 id w sub st' r : keeps g1 g2 h1 h2 w -> Fin g2 h2 id w sub st' r -> Fin g1 h1 id w sub st' r.
Proof. intros K (i' & g' & h' & E & I & K'). exists i', g', h'. split; [exact E|]. split; [exact I|]. exact (keeps_trans _ _ _ _ _ _ _ K K'). Qed.

Lemma general_stored n f fs rd s : flt_lt f f0 = false -> sget n readers = Some rd ->
  general_parser n (f :: fs) s = rd n (f :: fs) (mkP (p_in s) (add_name n (p_g s)) (p_out s)).
Proof.
  intros Hf Hr. unfold general_parser. unfold sbind at 1. cbn [pyget nth_error]. unfold liftR at 1, slift at 1.
  cbn [pyget nth_error]. rewrite Hf, Hr. reflexivity.
Qed.

Lemma parse_loop_spec only k id sub w st segs n fs bs st' :
  reads only k id sub st segs n fs bs st' -> id <> 0 ->
  forall g h fr fuel, (length segs <= fuel)%nat -> finv g h id w sub st ->
  Fin g h id w sub st' (parse_loop fuel only n fs (mkP (mkIn k bs false fr) g h)).
Proof.
  intros HR Hid.
  assert (W : forall n, asked only n -> wanted only n = true) by (intros; now apply wanted_asked).
  induction HR; intros gg hh fr fuel Hf HI; try (destruct fuel as [|fuel]; [cbn in Hf; lia|]); cbn [length] in Hf.
  - (* end *) destruct fuel; cbn [parse_loop]; rewrite String.eqb_refl; exists (mkIn k bs false fr), gg, hh; auto using keeps_refl.
  - (* IEND *) cbn [parse_loop]. change (String.eqb "IEND" "") with false. cbv iota. rewrite (W _ H). unfold sbind at 1.
    rewrite (general_stored "IEND" f fs rd_iend) by (try apply eq0_lt; auto). unfold rd_iend, sbind. unfold liftR, slift. cbn [pyget nth_error].
    rewrite H0. unfold sret. cbn [p_in p_g p_out].
    exists (mkIn k bs false fr), (add_name "IEND" gg), hh. split; [destruct fuel; reflexivity|].
    split; [now apply finv_name|]. apply keeps_name with (n := "IEND"). apply keeps_refl.
  - (* layout *) pose proof (laid_stored _ H0) as (_ & _ & Hne). cbn [parse_loop]. apply String.eqb_neq in Hne. rewrite Hne, (W _ H).
    apply finv_name with (n := n) in HI.
    destruct (laid_step kinds k id w sub _ _ _ fr n it its c' m mfs bs tail con' Hid HI H0 H1 H4 H5)
      as (rd & g' & h' & fr' & R1 & R2 & R3 & R4).
    unfold sbind at 1. rewrite (general_stored n f fs rd) by auto. rewrite <- H2. cbn [p_in p_g p_out]. rewrite R2. cbv beta iota.
    apply Fin_trans with (g2 := g') (h2 := h'); [eapply keeps_name; exact R4|].
    apply IHHR; [lia|exact R3].
  - (* transformations *) pose proof (tran_facts _ H0) as (_ & _ & _ & Hr).
    assert (Hne : n <> "") by (intros ->; destruct H0 as [X|[X|[]]]; discriminate).
    cbn [parse_loop]. apply String.eqb_neq in Hne. rewrite Hne, (W _ H).
    apply finv_name with (n := n) in HI.
    destruct (tran_step k id w sub _ _ _ fr n it its c' m mfs bs tail con' Hid HI H0 H1 H4 H5)
      as (g' & h' & fr' & R2 & R3 & R4).
    unfold sbind at 1. rewrite (general_stored n f fs rd_xsuptran) by auto. rewrite <- H2. cbn [p_in p_g p_out]. rewrite R2. cbv beta iota.
    apply Fin_trans with (g2 := g') (h2 := h'); [eapply keeps_name; exact R4|].
    apply IHHR; [lia|exact R3].
  - (* HIERARCH *) subst sub. cbn [parse_loop]. change (String.eqb "HIERARCH" "") with false. cbv iota. rewrite (W _ H0).
    apply finv_name with (n := "HIERARCH") in HI.
    destruct (hier_step k id w _ _ _ fr it its c' x m mfs bs tail con' Hid HI) as (g' & h' & fr' & R2 & R3 & R4); auto.
    { now rewrite H1. }
    unfold sbind at 1. rewrite (general_stored "HIERARCH" f (g :: x :: fs) rd_hierarch) by auto. rewrite <- H1. cbn [p_in p_g p_out]. rewrite R2. cbv beta iota.
    apply Fin_trans with (g2 := g') (h2 := h'); [eapply keeps_name; exact R4|].
    apply IHHR; [lia|exact R3].
  - (* IDENT *) cbn [parse_loop]. change (String.eqb "IDENT" "") with false. cbv iota. rewrite (W _ H).
    apply finv_name with (n := "IDENT") in HI.
    destruct (ident_step k id w sub _ _ _ fr f g x fs a b d con' m mfs bs tail Hid HI) as (g' & h' & fr' & R2 & R3 & R4); auto.
    unfold sbind at 1. rewrite (general_stored "IDENT" f (g :: x :: fs) rd_ident) by auto. cbn [p_in p_g p_out]. rewrite R2. cbv beta iota.
    apply Fin_trans with (g2 := g') (h2 := h'); [eapply keeps_name; exact R4|].
    apply IHHR; [lia|exact R3].
  - (* IRECSIZE *) cbn [parse_loop]. change (String.eqb "IRECSIZE" "") with false. cbv iota. rewrite (W _ H). unfold sbind at 1.
    rewrite (general_stored "IRECSIZE" f (g :: fs) rd_irecsize) by auto. unfold rd_irecsize. unfold sbind at 1.
    rewrite (lift_int (f :: g :: fs) 1 _ _ _ eq_refl H1). cbn [p_in p_g p_out].
    destruct (rheader_next k m mfs bs tail (mkP (mkIn k bs false fr) (add_name "IRECSIZE" gg) hh) H2 eq_refl eq_refl) as (fr' & E).
    rewrite E. cbn [p_in p_g p_out].
    apply Fin_trans with (g2 := add_name "IRECSIZE" gg) (h2 := hh); [apply keeps_name with (n := "IRECSIZE"); apply keeps_refl|].
    apply IHHR; [lia|now apply finv_name].
  - (* IEND, not the end *) cbn [parse_loop]. change (String.eqb "IEND" "") with false. cbv iota. rewrite (W _ H). unfold sbind at 1.
    rewrite (general_stored "IEND" f fs rd_iend) by auto. unfold rd_iend. unfold sbind at 1. unfold liftR at 1, slift at 1. cbn [pyget nth_error].
    rewrite H1. cbn [p_in p_g p_out].
    destruct (rheader_next k m mfs bs tail (mkP (mkIn k bs false fr) (add_name "IEND" gg) hh) H2 eq_refl eq_refl) as (fr' & E).
    rewrite E. cbn [p_in p_g p_out].
    apply Fin_trans with (g2 := add_name "IEND" gg) (h2 := hh); [apply keeps_name with (n := "IEND"); apply keeps_refl|].
    apply IHHR; [lia|now apply finv_name].
  - (* passed over *) cbn [parse_loop]. pose proof H as Hne. apply String.eqb_neq in Hne. rewrite Hne.
    destruct (enc_pass_fuel k n fs bs m mfs tail H1 H (length bs) (mkP (mkIn k bs false fr) gg hh) (le_n _) eq_refl eq_refl) as (fr' & E).
    assert (X : (if wanted only n then general_parser n fs else skip_same n fs) (mkP (mkIn k bs false fr) gg hh)
        = Ok ((m, mfs), mkP (mkIn k tail false fr') gg hh)).
    { destruct H0 as [H0|(H0 & f & l & -> & Hl)].
      - destruct (wanted only n) eqn:Ew; [apply wanted_asked in Ew; contradiction|]. exact E.
      - destruct (wanted only n); [|exact E]. unfold general_parser. unfold sbind at 1. unfold liftR at 1, slift at 1.
        cbn [pyget nth_error]. rewrite Hl.
        destruct (sget n readers) eqn:Er; [|exact E]. exfalso. apply H0. unfold sget in Er.
        assert (Y : In n (map fst readers)).
        { clear - Er. induction readers as [|[a b] l IH]; [discriminate|]. cbn [map fst]. unfold dget in Er. fold (@dget string reader) in Er.
          destruct (String.eqb_spec n a) as [->|]; [now left|right; now apply IH]. }
        assert (Z : forallb (fun x => str_in x known_types) (map fst readers) = true) by (vm_compute; reflexivity).
        rewrite forallb_forall in Z. apply str_in_spec. now apply Z. }
    unfold sbind at 1. destruct (wanted only n); rewrite X; cbv beta iota; (apply IHHR; [lia|exact HI]).
  - (* not to be read *) cbn [parse_loop]. pose proof H as Hne. apply String.eqb_neq in Hne. rewrite Hne, (W _ H0).
    assert (X : exists fr', general_parser n (f :: fs) (mkP (mkIn k (b ++ bs) false fr) gg hh) = Ok ((m, mfs), mkP (mkIn k tail false fr') gg hh)).
    { unfold general_parser. unfold sbind at 1. unfold liftR at 1, slift at 1. cbn [pyget nth_error]. rewrite H1.
      destruct H2 as [(-> & ->)|(-> & c & Hc)].
      - unfold sbind at 1. cbn [sret app]. destruct (rheader_next k m mfs bs tail (mkP (mkIn k bs false fr) gg hh) H3 eq_refl eq_refl) as (fr' & E).
        unfold sret. rewrite E. eauto.
      - unfold sbind at 1. unfold sbind at 1. unfold liftF. cbn [p_in].
        pose proof (read_floatrec_enc k Lead0 c b bs false fr Hc) as E0. cbn [lead_n] in E0. rewrite E0. cbn [p_g p_out].
        unfold sret. match goal with |- context [rheader ?s] => destruct (rheader_next k m mfs bs tail s H3 eq_refl eq_refl) as (fr' & E) end.
        rewrite E. eauto. }
    destruct X as (fr' & E). unfold sbind at 1. rewrite E. cbv beta iota. apply IHHR; [lia|exact HI].
Qed.

(** ** From the state at the end back to the records of the file *)
Lemma put_entries_app cols elts c es1 c1 es2 c2 : put_entries cols elts c es1 c1 -> put_entries cols elts c1 es2 c2 ->
  put_entries cols elts c (es1 ++ es2) c2.
Proof. induction 1; cbn [app]; [auto|]. intro. econstructor; eauto. Qed.

Lemma reads_names only k id sub st segs n fs bs st' : reads only k id sub st segs n fs bs st' ->
  s_names st' = s_names st ++ seg_names segs.
Proof.
  induction 1; cbn [seg_names flat_map] in *; rewrite ?app_nil_r; try reflexivity;
    rewrite ?IHreads; cbn [s_names saw]; rewrite <- ?app_assoc; reflexivity.
Qed.
Lemma reads_known0 only k id sub st segs n fs bs st' : reads only k id sub st segs n fs bs st' ->
  s_known st = true -> s_known st' = true.
Proof. induction 1; cbn [s_known saw] in *; auto. Qed.
Lemma reads_known only k id sub st segs n fs bs st' : reads only k id sub st segs n fs bs st' ->
  some_record segs -> s_known st' = true.
Proof.
  induction 1; intros (n0 & es & R); try (destruct R; fail); destruct R as [R|R];
    try discriminate R; try contradiction; try (apply IHreads; exists n0, es; exact R);
    match goal with H : reads _ _ _ _ _ _ _ _ _ _ |- _ => apply (reads_known0 _ _ _ _ _ _ _ _ _ _ H); reflexivity end.
Qed.
Definition grown (n : string) (st : fstate) (es : list entry) (st' : fstate) : Prop :=
  match es with
  | [] => s_tabs st' n = s_tabs st n
  | _ => exists con, put_entries (cols_of n) (elts_of n) (base_content n (s_tabs st n)) es con /\ s_tabs st' n = Some con
  end.
Lemma grown_run n st m con' its e es st1 es2 st2 :
  map i_entry its = e :: es -> put_entries (cols_of m) (elts_of m) (base_content m (s_tabs st m)) (e :: es) con' ->
  s_tabs st1 = put_tab m con' (s_tabs st) -> grown n st1 es2 st2 ->
  grown n st (map i_entry (if String.eqb m n then its else []) ++ es2) st2.
Proof.
  intros EI P E G. unfold grown in *. rewrite E in G. unfold put_tab in G. rewrite String.eqb_sym in G.
  destruct (String.eqb_spec m n) as [->|Hne].
  - rewrite EI. cbn [app]. destruct es2 as [|e2 es2].
    + exists con'. rewrite app_nil_r. auto.
    + destruct G as (con & P2 & E2). exists con. split; [|exact E2].
      change (e :: es ++ e2 :: es2) with ((e :: es) ++ e2 :: es2). eapply put_entries_app; [exact P|exact P2].
  - cbn [app]. exact G.
Qed.
Lemma reads_tabs only k id sub st segs n fs bs st' : reads only k id sub st segs n fs bs st' ->
  forall m, grown m st (entries_of m segs) st'.
Proof.
  induction 1; intro n0; try reflexivity; try (apply IHreads; fail);
    unfold entries_of; cbn [items_of flat_map]; rewrite map_app; cbn [map] in *; (eapply grown_run; [reflexivity|eassumption| |apply IHreads]); reflexivity.
Qed.
Lemma reads_hier only k id sub st segs n fs bs st' : reads only k id sub st segs n fs bs st' ->
  s_hier st' = (s_hier st || match entries_of "HIERARCH" segs with [] => false | _ => true end)%bool.
Proof.
  unfold entries_of. induction 1; cbn [items_of flat_map app s_hier saw] in *; rewrite ?orb_false_r; try reflexivity; try exact IHreads;
    rewrite ?IHreads; try reflexivity.
  - destruct (String.eqb_spec n "HIERARCH") as [->|]; [|reflexivity].
    match goal with H : In "HIERARCH" laid_types |- _ => apply laid_stored in H as (_ & H & _); congruence end.
  - destruct (String.eqb_spec n "HIERARCH") as [->|]; [|reflexivity].
    match goal with H : In "HIERARCH" tran_types |- _ => destruct H as [H|[H|[]]]; discriminate end.
  - cbn. now rewrite orb_true_r.
Qed.
Lemma reads_sub only k id st segs n fs bs st' : reads only k id true st segs n fs bs st' ->
  entries_of "HIERARCH" segs = [].
Proof.
  unfold entries_of. induction 1; cbn [items_of flat_map app] in *; auto; try discriminate.
  - destruct (String.eqb_spec n "HIERARCH") as [->|]; [|exact IHreads].
    match goal with H : In "HIERARCH" laid_types |- _ => apply laid_stored in H as (_ & H & _); congruence end.
  - destruct (String.eqb_spec n "HIERARCH") as [->|]; [|exact IHreads].
    match goal with H : In "HIERARCH" tran_types |- _ => destruct H as [H|[H|[]]]; discriminate end.
Qed.

(** ** Labels *)
Lemma dedup_snoc x : forall l seen, dedup seen (l ++ [x]) = dedup seen l ++ (if str_in x (l ++ seen) then [] else [x]).
Proof.
  induction l as [|y l IH]; intro seen; cbn [app dedup].
  - destruct (str_in x seen); reflexivity.
  - destruct (str_in y seen) eqn:E; rewrite IH.
    + f_equal. change ((if str_in x (l ++ seen) then [] else [x]) = (if str_in x (y :: l ++ seen) then [] else [x])).
      assert (X : str_in x (l ++ seen) = str_in x (y :: l ++ seen)); [|now rewrite X].
      apply eq_true_iff_eq. rewrite !str_in_spec. apply str_in_spec in E. cbn [In]. rewrite !in_app_iff.
      split; [tauto|]. intros [->|H]; tauto.
    + change (y :: (dedup (y :: seen) l ++ (if str_in x (l ++ y :: seen) then [] else [x])) =
              y :: (dedup (y :: seen) l ++ (if str_in x (y :: l ++ seen) then [] else [x]))).
      assert (X : str_in x (l ++ y :: seen) = str_in x (y :: l ++ seen)); [|now rewrite X].
      apply eq_true_iff_eq. rewrite !str_in_spec. cbn [In]. rewrite !in_app_iff. cbn [In]. tauto.
Qed.
Lemma dedup_first_seen l : first_seen l (dedup [] l).
Proof.
  induction l as [|x l IH] using rev_ind; [constructor|]. rewrite dedup_snoc, app_nil_r.
  destruct (str_in x l) eqn:E.
  - rewrite app_nil_r. apply seen_again; [exact IH|now apply str_in_spec].
  - apply seen_new; [exact IH|]. rewrite <- str_in_spec, E. discriminate.
Qed.
Lemma sget_set_same k v a : sget k (set_attr k v a) = Some v.
Proof.
  induction a as [|[x y] a IH]; unfold sget in *; cbn; [now rewrite String.eqb_refl|].
  destruct (String.eqb k x) eqn:E; cbn; [now rewrite String.eqb_refl|]. now rewrite E.
Qed.
Lemma sget_set_other k j v a : String.eqb k j = false -> sget k (set_attr j v a) = sget k a.
Proof.
  intro H. induction a as [|[x y] a IH]; unfold sget in *; cbn; [now rewrite H|].
  destruct (String.eqb j x) eqn:E; cbn.
  - apply String.eqb_eq in E. subst. now rewrite H.
  - now rewrite IH.
Qed.
Lemma datatype_ok g : type_is (g_ftid g) (datatype_of g).
Proof.
  unfold datatype_of. destruct (String.eqb_spec (g_ftid g) "T") as [->|]; [constructor; cbn; auto|].
  destruct (String.eqb_spec (g_ftid g) "L") as [->|]; [constructor; cbn; auto|].
  destruct (String.eqb_spec (g_ftid g) "R") as [->|]; [constructor; cbn; auto|]. cbn [orb].
  destruct (String.eqb_spec (g_ftid g) "G") as [->|]; constructor. cbn. intuition congruence.
Qed.

(** The position as the parser knows it. *)
Definition knows_pos (g : glob) (h : h5) (p : hpos) : Prop :=
  match p with
  | Alone => g_attop g = false /\ g_hashier g = false
  | Top l => g_attop g = true /\ g_hashier g = true /\ hier_cell g h 0 4 = Ok l
  | Below l => g_attop g = false /\ g_hashier g = true /\ islevl_of (g_hrec g) = Ok l
  end.
Lemma level_ok g h p : knows_pos g h p -> exists lev idx, level_of g h = Ok (lev, idx) /\ level_is (g_ftid g) p lev /\
  (g_ftid g = "R" -> lev = "FIRSTLEVEL" -> idx = true).
Proof.
  intro K. unfold level_of.
  destruct (String.eqb_spec (g_ftid g) "R") as [->|NR].
  - destruct p as [|l|l]; cbn in K.
    + destruct K as [-> _]. eexists _, _. repeat split; constructor; cbn; auto.
    + destruct K as (-> & _ & ->). unfold rbind. destruct (Z.eqb_spec l 1) as [->|Hl].
      * exists "FIRSTLEVEL", true. repeat split. constructor.
      * exists "TOPLEVEL", false. split; [reflexivity|]. split; [now constructor|discriminate].
    + destruct K as (-> & _). eexists _, _. repeat split; constructor.
  - destruct ((g_ftid g =? "T")%string || (g_ftid g =? "L")%string)%bool eqn:TL.
    + assert (HT : In (g_ftid g) ["T"; "L"]).
      { apply orb_true_iff in TL as [T|T]; apply String.eqb_eq in T; rewrite T; cbn; auto. }
      assert (HT' : In (g_ftid g) ["R"; "T"; "L"]) by (right; exact HT).
      destruct p as [|l|l]; cbn in K.
      * destruct K as [-> ->]. eexists _, _. split; [reflexivity|]. split; [now constructor|]. intro; contradiction.
      * destruct K as (-> & _). eexists _, _. split; [reflexivity|]. split; [now constructor|]. intro; contradiction.
      * destruct K as (-> & -> & ->). unfold rbind. destruct (Z.ltb_spec 1 l); (eexists _, _; split; [reflexivity|]; split; [now constructor|]; intro; contradiction).
    + apply orb_false_iff in TL as [T1 T2]. apply String.eqb_neq in T1, T2.
      eexists _, _. split; [reflexivity|]. split; [constructor; cbn; intuition congruence|]. intro; contradiction.
Qed.

(** ** parse_file *)
Lemma finv_tables g h id w sub st segs : finv g h id w sub st -> (forall n, grown n start (entries_of n segs) st) -> tables h w segs.
Proof.
  intros [I1 I2 I3 I4 I5 I6 I7 I8] G n Hn. specialize (G n). specialize (I6 n Hn). unfold grown in G.
  destruct (entries_of n segs) as [|e es].
  - rewrite G in I6. apply I6.
  - destruct G as (con & P & E). exists con. split; [exact P|]. rewrite E in I6. apply I6.
Qed.
Lemma tables_keep h h' w segs : tables h w segs -> (forall q, In q (all_own w) -> h5_find q h' = h5_find q h) -> tables h' w segs.
Proof.
  intros T F n Hn. specialize (T n Hn).
  assert (F' : forall q, In q (own w n) -> h5_find q h' = h5_find q h) by (intros q Hq; apply F; eapply in_all_own; eauto).
  destruct (entries_of n segs) as [|e es].
  - intros p Hp. rewrite F' by exact Hp. auto.
  - destruct T as (con & P & H1 & H2). exists con. split; [exact P|]. split; [rewrite F' by (now left); exact H1|].
    assert (Q : forall p, In p (apaths w n) -> h5_find p h' = h5_find p h) by (intros p Hp; apply F'; now right).
    clear - H2 Q. revert H2 Q. generalize (apaths w n) (elts_of n) (c_arrs con).
    induction l as [|p l IH]; intros [|e es] [|a as_] H Q; cbn [combine] in *; inversion H; subst; constructor.
    + cbn [fst snd] in *. rewrite Q by (now left). assumption.
    + apply IH; auto. intros x Hx. apply Q. now right.
Qed.
Lemma self_leads w : w <> [] -> leads w w.
Proof. intro H. exists []. now rewrite app_nil_r. Qed.
Lemma all_own_not_self w : ~ In w (all_own w).
Proof. intro H. apply in_flat_map in H as (n & _ & H). apply own_length in H. lia. Qed.
Lemma place_nonempty g h id w sub hier : place g h id w sub hier -> w <> [].
Proof. intros [? ? ? ? -> ?|? ? ? ? ? ? ? ? ? ? ->]; discriminate. Qed.

Lemma set_attributes_spec g h id w sub st i p segs :
  finv g h id w sub st -> s_known st = true -> id <> 0 -> knows_pos g h p -> s_names st = seg_names segs ->
  exists h', set_attributes (mkP i g h) = Ok (tt, mkP i g h') /\
    labelled h' w (g_ftid g) id (g_indsel g) p segs /\ (forall q, q <> w -> h5_find q h' = h5_find q h).
Proof.
  intros [I1 I2 I3 I4 I5 I6 I7 I8] K Hid KP HN. rewrite K in I3.
  pose proof (place_path _ _ _ _ _ _ I4 I3 Hid) as PT.
  destruct (I8 K w (self_leads w (place_nonempty _ _ _ _ _ _ I4))) as (a & Ea).
  destruct (level_ok _ _ _ KP) as (lev & idx & L1 & L2 & L3).
  unfold set_attributes, sbind, getg, geth, liftR, slift. cbn [p_g p_out]. rewrite PT, Ea, L1. unfold seth. cbn [p_in p_g].
  eexists. split; [reflexivity|]. split.
  - unfold labelled. rewrite find_upd_same, Ea. cbn [option_map].
    destruct idx; cbn [put_attr]; (eexists _, (dedup [] (g_names g)), (datatype_of g), lev; split; [reflexivity|];
      repeat (rewrite sget_set_same || (rewrite sget_set_other by reflexivity)); rewrite I3, I7, HN;
      repeat split; auto using datatype_ok, dedup_first_seen).
    intros H1 H2. specialize (L3 H1 H2). discriminate.
  - intros q Hq. apply find_upd_other. congruence.
Qed.

Lemma parse_file_state only k id sub bs segs g h w fr p :
  file_of only k id sub bs segs -> id <> 0 -> some_record segs -> finv g h id w sub start ->
  (forall g' h' st', finv g' h' id w sub st' -> keeps g g' h h' w -> (forall n, grown n start (entries_of n segs) st') ->
     s_hier st' = match entries_of "HIERARCH" segs with [] => false | _ => true end ->
     (sub = true -> entries_of "HIERARCH" segs = []) -> knows_pos g' h' p) ->
  exists s', parse_file only (mkP (mkIn k bs false fr) g h) = Ok (tt, s') /\
    outcome h (p_out s') w (g_ftid g) id (g_indsel g) p segs /\
    exists h1 st1, finv (p_g s') h1 id w sub st1 /\ keeps g (p_g s') h h1 w /\
      s_hier st1 = match entries_of "HIERARCH" segs with [] => false | _ => true end /\
      (forall q, q <> w -> h5_find q (p_out s') = h5_find q h1).
Proof.
  intros (n & fs & tail & st' & HN & HR) Hid HS HI HP.
  destruct (rheader_next k n fs bs tail (mkP (mkIn k bs false fr) g h) HN eq_refl eq_refl) as (fr' & E).
  destruct (parse_loop_spec only k id sub w start segs n fs tail st' HR Hid g h fr'
    (S (fuel_of (mkP (mkIn k tail false fr') g h)))) as (i' & g' & h' & E2 & FI & K).
  { unfold fuel_of. cbn [p_in f_rest]. apply reads_len in HR. lia. }
  { exact HI. }
  assert (Sub : sub = true -> entries_of "HIERARCH" segs = []).
  { intros ->. eapply reads_sub; eauto. }
  assert (KP : knows_pos g' h' p).
  { eapply HP; eauto; [eapply reads_tabs; eauto|]. now rewrite (reads_hier _ _ _ _ _ _ _ _ _ _ HR). }
  destruct (set_attributes_spec g' h' id w sub st' i' p segs FI) as (h2 & E3 & L & F); auto.
  { eapply reads_known; eauto. }
  { now rewrite (reads_names _ _ _ _ _ _ _ _ _ _ HR). }
  eexists. unfold parse_file. unfold sbind at 1. rewrite E. unfold sbind at 1. cbn [p_g p_out]. rewrite E2, E3.
  split; [reflexivity|]. cbn [p_out p_g]. split.
  2:{ exists h', st'. split; [exact FI|]. split; [exact K|]. split; [now rewrite (reads_hier _ _ _ _ _ _ _ _ _ _ HR)|exact F]. }
  destruct K as [(_ & K2 & K3 & _) KS]. split; [|split].
  - apply tables_keep with (h := h'); [eapply finv_tables; eauto; eapply reads_tabs; eauto|].
    intros q Hq. apply F. intros ->. now apply all_own_not_self in Hq.
  - now rewrite K2, K3 in L.
  - intros q Hq Hw. rewrite F by exact Hq. now apply KS.
Qed.

Lemma parse_file_finv only k id sub bs segs g h w fr p :
  file_of only k id sub bs segs -> id <> 0 -> some_record segs -> finv g h id w sub start ->
  (forall g' h' st', finv g' h' id w sub st' -> keeps g g' h h' w -> (forall n, grown n start (entries_of n segs) st') ->
     s_hier st' = match entries_of "HIERARCH" segs with [] => false | _ => true end ->
     (sub = true -> entries_of "HIERARCH" segs = []) -> knows_pos g' h' p) ->
  exists s', parse_file only (mkP (mkIn k bs false fr) g h) = Ok (tt, s') /\
    outcome h (p_out s') w (g_ftid g) id (g_indsel g) p segs.
Proof.
  intros H1 H2 H3 H4 H5. destruct (parse_file_state only k id sub bs segs g h w fr p H1 H2 H3 H4 H5) as (s' & E & O & _). eauto.
Qed.

Lemma stored_int_col cols vs cs i f l :
  Forall2 (fun tv c => stored (fst tv) (snd tv) c) (combine cols vs) cs ->
  nth_error cols i = Some TI -> nth_error vs i = Some (PF f) -> trunc_is f l -> nth_error cs i = Some (CI l).
Proof.
  revert vs cs i. induction cols as [|t cols IH]; intros [|v vs] cs [|i] H; cbn [combine nth_error] in *; try discriminate;
    inversion H as [|? c ? cs' S1 S2]; subst; cbn [fst snd] in *.
  - intros [= ->] [= ->] T. destruct c; try contradiction. destruct S1 as [S1 _]. apply trunc_int_of in S1, T. cbn [nth_error]. congruence.
  - intros. cbn [nth_error]. eauto.
Qed.

(** *** A file at the top (or without hierarchy), whatever was converted before *)
Lemma start_finv_top g0 h id pre ft w : 0 < g_batch g0 -> w = [pre ++ ft ++ str_of_Z id]%string -> vacant h w ->
  finv (set_prefix pre (set_ftid ft (reset true g0))) h id w false start.
Proof.
  intros Hb -> [V1 V2]. constructor; auto; cbn.
  - constructor; cbn; congruence.
  - constructor; cbn; auto. discriminate.
  - intros n Hn. split; [reflexivity|]. intros p Hp. apply V2.
    apply in_flat_map. exists n. split; [exact Hn|exact Hp].
  - discriminate.
Qed.
Theorem parse_top_state only k id bs segs pos g0 h pre ft fr :
  file_of only k id false bs segs -> id <> 0 -> some_record segs -> top_pos segs pos ->
  0 < g_batch g0 -> vacant h [pre ++ ft ++ str_of_Z id]%string ->
  exists s', parse_file only (mkP (mkIn k bs false fr) (set_prefix pre (set_ftid ft (reset true g0))) h) = Ok (tt, s') /\
    outcome h (p_out s') [pre ++ ft ++ str_of_Z id]%string ft id None pos segs /\
    g_prefix (p_g s') = pre /\ g_ftid (p_g s') = ft /\ g_batch (p_g s') = g_batch g0 /\
    g_hashier (p_g s') = match entries_of "HIERARCH" segs with [] => false | _ => true end /\
    (entries_of "HIERARCH" segs <> [] -> g_htab (p_g s') = Some (tpath [pre ++ ft ++ str_of_Z id]%string "HIERARCH")).
Proof.
  intros HF Hid HS HP Hb HV. set (w := [pre ++ ft ++ str_of_Z id]%string) in *.
  match goal with |- context [parse_file only ?s0] => assert (Q : exists s', parse_file only s0 = Ok (tt, s') /\ outcome h (p_out s') w ft id None pos segs /\
    exists h1 st1, finv (p_g s') h1 id w false st1 /\ keeps (p_g s0) (p_g s') h h1 w /\
      s_hier st1 = match entries_of "HIERARCH" segs with [] => false | _ => true end /\ (forall q, q <> w -> h5_find q (p_out s') = h5_find q h1)) end.
  2:{ destruct Q as (s' & E & O & h1 & st1 & FI & [(_ & _ & K3 & K4 & K5 & _) _] & SH & _). exists s'. split; [exact E|]. split; [exact O|].
      cbn [p_g set_prefix set_ftid reset g_prefix g_ftid g_batch] in K3, K4, K5. split; [exact K4|]. split; [exact K3|]. split; [exact K5|].
      pose proof (fi_place _ _ _ _ _ _ FI) as Pl. inversion Pl as [hier H1 H2 H3 H4 H5|]; subst hier. split; [now rewrite H2|].
      intros NE. rewrite SH in H5. destruct (entries_of "HIERARCH" segs); [congruence|]. destruct (H5 eq_refl) as (? & ? & X & _). exact X. }
  cbn [p_g]. eapply parse_file_state with (sub := false); eauto; [now apply start_finv_top|].
  intros g' h' st' FI _ G SH _. pose proof FI as [I1 I2 I3 I4 I5 I6 I7 I8].
  inversion I4 as [hier H1 H2 H3 H4 H5|]; subst. destruct HP as [E|e es f l E Ne T]; rewrite E in SH; rewrite SH in *.
  - cbn. auto.
  - destruct (H5 eq_refl) as (row & rows & Q1 & Q2 & Q3). cbn [knows_pos]. rewrite H2, H3. repeat split.
    unfold hier_cell. rewrite Q1, Q2. cbn [nth_error].
    specialize (G "HIERARCH"). rewrite E in G. destruct G as (con & P & EC).
    assert (HH : In "HIERARCH" stored_types) by (apply str_in_spec; vm_compute; reflexivity).
    specialize (I6 _ HH). rewrite EC in I6. destruct I6 as (_ & (X & _) & _).
    unfold tab_rows in Q2. rewrite X in Q2.
    apply put_cons_inv in P as (con1 & P1 & P2).
    assert (R1 : exists rs, c_rows con = c_rows con1 ++ rs).
    { clear - P2. induction P2 as [c|c r c1 rs c2 Pe Ps IH]; [exists []; now rewrite app_nil_r|].
      destruct IH as (rs2 & ->). destruct Pe. cbn [c_rows]. rewrite <- app_assoc. eauto. }
    destruct R1 as (rs & R1). inversion P1 as [rows0 arrs e0 cs ds arrs' B1 B2 B3 B4 B5 B6]. subst.
    cbn [c_rows app] in R1. rewrite R1 in Q2. injection Q2 as -> _.
    unfold col_int. erewrite (stored_int_col _ _ _ 4 f l B3); [reflexivity|reflexivity| |exact T].
    rewrite nth_error_app1; [exact Ne|]. apply nth_error_Some. congruence.
Qed.

Theorem parse_top only k id bs segs pos g0 h pre ft fr :
  file_of only k id false bs segs -> id <> 0 -> some_record segs -> top_pos segs pos ->
  0 < g_batch g0 -> vacant h [pre ++ ft ++ str_of_Z id]%string ->
  exists s', parse_file only (mkP (mkIn k bs false fr) (set_prefix pre (set_ftid ft (reset true g0))) h) = Ok (tt, s') /\
    outcome h (p_out s') [pre ++ ft ++ str_of_Z id]%string ft id None pos segs.
Proof.
  intros H1 H2 H3 H4 H5 H6. destruct (parse_top_state only k id bs segs pos g0 h pre ft fr H1 H2 H3 H4 H5 H6) as (s' & E & O & _). eauto.
Qed.

(** *** A file below the top: superelement [id] at place [ihref] of the hierarchy *)
Theorem parse_sub_state only k id bs segs g1 h fr p row0 rows row ihref t i l :
  file_of only k id true bs segs -> id <> 0 -> some_record segs -> 0 < g_batch g1 ->
  g_hashier g1 = true -> g_htab g1 = Some p -> (length p <= 2)%nat -> tab_rows p h = row0 :: rows ->
  nth_error row0 2 = Some (CI t) -> 1 <= ihref ->
  nth_error (row0 :: rows) (Z.to_nat (ihref - 1)) = Some row ->
  nth_error row 3 = Some (CI i) -> nth_error row 4 = Some (CI l) ->
  let idx := sub_index (g_ftid g1) row in
  let w := sub_group (g_prefix g1) (g_ftid g1) t id idx in
  vacant h w ->
  exists s', (dos set_current_ihref ihref; parse_file only) (mkP (mkIn k bs false fr) (reset false g1) h) = Ok (tt, s') /\
    outcome h (p_out s') w (g_ftid g1) id idx (Below l) segs /\
    g_prefix (p_g s') = g_prefix g1 /\ g_ftid (p_g s') = g_ftid g1 /\ g_batch (p_g s') = g_batch g1 /\
    g_hashier (p_g s') = true /\ g_htab (p_g s') = Some p.
Proof.
  intros HF Hid HS Hb Hh Ht Lp HT N2 Hih Nr N3 N4 idx w [V1 V2].
  set (g2 := set_indsel idx (set_hrec (Some row) (set_ihref (Some ihref) (reset false g1)))).
  assert (E : set_current_ihref ihref (mkP (mkIn k bs false fr) (reset false g1) h) = Ok (tt, mkP (mkIn k bs false fr) g2 h)).
  { unfold set_current_ihref, sbind, modg, getg, geth, liftR, slift. cbn [p_in p_g p_out reset set_ihref g_hashier g_htab g_ftid set_hrec].
    rewrite Hh, Ht. cbn [p_in p_g p_out]. rewrite HT. unfold pygetZ. replace (ihref - 1 <? 0) with false by lia. cbv zeta.
    replace (ihref - 1 <? 0) with false by lia. unfold pyget. rewrite Nr. unfold g2, idx, sub_index.
    destruct (String.eqb (g_ftid g1) "R"); [|reflexivity]. unfold col_int. rewrite N3. reflexivity. }
  unfold sbind. rewrite E.
  assert (I0 : g_indsel g2 = idx) by reflexivity.
  assert (Q : exists s', parse_file only (mkP (mkIn k bs false fr) g2 h) = Ok (tt, s') /\ outcome h (p_out s') w (g_ftid g2) id (g_indsel g2) (Below l) segs /\
    exists h1 st1, finv (p_g s') h1 id w true st1 /\ keeps g2 (p_g s') h h1 w /\
      s_hier st1 = match entries_of "HIERARCH" segs with [] => false | _ => true end /\ (forall q, q <> w -> h5_find q (p_out s') = h5_find q h1)).
  2:{ destruct Q as (s' & E2 & O & h1 & st1 & FI & [(_ & _ & K3 & K4 & K5 & K6) KS] & SH & _). exists s'. split; [exact E2|]. split; [exact O|].
      cbn in K3, K4, K5. split; [exact K4|]. split; [exact K3|]. split; [exact K5|].
      pose proof (fi_place _ _ _ _ _ _ FI) as Pl. inversion Pl as [|p' row' rows' t' H1 H2 H3 H4 H5 H6 H7]; subst. split; [exact H1|].
      destruct (K6 H2) as (_ & _ & ->). exact Ht. }
  eapply parse_file_state with (sub := true); eauto.
  - constructor; auto; cbn [start s_ctx s_known s_hier s_tabs s_names].
    + constructor; cbn; congruence.
    + apply (place_sub g2 h id w p row0 rows t); auto.
      * unfold col_int. now rewrite N2.
      * unfold w, sub_group. rewrite I0. cbn [g_prefix g_ftid g2 set_indsel set_hrec set_ihref reset].
        unfold idx, sub_index. destruct (String.eqb (g_ftid g1) "R"); [|reflexivity].
        rewrite N3. cbn [opt_truthy]. destruct (Z.eqb i 0); reflexivity.
    + intros n Hn. split; [reflexivity|]. intros q Hq. apply V2. apply in_flat_map. exists n. split; [exact Hn|exact Hq].
    + discriminate.
  - intros g' h' st' FI K G SH Sub. pose proof (fi_place _ _ _ _ _ _ FI) as Pl. inversion Pl as [|? ? ? ? Q1 Q2]; subst.
    cbn [knows_pos]. repeat split; auto. destruct K as [(_ & _ & _ & _ & _ & K) _]. destruct (K Q2) as (_ & -> & _).
    cbn. unfold col_int. now rewrite N4.
Qed.

Theorem parse_sub only k id bs segs g1 h fr p row0 rows row ihref t i l :
  file_of only k id true bs segs -> id <> 0 -> some_record segs -> 0 < g_batch g1 ->
  g_hashier g1 = true -> g_htab g1 = Some p -> (length p <= 2)%nat -> tab_rows p h = row0 :: rows ->
  nth_error row0 2 = Some (CI t) -> 1 <= ihref ->
  nth_error (row0 :: rows) (Z.to_nat (ihref - 1)) = Some row ->
  nth_error row 3 = Some (CI i) -> nth_error row 4 = Some (CI l) ->
  let idx := sub_index (g_ftid g1) row in
  let w := sub_group (g_prefix g1) (g_ftid g1) t id idx in
  vacant h w ->
  exists s', (dos set_current_ihref ihref; parse_file only) (mkP (mkIn k bs false fr) (reset false g1) h) = Ok (tt, s') /\
    outcome h (p_out s') w (g_ftid g1) id idx (Below l) segs.
Proof.
  intros H1 H2 H3 H4 H5 H6 H7 H8 H9 H10 H11 H12 H13 idx w H14.
  destruct (parse_sub_state only k id bs segs g1 h fr p row0 rows row ihref t i l H1 H2 H3 H4 H5 H6 H7 H8 H9 H10 H11 H12 H13 H14) as (s' & E & O & _). eauto.
Qed.

(** ** Every file has a position; its records are as laid out *)
Lemma laid_others m : In m laid_types -> m <> "HIERARCH" /\ m <> "IDENT" /\ ~ In m tran_types.
Proof.
  unfold laid_types. rewrite filter_In. intros [_ H]. repeat split; [intros ->; discriminate|intros ->; discriminate|].
  intros [X|[X|[]]]; subst m; discriminate.
Qed.
Lemma reads_items only k id sub st segs n fs bs st' : reads only k id sub st segs n fs bs st' ->
  forall m its, In (Run m its) segs ->
  (In m laid_types -> exists kinds, Forall (fun it => exists c rest c', layout kinds k c m it rest c') its) /\
  (In m tran_types -> Forall (fun it => exists c rest c', tran_layout k c m it rest c') its) /\
  (m = "HIERARCH" -> Forall (fun it => exists c rest c', hier_layout k c m it rest c') its) /\
  (m = "IDENT" -> Forall (fun it => exists f g x fs a b d, it = mkItem (f :: g :: x :: fs) [] (mkEntry [PI a; PI b; PI d] []) /\
      trunc_is f a /\ trunc_is g b /\ trunc_is x d) its).
Proof.
  assert (Y : forall L n c it its c' m mfs bs tail, enc_run L k n c it its c' m mfs bs tail ->
    Forall (fun it => exists c rest c', L k c n it rest c') (it :: its)).
  { induction 1; constructor; eauto. }
  pose proof laid_others as D.
  induction 1; intros m0 its0 HI; try (destruct HI as [HI|HI]; [discriminate HI|now apply IHreads]); try (destruct HI; fail);
    try (destruct HI as [HI|[]]; discriminate HI);
    (destruct HI as [HI|HI]; [|now apply IHreads]); injection HI as <- <-.
  - repeat split; try (intro X; destruct (D n H0) as (N1 & N2 & N3); congruence || contradiction).
    intros _. exists kinds. eapply Y; eauto.
  - repeat split; try (intro X; subst n; destruct H0 as [Z|[Z|[]]]; discriminate Z).
    + intro X. destruct (D n X) as (N1 & N2 & N3). contradiction.
    + intros _. eapply Y; eauto.
  - repeat split; try discriminate; try (intro X; destruct (D _ X) as (N1 & N2 & N3); congruence).
    + intros [Z|[Z|[]]]; discriminate Z.
    + intros _. eapply Y; eauto.
  - repeat split; try discriminate; try (intro X; destruct (D _ X) as (N1 & N2 & N3); congruence).
    + intros [Z|[Z|[]]]; discriminate Z.
    + intros _. constructor; [|constructor]. exists f, g, x, fs, a, b, d. auto.
Qed.
Lemma items_run n segs j it : nth_error (items_of n segs) j = Some it -> exists its, In (Run n its) segs /\ In it its.
Proof.
  intro H. apply nth_error_In in H. apply in_flat_map in H as (s & Hs & Hi). destruct s as [m its|m|m]; try destruct Hi.
  destruct (String.eqb_spec m n) as [->|]; [eauto|destruct Hi].
Qed.
Lemma file_item only k id sub bs segs n j it : file_of only k id sub bs segs -> In n laid_types ->
  nth_error (items_of n segs) j = Some it -> exists kinds c rest c', layout kinds k c n it rest c'.
Proof.
  intros (m & fs & tail & st' & _ & HR) Hn Hj. apply items_run in Hj as (its & H1 & H2).
  destruct (reads_items _ _ _ _ _ _ _ _ _ _ HR n its H1) as (Q & _). destruct (Q Hn) as (kinds & F).
  rewrite Forall_forall in F. exists kinds. auto.
Qed.
Lemma file_hier_item only k id sub bs segs j it : file_of only k id sub bs segs ->
  nth_error (items_of "HIERARCH" segs) j = Some it -> exists c rest c', hier_layout k c "HIERARCH" it rest c'.
Proof.
  intros (m & fs & tail & st' & _ & HR) Hj. apply items_run in Hj as (its & H1 & H2).
  destruct (reads_items _ _ _ _ _ _ _ _ _ _ HR _ its H1) as (_ & _ & Q & _). specialize (Q eq_refl).
  rewrite Forall_forall in Q. auto.
Qed.
Lemma file_tran_item only k id sub bs segs n j it : file_of only k id sub bs segs -> In n tran_types ->
  nth_error (items_of n segs) j = Some it -> exists c rest c', tran_layout k c n it rest c'.
Proof.
  intros (m & fs & tail & st' & _ & HR) Hn Hj. apply items_run in Hj as (its & H1 & H2).
  destruct (reads_items _ _ _ _ _ _ _ _ _ _ HR _ its H1) as (_ & Q & _). specialize (Q Hn).
  rewrite Forall_forall in Q. auto.
Qed.

Lemma file_pos only k id bs segs : file_of only k id false bs segs -> exists p, top_pos segs p.
Proof.
  intro HF. pose proof HF as (n & fs & tail & st' & _ & HR).
  destruct (items_of "HIERARCH" segs) as [|it its] eqn:E.
  - exists Alone. constructor. unfold entries_of. now rewrite E.
  - assert (EN : entries_of "HIERARCH" segs = i_entry it :: map i_entry its) by (unfold entries_of; now rewrite E).
    destruct (file_hier_item only k id false bs segs 0 it HF) as (c & rest & c' & L); [now rewrite E|].
    pose proof (reads_tabs _ _ _ _ _ _ _ _ _ _ HR "HIERARCH") as G. rewrite EN in G. destruct G as (con & P & _).
    apply put_cons_inv in P as (con1 & P1 & _). inversion P1 as [rows0 arrs e0 cs ds arrs' B1 B2 B3 B4 B5 B6 X Y].
    destruct L as [hfs a b d ns ih hb rest L4 Hc Hd]. cbn [i_entry e_row e_data] in *.
    destruct hfs as [|x0 [|x1 [|x2 [|x3 [|? ?]]]]]; try discriminate L4.
    assert (N : exists z, trunc_is a z).
    { clear - B3. cbn [app nums map ranges combine cols_of descr_of] in B3.
      inversion B3 as [|? ? ? ? _ C1]; subst. inversion C1 as [|? ? ? ? _ C2]; subst. inversion C2 as [|? ? ? ? _ C3]; subst.
      inversion C3 as [|? ? ? ? _ C4]; subst. inversion C4 as [|? q ? ? S4 _]; subst. cbn [fst snd stored] in S4.
      destruct q; try contradiction. exists z. apply S4. }
    destruct N as (z & N). exists (Top z). eapply top_some; eauto. reflexivity.
Qed.
