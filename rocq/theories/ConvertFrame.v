(** * ConvertFrame: what parsing a file does to the nodes already in the output *)
From Verif Require Import Base Flt SeqFile H5 Schema Parsers ListFacts StoreProofs ParserRun ParserTerm.
Open Scope string_scope.
Open Scope Z_scope.
Open Scope list_scope.
Open Scope monad_scope.

(* ---- parts which touch neither the output nor the location ---- *)
Definition quietR (s s' : pst) : Prop := p_out s' = p_out s /\ gframe (p_g s) (p_g s').
Definition quiet {A} (m : P A) : Prop := forall s a s', m s = Ok (a, s') -> quietR s s'.
Lemma quietR_refl s : quietR s s. Proof. split; [reflexivity|apply gframe_refl]. Qed.
Lemma quietR_trans a b c : quietR a b -> quietR b c -> quietR a c.
Proof. intros [H1 H2] [H3 H4]. split; [congruence|eapply gframe_trans; eassumption]. Qed.
Lemma quiet_ret {A} (a : A) : quiet (sret a).
Proof. intros s b s' H. injection H as _ <-. apply quietR_refl. Qed.
Lemma quiet_raise {A} e : quiet (@sraise pst A e).
Proof. intros s b s' H. discriminate. Qed.
Lemma quiet_lift {A} (r : Res A) : quiet (liftR r).
Proof. intros s b s' H. unfold liftR, slift in H. destruct r; [|discriminate]. injection H as _ <-. apply quietR_refl. Qed.
Lemma quiet_bind {A B} (m : P A) (k : A -> P B) : quiet m -> (forall a, quiet (k a)) -> quiet (sbind m k).
Proof.
  intros Hm Hk s b s' H. unfold sbind in H. destruct (m s) as [[a s1]|] eqn:E; [|discriminate].
  eapply quietR_trans; [eapply Hm; exact E|eapply Hk; exact H].
Qed.
Lemma quiet_liftF {A} (m : F A) : quiet (liftF m).
Proof.
  intros s b s' H. unfold liftF in H. destruct (m (p_in s)) as [[a i]|]; [|discriminate].
  injection H as _ <-. split; [reflexivity|apply gframe_refl].
Qed.
Lemma quiet_getg : quiet getg.
Proof. intros s b s' H. injection H as _ <-. apply quietR_refl. Qed.
Lemma quiet_geth : quiet geth.
Proof. intros s b s' H. injection H as _ <-. apply quietR_refl. Qed.
Lemma quiet_modg f : (forall g, gframe g (f g)) -> quiet (modg f).
Proof. intros Hf s b s' H. injection H as _ <-. split; [reflexivity|apply Hf]. Qed.
Lemma quiet_state {A} (f : pst -> P A) : (forall s, quiet (f s)) -> quiet (fun s => f s s).
Proof. intros H s a s' E. eapply H. exact E. Qed.
Ltac quiets :=
  repeat first
  [ apply quiet_ret | apply quiet_raise | apply quiet_lift | apply quiet_getg | apply quiet_geth
  | apply quiet_modg; intro; repeat split | apply quiet_liftF
  | match goal with |- quiet (match ?x with _ => _ end) => destruct x end
  | apply quiet_bind; [|intro]
  | assumption ].
Lemma quiet_rheader : quiet rheader. Proof. apply quiet_liftF. Qed.
Lemma quiet_times {A} (m : P A) : quiet m -> forall n, quiet (times n m).
Proof. intro H. induction n; cbn [times]; quiets. Qed.
Lemma quiet_groups n k : quiet (groups n k).
Proof. apply quiet_times. unfold rfloats. quiets. Qed.
Lemma quiet_points : forall n, quiet (read_points n).
Proof. induction n; cbn [read_points]; unfold rfloats; quiets. Qed.
Lemma quiet_reftypes z : forall n, quiet (read_reftypes n z).
Proof.
  induction n; cbn [read_reftypes]; unfold rfloats; [quiets|].
  apply quiet_bind; [quiets|intro]. apply quiet_bind; [quiets|intro].
  apply quiet_bind; [apply quiet_groups|intro]. apply quiet_bind; [exact IHn|intro]. apply quiet_ret.
Qed.
Lemma quiet_strip_rec : quiet strip_rec.
Proof. unfold strip_rec. apply (quiet_state (fun s => _)). intro s. quiets. Qed.
Lemma quiet_name_line : quiet name_line.
Proof.
  unfold name_line. apply (quiet_state (fun s => _)). intro s.
  apply quiet_bind; [apply quiet_strip_rec|intro]. quiets.
Qed.
Ltac quietb := unfold rfloats, timesZ, refs; cbv zeta; quiets;
  try first [apply quiet_times; quiets | apply quiet_groups | apply quiet_points | apply quiet_reftypes].
Definition quiet_body (b : body) : Prop := forall n rec, quiet (b n rec).
Lemma quiet_td : quiet_body b_td.
Proof.
  intros n rec. unfold b_td, timesZ. quiets; [apply quiet_times, quiet_name_line|apply quiet_times, quiet_strip_rec].
Qed.

(* ---- the output grows ---- *)
Definition extends (n n' : node) : Prop :=
  match n, n' with
  | Group _, Group _ => True
  | Table d rs, Table d' rs' => d' = d /\ exists more, rs' = rs ++ more
  | Arr t xs, Arr t' xs' => t' = t /\ exists more, xs' = xs ++ more
  | _, _ => False
  end.
Lemma extends_refl n : extends n n.
Proof. destruct n; cbn; [exact I|..]; (split; [reflexivity|exists []; now rewrite app_nil_r]). Qed.
Lemma extends_trans a b c : extends a b -> extends b c -> extends a c.
Proof.
  destruct a, b, c; cbn; try tauto; intros [-> [m1 ->]] [-> [m2 ->]]; (split; [reflexivity|]); exists (m1 ++ m2); now rewrite app_assoc.
Qed.
Definition grows (h h' : h5) : Prop := forall q n, h5_find q h = Some n -> exists n', h5_find q h' = Some n' /\ extends n n'.
Lemma grows_refl h : grows h h. Proof. intros q n H. exists n. split; [exact H|apply extends_refl]. Qed.
Lemma grows_trans a b c : grows a b -> grows b c -> grows a c.
Proof.
  intros H1 H2 q n H. destruct (H1 q n H) as (n' & E & X). destruct (H2 q n' E) as (n2 & E2 & X2). exists n2.
  split; [exact E2|eapply extends_trans; eassumption].
Qed.
Lemma extends_rows rs n : extends n (append_rows rs n).
Proof. destruct n; cbn; [exact I|split; [reflexivity|now exists rs]|]. split; [reflexivity|exists []; now rewrite app_nil_r]. Qed.
Lemma extends_items xs n : extends n (append_items xs n).
Proof. destruct n; cbn; [exact I| |split; [reflexivity|now exists xs]]. split; [reflexivity|exists []; now rewrite app_nil_r]. Qed.
Lemma grows_upd p f h : (forall n, extends n (f n)) -> grows h (h5_upd p f h).
Proof.
  intros Hf q n H. destruct (path_eqb p q) eqn:E.
  - apply path_eqb_spec in E. subst q. exists (f n). rewrite find_upd_same, H. split; [reflexivity|apply Hf].
  - exists n. rewrite find_upd_other; [|intros ->; rewrite path_eqb_refl in E; discriminate]. split; [exact H|apply extends_refl].
Qed.

(** nodes of [h0] are as they were *)
Definition kept (h0 h : h5) : Prop := forall q n, h5_find q h0 = Some n -> h5_find q h = Some n.
Lemma kept_refl h : kept h h. Proof. intros q n H. exact H. Qed.
Lemma kept_trans a b c : kept a b -> kept b c -> kept a c.
Proof. intros H1 H2 q n H. apply H2, H1, H. Qed.
Lemma kept_grows h h' : kept h h' -> grows h h'.
Proof. intros H q n E. exists n. split; [now apply H|apply extends_refl]. Qed.
Lemma kept_add h p n : h5_find p h = None -> kept h (h5_add p n h).
Proof.
  intros Hp q m H. unfold h5_find, h5_add in *. induction h as [|[k v] h IH]; cbn in *; [discriminate|].
  destruct (path_eqb q k) eqn:E; [exact H|]. apply IH; [|exact H]. destruct (path_eqb p k); [discriminate|exact Hp].
Qed.
Lemma kept_mkgroups : forall p pre h h', mkgroups pre p h = Ok h' -> kept h h'.
Proof.
  induction p as [|a p IH]; intros pre h h' H; cbn [mkgroups] in H; [injection H as <-; apply kept_refl|].
  destruct (h5_find (pre ++ [a]) h) as [[]|] eqn:E; try discriminate.
  - now apply (IH _ _ _ H).
  - eapply kept_trans; [apply (kept_add h (pre ++ [a]) (Group []) E)|]. now apply (IH _ _ _ H).
Qed.
Lemma kept_create w m nd h h' : h5_create w m nd h = Ok h' -> kept h h' /\ h5_find (w ++ [m]) h = None /\ h5_find (w ++ [m]) h' = Some nd.
Proof.
  unfold h5_create. destruct (mkgroups [] w h) as [h1|] eqn:E; [|discriminate]. cbn [rbind].
  destruct (h5_find (w ++ [m]) h1) eqn:F; [discriminate|]. intros H. injection H as <-.
  apply kept_mkgroups in E. split; [|split].
  - eapply kept_trans; [exact E|]. now apply kept_add.
  - destruct (h5_find (w ++ [m]) h) eqn:G; [|reflexivity]. apply E in G. congruence.
  - rewrite find_add. rewrite F. now rewrite path_eqb_refl.
Qed.
Lemma kept_create_arrays w n : forall l h ps h', create_arrays w n l h = Ok (ps, h') ->
  kept h h' /\ Forall (fun p => h5_find p h = None) ps.
Proof.
  induction l as [|[a t] l IH]; intros h ps h' H; cbn [create_arrays] in H.
  - injection H as <- <-. split; [apply kept_refl|constructor].
  - destruct (h5_create w _ _ h) as [h1|] eqn:E; [|discriminate]. cbn [rbind] in H.
    destruct (create_arrays w n l h1) as [[ps1 h2]|] eqn:F; [|discriminate]. cbn [rbind] in H. injection H as <- <-.
    apply kept_create in E. destruct E as (K1 & N1 & _). destruct (IH _ _ _ F) as [K2 N2].
    split; [eapply kept_trans; eassumption|]. constructor; [exact N1|].
    eapply Forall_impl; [|exact N2]. intros p Hp. destruct (h5_find p h) eqn:G; [|reflexivity]. apply K1 in G. congruence.
Qed.

(** The state while a file is read into [h0]: what [h0] had is untouched, and the
    tables in use are new. *)
Definition fresh (h0 : h5) (t : path * list path) : Prop :=
  h5_find (fst t) h0 = None /\ Forall (fun p => h5_find p h0 = None) (snd t).
Definition inv (h0 : h5) (s : pst) : Prop :=
  kept h0 (p_out s) /\ forall n t, In (n, t) (g_tables (p_g s)) -> fresh h0 t.
(** From one state to a later one within the reader of record [n]: *)
Record later (n : string) (s s' : pst) : Prop := mkLater {
  lt_inv : forall h0, inv h0 s -> inv h0 s';
  lt_same : gsame (p_g s) (p_g s');
  lt_tables : forall m, m <> n -> sget m (g_tables (p_g s')) = sget m (g_tables (p_g s));
  lt_grows : grows (p_out s) (p_out s') }.
Lemma gframe_gsame g g' : gframe g g' -> gsame g g'. Proof. unfold gframe, gsame. tauto. Qed.
Lemma gsame_refl g : gsame g g. Proof. repeat split. Qed.
Lemma gsame_trans a b c : gsame a b -> gsame b c -> gsame a c.
Proof. unfold gsame. intuition congruence. Qed.
Lemma quietR_later n s s' : quietR s s' -> later n s s'.
Proof.
  intros [E G]. assert (T : g_tables (p_g s') = g_tables (p_g s)) by (unfold gframe in G; tauto). constructor.
  - intros h0 [K F]. split; [now rewrite E|]. now rewrite T.
  - now apply gframe_gsame.
  - intros m _. now rewrite T.
  - rewrite E. apply grows_refl.
Qed.
Lemma later_refl n s : later n s s. Proof. apply quietR_later, quietR_refl. Qed.
Lemma later_trans n a b c : later n a b -> later n b c -> later n a c.
Proof.
  intros [A1 A2 A3 A4] [B1 B2 B3 B4]. constructor.
  - intros h0 H. now apply B1, A1.
  - eapply gsame_trans; eassumption.
  - intros m H. now rewrite B3, A3.
  - eapply grows_trans; eassumption.
Qed.
(** [m] moves to a later state if the paths it works on are new *)
Definition works {A} (n : string) (m : P A) : Prop := forall s a s', m s = Ok (a, s') -> later n s s'.
Lemma works_quiet {A} n (m : P A) : quiet m -> works n m.
Proof. intros H s a s' E. apply quietR_later. eapply H. exact E. Qed.

(* ---- tables ---- *)
Lemma sget_add m n v g : m <> n -> sget m (g_tables (add_table n v g)) = sget m (g_tables g).
Proof.
  intros H. unfold sget, add_table, dset. cbn [g_tables dget]. destruct (String.eqb_spec m n); [contradiction|reflexivity].
Qed.
Lemma sget_add_same n v g : sget n (g_tables (add_table n v g)) = Some v.
Proof. unfold sget, add_table, dset. cbn [g_tables dget]. now rewrite String.eqb_refl. Qed.
Lemma kept_fresh h0 h t : kept h0 h -> fresh h t -> fresh h0 t.
Proof.
  intros K [H1 H2]. assert (N : forall p, h5_find p h = None -> h5_find p h0 = None).
  { intros p Hp. destruct (h5_find p h0) eqn:E; [|reflexivity]. apply K in E. congruence. }
  split; [now apply N|]. eapply Forall_impl; [|exact H2]. intros p. apply N.
Qed.
Lemma get_table_later n s t s' : get_table n s = Ok (t, s') ->
  later n s s' /\ sget n (g_tables (p_g s')) = Some t /\ p_in s' = p_in s /\
  (s' = s \/ exists w, get_path (p_g s) (p_out s) = Ok w /\ fst t = w ++ [lower_s n] /\ h5_find (fst t) (p_out s) = None /\
     h5_find (fst t) (p_out s') = Some (Table (table_descr n) [])).
Proof.
  unfold get_table, sbind, getg, geth. intros H.
  assert (NEW : forall w arrs h1 h2, get_path (p_g s) (p_out s) = Ok w -> kept (p_out s) h1 -> Forall (fun p => h5_find p (p_out s) = None) arrs ->
     h5_create w (lower_s n) (Table (table_descr n) []) h1 = Ok h2 ->
     let s2 := mkP (p_in s) (add_table n (w ++ [lower_s n], arrs) (p_g s)) h2 in let t2 := (w ++ [lower_s n], arrs) in
     later n s s2 /\ sget n (g_tables (p_g s2)) = Some t2 /\ p_in s2 = p_in s /\
     (s2 = s \/ exists w, get_path (p_g s) (p_out s) = Ok w /\ fst t2 = w ++ [lower_s n] /\ h5_find (fst t2) (p_out s) = None /\
     h5_find (fst t2) (p_out s2) = Some (Table (table_descr n) []))).
  { intros w arrs h1 h2 Hw K1 A1 C. apply kept_create in C. destruct C as (K2 & N2 & N3).
    assert (N0 : h5_find (w ++ [lower_s n]) (p_out s) = None).
    { destruct (h5_find (w ++ [lower_s n]) (p_out s)) eqn:E; [|reflexivity]. apply K1 in E. congruence. }
    cbn. split; [|split; [apply sget_add_same|split; [reflexivity|]]].
    - constructor; cbn [p_g p_out].
      + intros h0 [K F]. split; [eapply kept_trans; [exact K|]; eapply kept_trans; eassumption|].
        intros m tt0 [E|E]; [|now apply (F m)]. injection E as _ <-. apply (kept_fresh h0 (p_out s)); [exact K|]. now split.
      + repeat split.
      + intros m Hm. now apply sget_add.
      + apply kept_grows. eapply kept_trans; eassumption.
    - right. exists w. now repeat split. }
  destruct (sget n (g_tables (p_g s))) as [[p [|a l]]|] eqn:E.
  - destruct (tab_rows p (p_out s)) as [|row rows].
    + unfold liftR, slift in H. destruct (get_path (p_g s) (p_out s)) as [w|] eqn:Hw; [|discriminate].
      destruct (h5_create w (lower_s n) _ (p_out s)) as [h1|] eqn:C; [|discriminate].
      unfold seth, modg, sret in H. cbn in H. injection H as <- <-.
      apply (NEW w [] (p_out s) h1 eq_refl (kept_refl _) (Forall_nil _) C).
    + injection H as <- <-. split; [apply later_refl|]. split; [exact E|]. split; [reflexivity|now left].
  - injection H as <- <-. split; [apply later_refl|]. split; [exact E|]. split; [reflexivity|now left].
  - unfold liftR, slift in H. destruct (get_path (p_g s) (p_out s)) as [w|] eqn:Hw; [|discriminate].
    destruct (create_arrays w n (atoms_of n) (p_out s)) as [[arrs h1]|] eqn:C1; [|discriminate].
    destruct (h5_create w (lower_s n) _ h1) as [h2|] eqn:C; [|discriminate].
    unfold seth, modg, sret in H. cbn in H. injection H as <- <-.
    apply kept_create_arrays in C1. destruct C1 as [K1 A1]. apply (NEW w arrs h1 h2 eq_refl K1 A1 C).
Qed.

(* ---- writing ---- *)
(** the record object works on tables in use *)
Definition rd_of (n : string) (s : pst) (r : recd) : Prop :=
  exists t, sget n (g_tables (p_g s)) = Some t /\ r_path r = fst t /\ Forall (fun v => In (v_path v) (snd t)) (r_vls r).
Lemma rd_of_same n s s' r : g_tables (p_g s') = g_tables (p_g s) -> rd_of n s r -> rd_of n s' r.
Proof. intros E (t & H). exists t. now rewrite E. Qed.
Lemma sget_in {V} n (l : list (string * V)) v : sget n l = Some v -> In (n, v) l.
Proof. apply dget_in. intros a b. apply String.eqb_eq. Qed.
Lemma upd_later n s p f t : sget n (g_tables (p_g s)) = Some t -> (p = fst t \/ In p (snd t)) -> (forall nd, extends nd (f nd)) ->
  later n s (mkP (p_in s) (p_g s) (h5_upd p f (p_out s))).
Proof.
  intros Ht Hp Hf. constructor; cbn [p_g p_out].
  - intros h0 [K F]. split; [|exact F]. intros q nd E. pose proof (K _ _ E) as E'.
    assert (N : h5_find p h0 = None).
    { apply sget_in in Ht. apply F in Ht. destruct Ht as [H1 H2]. destruct Hp as [->|Hp]; [exact H1|]. rewrite Forall_forall in H2. now apply H2. }
    cbn [p_out]. rewrite find_upd_other; [exact E'|]. intros ->. congruence.
  - repeat split.
  - reflexivity.
  - now apply grows_upd.
Qed.
(** same module state *)
Definition keepsg {A} (m : P A) : Prop := forall s a s', m s = Ok (a, s') -> p_g s' = p_g s.
Lemma vls_write_later n t : forall l s l' s', vls_write l s = Ok (l', s') -> sget n (g_tables (p_g s)) = Some t ->
  Forall (fun v => In (v_path v) (snd t)) l -> later n s s' /\ p_g s' = p_g s /\ map v_path l' = map v_path l.
Proof.
  induction l as [|v l IH]; intros s l' s' H Ht Hl; cbn [vls_write] in H.
  - injection H as <- <-. split; [apply later_refl|]. now split.
  - unfold sbind in H. destruct (vl_write v s) as [[v' s1]|] eqn:E; [|discriminate].
    destruct (vls_write l s1) as [[r' s2]|] eqn:F; [|discriminate]. injection H as <- <-. inversion Hl as [|? ? Hv Hl']; subst.
    assert (G : later n s s1 /\ p_g s1 = p_g s /\ v_path v' = v_path v).
    { unfold vl_write in E. destruct (v_data v) as [|x xs] eqn:D; [injection E as <- <-; split; [apply later_refl|now split]|].
      unfold sbind, geth, liftR, slift in E. destruct (rmap (conv_elem (v_type v)) (x :: xs)) as [cs|]; [|discriminate].
      unfold seth, sret in E. injection E as <- <-. split; [|now split].
      apply (upd_later n s (v_path v) _ t Ht); [now right|apply extends_items]. }
    destruct G as (L1 & G1 & P1). rewrite <- G1 in Ht. destruct (IH s1 r' s2 F Ht Hl') as (L2 & G2 & P2).
    split; [eapply later_trans; eassumption|]. split; [congruence|]. cbn. now rewrite P1, P2.
Qed.
Lemma Forall_paths (T : list path) l l' : map v_path l' = map v_path l -> Forall (fun v => In (v_path v) T) l -> Forall (fun v => In (v_path v) T) l'.
Proof.
  intros E H. rewrite Forall_forall in *. intros v Hv. apply (in_map v_path) in Hv. rewrite E in Hv. apply in_map_iff in Hv.
  destruct Hv as (v0 & <- & Hv). now apply H.
Qed.
Lemma rd_write_later n r s r' s' : rd_write r s = Ok (r', s') -> rd_of n s r -> later n s s' /\ p_g s' = p_g s /\ rd_of n s' r'.
Proof.
  intros H (t & Ht & Hp & Hv). unfold rd_write, sbind, geth, seth in H.
  set (s1 := mkP (p_in s) (p_g s) (h5_upd (r_path r) (append_rows (r_buf r)) (p_out s))) in *.
  destruct (vls_write (r_vls r) s1) as [[vs s2]|] eqn:E; [|discriminate]. injection H as <- <-.
  destruct (vls_write_later n t _ _ _ _ E Ht Hv) as (L & G & P).
  split; [|split; [now rewrite G|]].
  - eapply later_trans; [|exact L]. apply (upd_later n s (r_path r) _ t Ht); [now left|apply extends_rows].
  - exists t. rewrite G. split; [exact Ht|]. split; [exact Hp|]. cbn. now apply (Forall_paths _ (r_vls r)).
Qed.
Lemma rd_add_later n row r s r' s' : rd_add row r s = Ok (r', s') -> rd_of n s r -> later n s s' /\ p_g s' = p_g s /\ rd_of n s' r'.
Proof.
  unfold rd_add, sbind, getg, liftR, slift. intros H Hr.
  destruct (conv_row _ _) as [rw|]; [|discriminate]. destruct (_ <=? _); [discriminate|]. cbv zeta in H.
  match type of H with (if ?b then _ else _) ?s0 = _ => destruct b end.
  - apply (rd_write_later n _ _ _ _ H). destruct Hr as (t & H1 & H2 & H3). now exists t.
  - injection H as <- <-. split; [apply later_refl|]. split; [reflexivity|]. destruct Hr as (t & H1 & H2 & H3). now exists t.
Qed.
Lemma upd_nth_path i s l : map v_path (upd_nth i (vl_add s) l) = map v_path l.
Proof. revert i. induction l as [|v l IH]; intros [|i]; cbn; try reflexivity; [now rewrite vl_add_path|now rewrite IH]. Qed.
Lemma vladds_of n s : forall ad r, rd_of n s r -> rd_of n s (rd_vladds ad r).
Proof.
  induction ad as [|[i d] ad IH]; intros r H; cbn; [exact H|]. apply IH. destruct H as (t & H1 & H2 & H3). exists t.
  split; [exact H1|]. split; [exact H2|]. cbn. apply (Forall_paths _ (r_vls r)); [apply upd_nth_path|exact H3].
Qed.
Lemma rd_init_of n t h s : sget n (g_tables (p_g s)) = Some t -> rd_of n s (rd_init n t h).
Proof.
  intros H. exists t. split; [exact H|]. split; [reflexivity|]. cbn. apply Forall_forall. intros v Hv. apply in_map_iff in Hv.
  destruct Hv as ([p a] & <- & Hv). cbn. now apply in_combine_l in Hv.
Qed.
Lemma quiet_tables s s' : quietR s s' -> g_tables (p_g s') = g_tables (p_g s).
Proof. intros [_ G]. unfold gframe in G. tauto. Qed.
Lemma run_loop_later n b : quiet_body b -> forall fuel m fs r s x r' s', run_loop fuel n b m fs r s = Ok ((x, r'), s') -> rd_of n s r ->
  later n s s' /\ g_tables (p_g s') = g_tables (p_g s) /\ rd_of n s' r'.
Proof.
  intros Hb. induction fuel as [|fuel IH]; intros m fs r s x r' s' H Hr; cbn [run_loop] in H; destruct (String.eqb m n);
    try discriminate; try (injection H as _ <- <-; split; [apply later_refl|now split]).
  unfold sbind in H. destruct (b m fs s) as [[[row ad] s1]|] eqn:E1; [|discriminate].
  destruct (rd_add row (rd_vladds ad r) s1) as [[r1 s2]|] eqn:E2; [|discriminate].
  destruct (rheader s2) as [[[n1 fs1] s3]|] eqn:E3; [|discriminate].
  apply Hb in E1. apply quiet_rheader in E3.
  destruct (rd_add_later n _ _ _ _ _ E2) as (L2 & G2 & R2).
  { apply vladds_of. apply (rd_of_same n s); [now apply quiet_tables|exact Hr]. }
  destruct (IH _ _ _ _ _ _ _ H) as (L4 & G4 & R4).
  { apply (rd_of_same n s2); [now apply quiet_tables|exact R2]. }
  split; [|split; [|exact R4]].
  - eapply later_trans; [apply quietR_later; exact E1|]. eapply later_trans; [exact L2|]. eapply later_trans; [apply quietR_later; exact E3|exact L4].
  - rewrite G4, (quiet_tables _ _ E3), G2. now apply quiet_tables.
Qed.
Lemma run_reader_later b n fs : quiet_body b -> works n (run_reader b n fs).
Proof.
  intros Hb s x s' H. unfold run_reader in H. unfold sbind in H.
  destruct (get_table n s) as [[t s1]|] eqn:E1; [|discriminate]. destruct (geth s1) as [[h s1']|] eqn:E0; [|discriminate].
  injection E0 as <- <-.
  destruct (run_loop _ n b n fs _ s1) as [[[y r] s2]|] eqn:E2; [|discriminate].
  destruct (rd_write r s2) as [[r' s3]|] eqn:E3; [|discriminate]. injection H as _ <-.
  apply get_table_later in E1. destruct E1 as (L1 & T1 & _ & _).
  destruct (run_loop_later n b Hb _ _ _ _ _ _ _ _ E2) as (L2 & G2 & R2); [now apply rd_init_of|].
  destruct (rd_write_later n _ _ _ _ E3 R2) as (L3 & _ & _).
  eapply later_trans; [exact L1|]. eapply later_trans; [exact L2|exact L3].
Qed.

(* ---- readers of their own ---- *)
Lemma works_bind {A B} n (m : P A) (k : A -> P B) : works n m -> (forall a, works n (k a)) -> works n (sbind m k).
Proof.
  intros Hm Hk s b s' H. unfold sbind in H. destruct (m s) as [[a s1]|] eqn:E; [|discriminate].
  eapply later_trans; [eapply Hm; exact E|eapply Hk; exact H].
Qed.
Lemma xsup_loop_later n t : forall fuel m fs s x s', xsup_loop fuel n (fst t) m fs s = Ok (x, s') -> sget n (g_tables (p_g s)) = Some t ->
  later n s s'.
Proof.
  induction fuel as [|fuel IH]; intros m fs s x s' H Ht; cbn [xsup_loop] in H; destruct (String.eqb m n);
    try discriminate; try (injection H as _ <-; apply later_refl).
  unfold sbind in H. destruct (b_xsuptran m fs s) as [[[row ad] s1]|] eqn:E1; [|discriminate].
  assert (Q1 : quietR s s1) by (revert E1; apply (fun Q : quiet (b_xsuptran m fs) => Q s (row, ad) s1); unfold b_xsuptran; quietb).
  unfold liftR, slift in H. destruct (conv_row _ row) as [cs|]; [|discriminate]. unfold geth, seth in H.
  set (s2 := mkP (p_in s1) (p_g s1) _) in H. destruct (rheader s2) as [[[n1 fs1] s3]|] eqn:E3; [|discriminate].
  apply quiet_rheader in E3. assert (T1 : sget n (g_tables (p_g s1)) = Some t) by now rewrite (quiet_tables _ _ Q1).
  eapply later_trans; [apply quietR_later; exact Q1|]. eapply later_trans; [|eapply later_trans; [apply quietR_later; exact E3|eapply IH; [exact H|]]].
  - apply (upd_later n s1 (fst t) _ t T1); [now left|apply extends_rows].
  - now rewrite (quiet_tables _ _ E3).
Qed.
Lemma xsuptran_later n fs : works n (rd_xsuptran n fs).
Proof.
  intros s x s' H. unfold rd_xsuptran, sbind in H. destruct (get_table n s) as [[t s1]|] eqn:E1; [|discriminate].
  apply get_table_later in E1. destruct E1 as (L1 & T1 & _ & _). eapply later_trans; [exact L1|]. eapply xsup_loop_later; [exact H|exact T1].
Qed.
Lemma sconmesh_later n fs : works n (rd_sconmesh n fs).
Proof.
  unfold rd_sconmesh. apply works_bind; [apply works_quiet; quiets|intro]. destruct (1 <? a); [apply works_quiet; quiets|].
  apply run_reader_later. intros m rec. unfold b_sconmesh. quietb.
Qed.
Lemma rdielcor_later n fs : works n (rd_rdielcor n fs).
Proof.
  unfold rd_rdielcor. apply works_bind; [apply works_quiet; quiets|intro].
  apply run_reader_later. intros m rec. unfold b_rdielcor. quietb.
Qed.

(** The same without the location, which IDENT and HIERARCH set. *)
Record after (n : string) (s s' : pst) : Prop := mkAfter {
  af_inv : forall h0, inv h0 s -> inv h0 s';
  af_names : g_names (p_g s') = g_names (p_g s);
  af_tables : forall m, m <> n -> sget m (g_tables (p_g s')) = sget m (g_tables (p_g s));
  af_grows : grows (p_out s) (p_out s') }.
Lemma later_after n s s' : later n s s' -> after n s s'.
Proof. intros [A B C D]. constructor; auto. unfold gsame in B. tauto. Qed.
Lemma after_trans n a b c : after n a b -> after n b c -> after n a c.
Proof.
  intros [A1 A2 A3 A4] [B1 B2 B3 B4]. constructor.
  - intros h0 H. now apply B1, A1.
  - congruence.
  - intros m H. now rewrite B3, A3.
  - eapply grows_trans; eassumption.
Qed.
Lemma after_modg n f s : (forall g, g_tables (f g) = g_tables g /\ g_names (f g) = g_names g) -> after n s (mkP (p_in s) (f (p_g s)) (p_out s)).
Proof.
  intros H. destruct (H (p_g s)) as [H1 H2]. constructor; cbn [p_g p_out].
  - intros h0 [K F]. split; [exact K|]. cbn [p_g]. now rewrite H1.
  - exact H2.
  - intros m _. now rewrite H1.
  - apply grows_refl.
Qed.
Lemma hierarch_after n fs s x s' : rd_hierarch n fs s = Ok (x, s') -> after n s s' /\
  g_hashier (p_g s') = true /\ exists t s2 s3, get_table n s2 = Ok (t, s3) /\ g_tables (p_g s2) = g_tables (p_g s) /\ g_hashier (p_g s2) = g_hashier (p_g s) /\
    g_prefix (p_g s2) = g_prefix (p_g s) /\ g_ftid (p_g s2) = g_ftid (p_g s) /\
    sget n (g_tables (p_g s')) = Some t /\ g_htab (p_g s') = Some (fst t) /\
    g_prefix (p_g s') = g_prefix (p_g s) /\ g_ftid (p_g s') = g_ftid (p_g s).
Proof.
  unfold rd_hierarch. intros H. unfold sbind in H.
  destruct (rfloats 4 0 s) as [[rec2 s1]|] eqn:E1; [|discriminate].
  assert (Q1 : quietR s s1) by (eapply quiet_liftF; exact E1).
  unfold liftR, slift in H. destruct (int_at fs 2) as [st|]; [|discriminate]. unfold modg at 1 in H.
  set (s2 := mkP (p_in s1) (set_seltyp (Some st) (p_g s1)) (p_out s1)) in H.
  destruct (get_table n s2) as [[t s3]|] eqn:E3; [|discriminate]. unfold geth at 1 in H.
  destruct (int_at rec2 3) as [nsub|]; [|discriminate].
  destruct (rfloats nsub 0 s3) as [[ih s4]|] eqn:E4; [|discriminate].
  assert (Q4 : quietR s3 s4) by (eapply quiet_liftF; exact E4).
  destruct (rd_add _ _ s4) as [[r1 s5]|] eqn:E5; [|discriminate].
  destruct (rheader s5) as [[[n1 fs1] s6]|] eqn:E6; [|discriminate].
  apply quiet_rheader in E6.
  destruct (run_loop _ n b_hierarch n1 fs1 r1 s6) as [[[y r] s7]|] eqn:E7; [|discriminate].
  destruct (rd_write r s7) as [[r' s8]|] eqn:E8; [|discriminate]. unfold geth in H.
  destruct (tab_rows (fst t) (p_out s8)) as [|row rows]; [discriminate|]. unfold modg, sret in H. injection H as _ <-.
  pose proof E3 as E3'. apply get_table_later in E3. destruct E3 as (L3 & T3 & _ & _).
  destruct (rd_add_later n _ _ _ _ _ E5) as (L5 & G5 & R5).
  { apply vladds_of. apply rd_init_of. now rewrite (quiet_tables _ _ Q4). }
  destruct (run_loop_later n b_hierarch) with (2 := E7) as (L7 & G7 & R7).
  { intros m rec. unfold b_hierarch. quietb. }
  { apply (rd_of_same n s5); [now apply quiet_tables|exact R5]. }
  destruct (rd_write_later n _ _ _ _ E8 R7) as (L8 & G8 & _).
  split; [|split; [reflexivity|]].
  2:{ exists t, s2, s3. split; [exact E3'|]. assert (T1 : gframe (p_g s) (p_g s1)) by apply Q1. unfold gframe in T1.
      assert (L : gsame (p_g s2) (p_g s8)).
      { eapply gsame_trans; [apply (lt_same _ _ _ L3)|]. eapply gsame_trans; [apply gframe_gsame, Q4|]. eapply gsame_trans; [apply (lt_same _ _ _ L5)|].
        eapply gsame_trans; [apply gframe_gsame, E6|]. eapply gsame_trans; [apply (lt_same _ _ _ L7)|]. apply (lt_same _ _ _ L8). }
      unfold gsame in L. cbn [s2 p_g set_seltyp g_tables g_hashier g_prefix g_ftid set_top g_htab] in *.
      assert (S8 : sget n (g_tables (p_g s8)) = Some t) by (rewrite G8, G7, (quiet_tables _ _ E6), G5, (quiet_tables _ _ Q4); exact T3).
      repeat split; try tauto; destruct T1 as (_ & _ & _ & T4 & _ & T6 & _); destruct L as (_ & _ & _ & L4 & _ & L6 & _); congruence. }
  eapply after_trans; [apply later_after, quietR_later; exact Q1|].
  eapply after_trans; [apply (after_modg n (set_seltyp (Some st)) s1); now split|]. fold s2.
  eapply after_trans; [apply later_after; exact L3|].
  eapply after_trans; [apply later_after, quietR_later; exact Q4|].
  eapply after_trans; [apply later_after; exact L5|].
  eapply after_trans; [apply later_after, quietR_later; exact E6|].
  eapply after_trans; [apply later_after; exact L7|].
  eapply after_trans; [apply later_after; exact L8|].
  apply (after_modg n (set_top (fst t) row) s8). now split.
Qed.
Lemma hier_cell_grows g g' h h' i c z : g_htab g' = g_htab g -> grows h h' -> hier_cell g h i c = Ok z -> hier_cell g' h' i c = Ok z.
Proof.
  intros E G. unfold hier_cell. rewrite E. destruct (g_htab g) as [p|]; [|easy].
  destruct (nth_error (tab_rows p h) i) as [row|] eqn:R; [|easy]. intros H.
  enough (nth_error (tab_rows p h') i = Some row) as -> by exact H.
  unfold tab_rows in *. destruct (h5_find p h) as [nd|] eqn:F; [|destruct i; discriminate].
  destruct nd as [|d rs|]; try (destruct i; discriminate). destruct (G p _ F) as ([|d' rs'|] & -> & X); cbn in X; try easy.
  destruct X as [-> [more ->]]. rewrite nth_error_app1; [exact R|]. apply nth_error_Some. congruence.
Qed.
Lemma get_path_grows g g' h h' w : gsame g g' -> grows h h' -> get_path g h = Ok w -> get_path g' h' = Ok w.
Proof.
  intros (_ & E2 & E3 & E4 & E5 & E6 & E7 & E8 & _) G. unfold get_path. rewrite E2, E3, E4, E5, E6, E7.
  destruct (g_hashier g); [|easy].
  destruct (opt_truthy (g_indsel g)).
  - destruct (hier_cell g h 0 2) as [t|] eqn:H; [|easy]. now rewrite (hier_cell_grows g g' h h' 0 2 t E8 G H).
  - destruct (g_attop g); [easy|]. destruct (hier_cell g h 0 2) as [t|] eqn:H; [|easy]. now rewrite (hier_cell_grows g g' h h' 0 2 t E8 G H).
Qed.
Lemma ident_after n fs s x s' : rd_ident n fs s = Ok (x, s') -> after n s s' /\
  (g_hashier (p_g s') = g_hashier (p_g s) /\ g_htab (p_g s') = g_htab (p_g s) /\ g_prefix (p_g s') = g_prefix (p_g s) /\ g_ftid (p_g s') = g_ftid (p_g s)) /\
  (sget n (g_tables (p_g s)) = None -> exists w l, sget n (g_tables (p_g s')) = Some (w ++ [lower_s n], l) /\ get_path (p_g s') (p_out s') = Ok w).
Proof.
  unfold rd_ident. intros H. unfold sbind in H. unfold getg at 1 in H.
  set (m1 := if opt_truthy (g_seltyp (p_g s)) then sret tt else _) in H.
  destruct (m1 s) as [[u s1]|] eqn:E1; [|discriminate].
  assert (A1 : after n s s1 /\ g_tables (p_g s1) = g_tables (p_g s) /\
    (g_hashier (p_g s1) = g_hashier (p_g s) /\ g_htab (p_g s1) = g_htab (p_g s) /\ g_prefix (p_g s1) = g_prefix (p_g s) /\ g_ftid (p_g s1) = g_ftid (p_g s))).
  { unfold m1 in E1. destruct (opt_truthy (g_seltyp (p_g s))).
    - injection E1 as _ <-. split; [apply later_after, later_refl|now repeat split].
    - unfold sbind, liftR, slift in E1. destruct (int_at fs 1) as [st|]; [|discriminate]. injection E1 as _ <-.
      split; [apply (after_modg n (set_seltyp (Some st)) s); now split|now repeat split]. }
  destruct A1 as (A1 & T1 & C1). clear E1 m1.
  destruct (get_table n s1) as [[t s2]|] eqn:E2; [|discriminate]. unfold liftR, slift in H.
  destruct (int_at fs 0) as [a|]; [|discriminate]. destruct (int_at fs 1) as [b|]; [|discriminate].
  destruct (int_at fs 2) as [c|]; [|discriminate]. destruct (conv_row _ _) as [row|]; [|discriminate].
  unfold geth, seth in H. set (s3 := mkP (p_in s2) (p_g s2) _) in H. apply quiet_rheader in H.
  apply get_table_later in E2. destruct E2 as (L2 & T2 & I2 & C2).
  assert (L3 : later n s2 s3) by (apply (upd_later n s2 (fst t) _ t T2); [now left|apply extends_rows]).
  assert (L4 : later n s1 s') by (eapply later_trans; [exact L2|]; eapply later_trans; [exact L3|apply quietR_later; exact H]).
  split; [eapply after_trans; [exact A1|now apply later_after]|].
  split; [pose proof (lt_same _ _ _ L4) as G; unfold gsame in G; destruct G as (_ & _ & _ & G4 & _ & G6 & G7 & G8 & _);
    destruct C1 as (? & ? & ? & ?); repeat split; congruence|].
  intros N. rewrite <- T1 in N. destruct C2 as [->|(w & Hw & Ht & _)]; [congruence|].
  exists w, (snd t). split.
  - rewrite (quiet_tables _ _ H). cbn [s3 p_g]. rewrite T2. rewrite <- Ht. now destruct t.
  - apply (get_path_grows (p_g s1) _ (p_out s1)); [apply (lt_same _ _ _ L4)|apply (lt_grows _ _ _ L4)|exact Hw].
Qed.

(* ---- a reader for every record ---- *)
Definition plain_reader (n : string) (rd : reader) : Prop := n <> "IDENT" /\ n <> "HIERARCH" /\ forall fs, works n (rd n fs).
Lemma plain_run b n : n <> "IDENT" -> n <> "HIERARCH" -> quiet_body b -> plain_reader n (run_reader b).
Proof. intros H1 H2 Hb. split; [exact H1|]. split; [exact H2|]. intros fs. now apply run_reader_later. Qed.
Lemma readers_plain : Forall (fun nr => nr = ("IDENT", rd_ident) \/ nr = ("HIERARCH", rd_hierarch) \/ plain_reader (fst nr) (snd nr)) readers.
Proof.
  unfold readers, std, opt.
  repeat (apply Forall_cons; [first [now left|right; first [now left|right; cbn [fst snd]]]|]); [..|apply Forall_nil].
  all: try (apply plain_run; [discriminate|discriminate|
    first [apply quiet_td|intros n rec; unfold b_standard, b_optional, b_text, b_gelmnt1, b_gelmnt2, b_gelref1, b_gsetmemb, b_sconcept, b_bnbcd,
      b_bldep, b_beuslo, b_brigac, b_compdef, b_rdpoints, b_rdresref, b_groups3, b_rvnodres, b_rvelmres, b_wdresref, b_wglobdef, b_wbody,
      b_w1matrix, b_wcommon1, b_w1sforce, b_drift, b_wfkpoint, b_wfluidkn, b_wsection, b_wsurface, b_winput, b_w1panpre; quietb]]).
  all: split; [discriminate|]; split; [discriminate|]; intros fs.
  all: first [apply xsuptran_later|apply sconmesh_later|apply rdielcor_later|apply works_quiet; unfold rd_irecsize, rd_iend, rheader; quiets].
Qed.
Lemma reader_cases n rd : sget n readers = Some rd ->
  (n = "IDENT" /\ rd = rd_ident) \/ (n = "HIERARCH" /\ rd = rd_hierarch) \/ plain_reader n rd.
Proof.
  intro H. apply sget_in in H. pose proof readers_plain as G. rewrite Forall_forall in G. apply G in H.
  destruct H as [H|[H|H]]; [left|right; left|right; right; exact H]; injection H as -> ->; now split.
Qed.

(* ---- the whole file ---- *)
(** IDENT once, and no HIERARCH after it *)
Definition one_ident (names : list string) : Prop :=
  exists a b, names = a ++ "IDENT" :: b /\ ~ In "IDENT" (a ++ b) /\ ~ In "HIERARCH" b.
Definition located (s : pst) : Prop :=
  (~ In "IDENT" (g_names (p_g s)) -> sget "IDENT" (g_tables (p_g s)) = None) /\
  (one_ident (g_names (p_g s)) -> exists w l, sget "IDENT" (g_tables (p_g s)) = Some (w ++ ["ident"], l) /\ get_path (p_g s) (p_out s) = Ok w).
(** where the hierarchy table is *)
Definition hier_at (s : pst) : Prop :=
  (sget "HIERARCH" (g_tables (p_g s)) = None /\ g_hashier (p_g s) = false) \/
  exists t a l, let p := [(g_prefix (p_g s) ++ g_ftid (p_g s) ++ t)%string; "hierarch"] in
    sget "HIERARCH" (g_tables (p_g s)) = Some (p, a :: l) /\ g_hashier (p_g s) = true /\ g_htab (p_g s) = Some p.
Lemma hier_at_same s s' : sget "HIERARCH" (g_tables (p_g s')) = sget "HIERARCH" (g_tables (p_g s)) ->
  g_hashier (p_g s') = g_hashier (p_g s) -> g_htab (p_g s') = g_htab (p_g s) -> g_prefix (p_g s') = g_prefix (p_g s) -> g_ftid (p_g s') = g_ftid (p_g s) ->
  hier_at s -> hier_at s'.
Proof.
  intros E1 E2 E3 E4 E5 [[H1 H2]|(t & a & l & H1 & H2 & H3)]; [left|right]; rewrite ?E1, ?E2; [now split|].
  exists t, a, l. cbv zeta. now rewrite ?E1, ?E2, E3, E4, E5.
Qed.
Lemma hierarch_get s t s' : g_hashier (p_g s) = false -> sget "HIERARCH" (g_tables (p_g s)) = None -> get_table "HIERARCH" s = Ok (t, s') ->
  exists x a l, t = ([(g_prefix (p_g s) ++ g_ftid (p_g s) ++ x)%string; "hierarch"], a :: l).
Proof.
  intros H N E. unfold get_table, sbind, getg, geth, liftR, slift in E. rewrite N in E.
  unfold get_path in E. rewrite H in E. destruct (opt_truthy (g_seltyp (p_g s))); [|discriminate].
  change (atoms_of "HIERARCH") with [("ihsref", TI)] in E. cbn [create_arrays rbind] in E.
  set (w := [(g_prefix (p_g s) ++ g_ftid (p_g s) ++ str_of_opt (g_seltyp (p_g s)))%string]) in E.
  destruct (h5_create w (lower_s "HIERARCH" ++ "_" ++ "ihsref")%string (Arr TI []) (p_out s)) as [h1|]; [|discriminate]. cbn [rbind] in E.
  destruct (h5_create w (lower_s "HIERARCH") _ h1) as [h2|]; [|discriminate]. unfold seth, modg, sret in E. injection E as <- _.
  eexists _, _, _. reflexivity.
Qed.
Lemma hierarch_got s p a l t s' : sget "HIERARCH" (g_tables (p_g s)) = Some (p, a :: l) -> get_table "HIERARCH" s = Ok (t, s') -> t = (p, a :: l).
Proof. intros H E. unfold get_table, sbind, getg, geth in E. rewrite H in E. now injection E as <- _. Qed.
(** what a step of the loop keeps *)
Record step (s s' : pst) : Prop := mkStep {
  st_inv : forall h0, inv h0 s -> inv h0 s';
  st_grows : grows (p_out s) (p_out s');
  st_located : located s -> located s';
  st_hier : hier_at s -> hier_at s';
  st_core : g_prefix (p_g s') = g_prefix (p_g s) /\ g_ftid (p_g s') = g_ftid (p_g s) }.
Lemma step_trans a b c : step a b -> step b c -> step a c.
Proof.
  intros [A1 A2 A3 A4 [A5 A6]] [B1 B2 B3 B4 [B5 B6]]. constructor; auto; [eapply grows_trans; eassumption|]. split; congruence.
Qed.
Lemma quiet_step s s' : quietR s s' -> step s s'.
Proof.
  intros Q. pose proof (quietR_later "" _ _ Q) as L. constructor; [apply L|apply L| | |].
  3:{ pose proof (lt_same _ _ _ L) as G. unfold gsame in G. tauto. }
  2:{ pose proof (lt_same _ _ _ L) as G. unfold gsame in G. apply hier_at_same; try tauto. now rewrite (quiet_tables _ _ Q). }
  intros [H1 H2].
  assert (E : g_tables (p_g s') = g_tables (p_g s)) by now apply quiet_tables.
  assert (N : g_names (p_g s') = g_names (p_g s)) by (destruct L as [_ L _ _]; unfold gsame in L; tauto).
  split; rewrite N, E; [exact H1|]. intros O. destruct (H2 O) as (w & l & E1 & E2). exists w, l. split; [exact E1|].
  apply (get_path_grows (p_g s) _ (p_out s)); [apply L|apply L|exact E2].
Qed.
Lemma split_last {A} : forall (l : list A) x a y b, l ++ [x] = a ++ y :: b -> (b = [] /\ a = l /\ x = y) \/ exists b', b = b' ++ [x] /\ l = a ++ y :: b'.
Proof.
  intros l x a y b H. destruct b as [|z b] using rev_ind.
  - left. apply app_inj_tail in H. destruct H as [-> ->]. now split.
  - right. exists b. change (a ++ y :: b ++ [z]) with (a ++ (y :: b) ++ [z]) in H. rewrite app_assoc in H. apply app_inj_tail in H.
    destruct H as [-> ->]. now split.
Qed.
Lemma lower_ident : lower_s "IDENT" = "ident". Proof. reflexivity. Qed.
Lemma reader_step n rd fs s x s' : sget n readers = Some rd -> (dos modg (add_name n); rd n fs) s = Ok (x, s') -> step s s'.
Proof.
  intros Hr H. unfold sbind, modg in H. set (s1 := mkP (p_in s) (add_name n (p_g s)) (p_out s)) in H.
  assert (I1 : forall h0, inv h0 s -> inv h0 s1) by (intros h0 [K F]; split; [exact K|exact F]).
  destruct (reader_cases n rd Hr) as [[-> ->]|[[-> ->]|(N1 & N2 & W)]].
  - apply ident_after in H. destruct H as (A & C0 & C). constructor.
    + intros h0 Hi. now apply A, I1.
    + apply A.
    + intros [H1 H2]. split; rewrite (af_names _ _ _ A); cbn [s1 p_g add_name g_names].
      * intros X. exfalso. apply X. apply in_or_app. right. now left.
      * intros (a & b & E & Ha & Hb). apply split_last in E. destruct E as [(-> & -> & _)|(b' & -> & _)].
        -- rewrite app_nil_r in Ha. rewrite <- lower_ident. apply C. cbn [s1 p_g add_name g_tables]. now apply H1.
        -- exfalso. apply Ha. apply in_or_app. right. apply in_or_app. right. now left.
    + apply (hier_at_same s s'); try apply C0. rewrite (af_tables _ _ _ A) by discriminate. reflexivity.
    + split; apply C0.
  - apply hierarch_after in H. destruct H as (A & Hh & t & s2 & s3 & G1 & G2 & G3 & G4 & G5 & G6 & G7 & G8 & G9). constructor.
    + intros h0 Hi. now apply A, I1.
    + apply A.
    + intros [H1 H2]. split; rewrite (af_names _ _ _ A); cbn [s1 p_g add_name g_names].
      * intros X. rewrite (af_tables _ _ _ A) by discriminate. cbn [s1 p_g add_name g_tables]. apply H1. intros Y. apply X. apply in_or_app. now left.
      * intros (a & b & E & Ha & Hb). exfalso. apply split_last in E. destruct E as [(_ & _ & E)|(b' & -> & _)]; [discriminate|].
        apply Hb. apply in_or_app. right. now left.
    + cbn [s1 p_g add_name g_tables g_hashier g_prefix g_ftid] in *.
      intros [[X1 X2]|(y & a & l & X1 & X2 & X3)]; right.
      * rewrite <- G2 in X1. rewrite <- G3 in X2. destruct (hierarch_get s2 t s3 X2 X1 G1) as (y & a & l & ->). exists y, a, l. cbv zeta.
        rewrite G8, G9, <- G4, <- G5. now repeat split.
      * rewrite <- G2 in X1. pose proof (hierarch_got s2 _ _ _ _ _ X1 G1) as ->. exists y, a, l. cbv zeta. rewrite G8, G9. now repeat split.
    + split; [exact G8|exact G9].
  - apply W in H. rename H into A. pose proof (later_after _ _ _ A) as B. constructor.
    + intros h0 Hi. now apply A, I1.
    + apply A.
    + intros [H1 H2]. split; rewrite (af_names _ _ _ B); cbn [s1 p_g add_name g_names]; rewrite (lt_tables _ _ _ A) by congruence; cbn [s1 p_g add_name g_tables].
      * intros X. apply H1. intros Y. apply X. apply in_or_app. now left.
      * intros (a & b & E & Ha & Hb). apply split_last in E. destruct E as [(_ & _ & E)|(b' & -> & E)]; [congruence|].
        destruct H2 as (w & l & E1 & E2).
        { exists a, b'. split; [exact E|]. split; intros X; [apply Ha|apply Hb]; rewrite ?in_app_iff in *; tauto. }
        exists w, l. split; [exact E1|]. apply (get_path_grows (p_g s1) _ (p_out s1)); [apply A|apply A|exact E2].
    + pose proof (lt_same _ _ _ A) as G. unfold gsame in G. cbn [s1 p_g add_name g_hashier g_htab g_prefix g_ftid] in G.
      apply hier_at_same; try tauto. rewrite (lt_tables _ _ _ A) by congruence. reflexivity.
    + pose proof (lt_same _ _ _ A) as G. unfold gsame in G. cbn [s1 p_g add_name g_hashier g_htab g_prefix g_ftid] in G. tauto.
Qed.
Lemma skip_run_quiet cur : forall fuel n r, quiet (skip_run fuel cur n r).
Proof.
  induction fuel; intros n r; cbn [skip_run]; destruct (String.eqb n cur); try apply quiet_ret; try apply quiet_raise.
  apply quiet_bind; [apply quiet_liftF|]. intros [n1 r1]. apply IHfuel.
Qed.
Lemma skip_same_quiet n r : quiet (skip_same n r).
Proof. intros s a s' H. eapply skip_run_quiet. exact H. Qed.
Lemma general_step n r s x s' : general_parser n r s = Ok (x, s') -> step s s'.
Proof.
  unfold general_parser. intros H. unfold sbind at 1 in H. unfold liftR, slift in H. destruct (pyget r 0) as [a|]; [|discriminate].
  destruct (flt_lt a f0).
  - apply quiet_step. revert H. match goal with |- ?m s = _ -> _ => enough (Q : quiet m) by apply Q end. unfold rheader. quiets.
  - destruct (sget n readers) as [rd|] eqn:E; [now apply (reader_step n rd r _ x)|]. apply quiet_step. eapply skip_same_quiet. exact H.
Qed.
Lemma parse_loop_step only : forall fuel n r s u s', parse_loop fuel only n r s = Ok (u, s') -> step s s'.
Proof.
  induction fuel as [|fuel IH]; intros n r s u s' H; cbn [parse_loop] in H; destruct (String.eqb n "");
    try discriminate; try (injection H as _ <-; apply quiet_step, quietR_refl).
  match type of H with sbind ?m0 _ _ = _ => set (m := m0) in H end.
  unfold sbind in H. destruct (m s) as [[[n1 r1] s1]|] eqn:E; [|discriminate]. unfold m in E. clear m.
  eapply step_trans; [|eapply IH; exact H]. destruct (wanted only n); [now apply general_step in E|]. apply quiet_step. eapply skip_same_quiet. exact E.
Qed.
(** The attributes that parse_file puts on the group of the file. *)
Definition attributes (g : glob) (lev : string) (idx : bool) (n : node) : node :=
  put_attr "FILETYPE" (AStr (g_ftid g))
 (put_attr "SELTYP" (AInt (g_seltyp g))
 (put_attr "DATATYPE" (AStr (datatype_of g))
 (put_attr "LEVEL" (AStr lev)
 ((if idx then put_attr "INDEX" (AInt (g_indsel g)) else (fun x => x))
  (put_attr "RECORDS" (AStrs (dedup [] (g_names g))) n))))).
Theorem parse_file_frame only s u s' : parse_file only s = Ok (u, s') -> g_tables (p_g s) = [] -> g_names (p_g s) = [] ->
  exists h1 w lev idx, kept (p_out s) h1 /\ get_path (p_g s') h1 = Ok w /\ h5_find w h1 <> None /\ level_of (p_g s') h1 = Ok (lev, idx) /\
  p_out s' = h5_upd w (attributes (p_g s') lev idx) h1 /\
  (one_ident (g_names (p_g s')) -> h5_find (w ++ ["ident"]) (p_out s) = None) /\
  g_prefix (p_g s') = g_prefix (p_g s) /\ g_ftid (p_g s') = g_ftid (p_g s) /\
  (g_hashier (p_g s) = false -> g_hashier (p_g s') = true -> exists t, let p := [(g_prefix (p_g s) ++ g_ftid (p_g s) ++ t)%string; "hierarch"] in
     g_htab (p_g s') = Some p /\ h5_find p (p_out s) = None).
Proof.
  intros H T N. unfold parse_file in H. unfold sbind in H. destruct (rheader s) as [[[n r] s1]|] eqn:E1; [|discriminate].
  apply quiet_rheader in E1. destruct (parse_loop _ only n r s1) as [[v s2]|] eqn:E2; [|discriminate]. apply parse_loop_step in E2.
  assert (S : step s s2) by (eapply step_trans; [apply quiet_step; exact E1|exact E2]). clear E1 E2 s1.
  unfold set_attributes in H. unfold sbind, getg, geth, liftR, slift in H.
  destruct (get_path (p_g s2) (p_out s2)) as [w|] eqn:W; [|discriminate]. destruct (h5_find w (p_out s2)) as [nd|] eqn:F; [|discriminate].
  destruct (level_of (p_g s2) (p_out s2)) as [[lev idx]|] eqn:L; [|discriminate]. unfold seth in H. injection H as _ <-. cbn [p_g p_out].
  assert (I0 : inv (p_out s) s) by (split; [apply kept_refl|]; rewrite T; easy).
  apply (st_inv _ _ S) in I0. destruct I0 as [K Fr].
  exists (p_out s2), w, lev, idx. split; [exact K|]. split; [exact W|]. split; [congruence|]. split; [exact L|]. split; [reflexivity|].
  split; [|split; [apply (st_core _ _ S)|split; [apply (st_core _ _ S)|]]].
  2:{ intros X Y. destruct (st_hier _ _ S) as [[_ Z]|(t & a & l & Z1 & Z2 & Z3)]; [left; now rewrite T|congruence|].
      exists t. cbv zeta. destruct (st_core _ _ S) as [C1 C2]. rewrite <- C1, <- C2. split; [exact Z3|]. apply sget_in in Z1. apply Fr in Z1. apply Z1. }
  intros O. destruct (st_located _ _ S) as [_ Z].
  { split; rewrite N, T; [reflexivity|]. intros (a & b & X & _). destruct a; discriminate. }
  destruct (Z O) as (w' & l & E1 & E2). rewrite W in E2. injection E2 as <-. apply sget_in in E1. apply Fr in E1. apply E1.
Qed.
