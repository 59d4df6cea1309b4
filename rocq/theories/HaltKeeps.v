(** * HaltKeeps: what was in the output stays when a conversion raises *)
From Verif Require Import Base Flt SeqFile H5 Schema Parsers ListFacts StoreProofs ParserRun ParserTerm ConvertFrame Data Files SifName Convert ConvertSpec ConvertProofs Halt HaltProofs.
Open Scope string_scope.
Open Scope Z_scope.
Open Scope list_scope.
Open Scope monad_scope.

(* ---- what stays ---- *)
(** Groups of a file are named by the prefix and the letter of its kind. *)
Definition below (g : glob) (q : path) : Prop := exists t r, q = (g_prefix g ++ g_ftid g ++ t)%string :: r.
Definition newin (g : glob) (h h' : h5) : Prop := forall q, h5_find q h' <> None -> h5_find q h <> None \/ below g q.
(** From one state to a later one, whether or not something is raised: what the output
    had when the file was begun is untouched, tables grow at the end. *)
Record goes (s s' : pst) : Prop := mkGoes {
  go_inv : forall h0, inv h0 s -> inv h0 s';
  go_grows : grows (p_out s) (p_out s');
  go_batch : g_batch (p_g s') = g_batch (p_g s);
  go_core : g_prefix (p_g s') = g_prefix (p_g s) /\ g_ftid (p_g s') = g_ftid (p_g s);
  go_new : newin (p_g s) (p_out s) (p_out s');
  go_tables : incl (g_tables (p_g s)) (g_tables (p_g s')) }.
Lemma newin_refl g h : newin g h h. Proof. intros q H. now left. Qed.
Lemma newin_trans g h1 h2 h3 : newin g h1 h2 -> newin g h2 h3 -> newin g h1 h3.
Proof. intros A B q H. destruct (B q H) as [X|X]; [now apply A|now right]. Qed.
Lemma below_core g g' q : g_prefix g' = g_prefix g -> g_ftid g' = g_ftid g -> below g' q -> below g q.
Proof. intros E1 E2 (t & r & ->). exists t, r. now rewrite E1, E2. Qed.
Lemma newin_core g g' h h' : g_prefix g' = g_prefix g -> g_ftid g' = g_ftid g -> newin g' h h' -> newin g h h'.
Proof. intros E1 E2 H q X. destruct (H q X) as [Y|Y]; [now left|right]. now apply (below_core g g'). Qed.
Lemma newin_upd g p f h : newin g h (h5_upd p f h).
Proof.
  intros q H. left. intros X. apply H. destruct (path_eqb p q) eqn:E.
  - apply path_eqb_spec in E. subst q. now rewrite find_upd_same, X.
  - rewrite find_upd_other; [exact X|]. intros ->. rewrite path_eqb_refl in E. discriminate.
Qed.
Lemma goes_refl s : goes s s.
Proof. constructor; [tauto|apply grows_refl|reflexivity|now split|apply newin_refl|apply incl_refl]. Qed.
Lemma goes_trans a b c : goes a b -> goes b c -> goes a c.
Proof.
  intros [A1 A2 A3 [A4 A5] A6 A7] [B1 B2 B3 [B4 B5] B6 B7].
  constructor; [intros; auto|eapply grows_trans; eassumption|congruence|split; congruence| |eapply incl_tran; eassumption].
  eapply newin_trans; [exact A6|]. now apply (newin_core _ (p_g b)).
Qed.
Lemma goes_quiet s s' : quietR s s' -> goes s s'.
Proof.
  intros Q. pose proof (quietR_later "" _ _ Q) as [A B C D]. constructor; [exact A|exact D|unfold gsame in B; tauto|unfold gsame in B; tauto| |].
  - destruct Q as [-> _]. apply newin_refl.
  - rewrite (quiet_tables _ _ Q). apply incl_refl.
Qed.
Lemma goes_modg f s : (forall g, g_tables (f g) = g_tables g /\ g_batch (f g) = g_batch g /\ g_prefix (f g) = g_prefix g /\ g_ftid (f g) = g_ftid g) ->
  goes s (mkP (p_in s) (f (p_g s)) (p_out s)).
Proof.
  intros H. destruct (H (p_g s)) as (H1 & H2 & H3 & H4).
  constructor; cbn [p_g p_out]; [|apply grows_refl|exact H2|now split|apply newin_refl|rewrite H1; apply incl_refl].
  intros h0 [K F]. split; [exact K|]. cbn [p_g]. now rewrite H1.
Qed.
Definition eg {A} (m : E A) : Prop := forall s, goes s (fst (m s)).
Lemma eg_stop {A} (m : P A) : (forall s a s', m s = Ok (a, s') -> goes s s') -> eg (stop m).
Proof. intros H s. unfold stop. destruct (m s) as [[a s']|] eqn:X; cbn [fst]; [eapply H; exact X|apply goes_refl]. Qed.
Lemma eg_quiet {A} (m : P A) : quiet m -> eg (stop m).
Proof. intros H. apply eg_stop. intros s a s' X. apply goes_quiet. eapply H. exact X. Qed.
Lemma eg_ret {A} (a : A) : eg (eret a). Proof. intro s. apply goes_refl. Qed.
Lemma eg_raise {A} e : eg (@eraise A e). Proof. intro s. apply goes_refl. Qed.
Lemma eg_bind {A B} (m : E A) (k : A -> E B) : eg m -> (forall a, eg (k a)) -> eg (ebind m k).
Proof.
  intros H K s. unfold ebind. specialize (H s). destruct (m s) as [s1 [a|e]]; cbn [fst] in H; [|exact H].
  eapply goes_trans; [exact H|apply K].
Qed.
(** record objects that work on tables in use *)
Definition rd_ok (s : pst) (r : recd) : Prop :=
  exists n t, In (n, t) (g_tables (p_g s)) /\ r_path r = fst t /\ Forall (fun v => In (v_path v) (snd t)) (r_vls r).
Lemma rd_ok_goes s s' r : goes s s' -> rd_ok s r -> rd_ok s' r.
Proof. intros G (n & t & H & X). exists n, t. split; [now apply G|exact X]. Qed.
(** [m] goes on from [s], and yields [Q] *)
Definition eok {A} (m : E A) (s : pst) (Q : pst -> A -> Prop) : Prop := goes s (fst (m s)) /\ forall a, snd (m s) = Ok a -> Q (fst (m s)) a.
Lemma eok_bind {A B} (m : E A) (k : A -> E B) s Q R : eok m s Q -> (forall s1 a, goes s s1 -> Q s1 a -> eok (k a) s1 R) -> eok (ebind m k) s R.
Proof.
  intros [G X] K. unfold eok, ebind. destruct (m s) as [s1 [a|e]]; cbn [fst snd] in *.
  - destruct (K s1 a G (X a eq_refl)) as [G2 X2]. split; [eapply goes_trans; eassumption|exact X2].
  - split; [exact G|discriminate].
Qed.
Lemma eok_eg {A} (m : E A) s : eg m -> eok m s (fun _ _ => True).
Proof. intros H. split; [apply H|easy]. Qed.
Lemma eok_goes {A} (m : E A) s Q : eok m s Q -> goes s (fst (m s)). Proof. now intros [H _]. Qed.
Lemma eok_ret {A} (a : A) s (Q : pst -> A -> Prop) : Q s a -> eok (eret a) s Q.
Proof. intros H. split; [apply goes_refl|]. cbn. intros b X. now injection X as <-. Qed.
Lemma eok_raise {A} e s (Q : pst -> A -> Prop) : eok (eraise e) s Q.
Proof. split; [apply goes_refl|discriminate]. Qed.
Lemma eok_weak {A} (m : E A) s (Q R : pst -> A -> Prop) : eok m s Q -> (forall s' a, Q s' a -> R s' a) -> eok m s R.
Proof. intros [G X] H. split; [exact G|]. intros a Y. now apply H, X. Qed.

(* tables *)
Lemma path_below g h w : get_path g h = Ok w -> below g w.
Proof.
  unfold get_path, below. intros H.
  repeat match type of H with (if ?b then _ else _) = _ => destruct b end; try discriminate;
    try (destruct (hier_cell g h 0 2) as [t|]; [|discriminate]; cbn [rbind] in H); injection H as <-; do 2 eexists; reflexivity.
Qed.
Lemma mkgroups_goes g : forall p pre h, (forall a b, p = a ++ b -> a <> [] -> below g (pre ++ a)) ->
  kept h (fst (e_mkgroups pre p h)) /\ newin g h (fst (e_mkgroups pre p h)).
Proof.
  induction p as [|a p IH]; intros pre h B; cbn [e_mkgroups]; [split; [apply kept_refl|apply newin_refl]|].
  assert (B' : forall x y, p = x ++ y -> x <> [] -> below g ((pre ++ [a]) ++ x)).
  { intros x y -> N. rewrite <- app_assoc. apply (B (a :: x) y); [reflexivity|discriminate]. }
  destruct (h5_find (pre ++ [a]) h) as [[]|] eqn:F; cbn [fst]; try (split; [apply kept_refl|apply newin_refl]).
  - now apply IH.
  - destruct (IH (pre ++ [a]) (h5_add (pre ++ [a]) (Group []) h) B') as [K N]. split.
    + eapply kept_trans; [apply (kept_add _ _ (Group []) F)|exact K].
    + eapply newin_trans; [|exact N]. intros q H. rewrite find_add in H. destruct (h5_find q h); [left; discriminate|].
      destruct (path_eqb q (pre ++ [a])) eqn:X; [|contradiction]. apply path_eqb_spec in X. subst q. right. apply (B [a] p); [reflexivity|discriminate].
Qed.
Definition made (g : glob) (h h' : h5) : Prop := kept h h' /\ newin g h h'.
Lemma made_goes s h' : made (p_g s) (p_out s) h' -> goes s (with_out h' s).
Proof.
  intros [K N]. constructor; cbn [with_out p_g p_out]; [|now apply kept_grows|reflexivity|now split|exact N|apply incl_refl].
  intros h0 [K0 F]. split; [|exact F]. cbn [with_out p_out]. eapply kept_trans; eassumption.
Qed.
Lemma below_app g w q : below g w -> below g (w ++ q).
Proof. intros (t & r & ->). exists t, (r ++ q). reflexivity. Qed.
Lemma below_part g w a b : below g w -> w = a ++ b -> a <> [] -> below g a.
Proof. intros (t & r & ->) E N. destruct a as [|x a]; [contradiction|]. injection E as <- _. now exists t, a. Qed.
Lemma create_goes w n nd s : below (p_g s) w -> eok (e_create w n nd) s (fun s' _ => p_g s' = p_g s /\ h5_find (w ++ [n]) (p_out s) = None).
Proof.
  intros B. unfold eok, e_create. destruct (mkgroups_goes (p_g s) w [] (p_out s)) as [K N].
  { intros a b E H. cbn [app]. now apply (below_part _ w a b). }
  destruct (e_mkgroups [] w (p_out s)) as [h1 [u|e]]; cbn [fst snd] in *; [|split; [now apply made_goes|discriminate]].
  destruct (h5_find (w ++ [n]) h1) eqn:F; cbn [fst snd]; [split; [now apply made_goes|discriminate]|]. split.
  - apply made_goes. split; [eapply kept_trans; [exact K|now apply kept_add]|]. eapply newin_trans; [exact N|].
    intros q H. rewrite find_add in H. destruct (h5_find q h1); [left; discriminate|].
    destruct (path_eqb q (w ++ [n])) eqn:X; [|contradiction]. apply path_eqb_spec in X. subst q. right. now apply below_app.
  - intros _ _. split; [reflexivity|]. destruct (h5_find (w ++ [n]) (p_out s)) eqn:G; [|reflexivity]. apply K in G. congruence.
Qed.
Lemma goes_none s s' q : goes s s' -> h5_find q (p_out s') = None -> h5_find q (p_out s) = None.
Proof. intros G H. destruct (h5_find q (p_out s)) eqn:F; [|reflexivity]. destruct (go_grows _ _ G q _ F) as (n' & X & _). congruence. Qed.
Lemma arrays_goes w n : forall l s, below (p_g s) w ->
  eok (e_arrays w n l) s (fun s' ps => p_g s' = p_g s /\ Forall (fun p => h5_find p (p_out s) = None) ps).
Proof.
  induction l as [|[a t] l IH]; intros s B; cbn [e_arrays]; [apply eok_ret; now split|].
  eapply eok_bind; [now apply create_goes|]. cbn beta. intros s1 _ G [E1 N1].
  eapply eok_bind; [apply IH; now rewrite E1|]. cbn beta. intros s2 ps G2 [E2 N2]. apply eok_ret. split; [congruence|]. constructor; [exact N1|].
  eapply Forall_impl; [|exact N2]. cbn beta. intros p. now apply goes_none.
Qed.
Lemma add_table_goes s0 s n t : goes s0 s -> g_tables (p_g s0) = g_tables (p_g s) -> fresh (p_out s0) t ->
  goes s0 (mkP (p_in s) (add_table n t (p_g s)) (p_out s)).
Proof.
  intros G E F. destruct G as [A1 A2 A3 A4 A5 A6]. constructor; cbn [p_g p_out add_table g_batch g_prefix g_ftid]; try assumption.
  - intros h0 I0. destruct (A1 h0 I0) as [K X]. split; [exact K|]. cbn [p_g add_table g_tables dset]. intros m t' [H|H]; [|now apply (X m)].
    injection H as _ <-. apply (kept_fresh h0 (p_out s0)); [apply I0|exact F].
  - intros x H. cbn [g_tables]. right. rewrite <- E. exact H.
Qed.
Lemma eok_getg s : eok (stop getg) s (fun s' g => s' = s /\ g = p_g s).
Proof. split; [apply goes_refl|]. cbn. intros a X. now injection X as <-. Qed.
Lemma eok_geth s : eok (stop geth) s (fun s' h => s' = s /\ h = p_out s).
Proof. split; [apply goes_refl|]. cbn. intros a X. now injection X as <-. Qed.
Lemma eok_lift {A} (r : Res A) s : eok (stop (liftR r)) s (fun s' a => s' = s /\ r = Ok a).
Proof.
  unfold eok, stop, liftR, slift. destruct r as [a|e]; cbn [fst snd]; (split; [apply goes_refl|]); [|discriminate].
  intros b X. injection X as <-. now split.
Qed.
Lemma eok_quiet {A} (m : P A) s : quiet m -> eok (stop m) s (fun _ _ => True).
Proof. intros H. apply eok_eg. now apply eg_quiet. Qed.
Lemma get_table_goes n s : eok (e_get_table n) s (fun s' t => In (n, t) (g_tables (p_g s'))).
Proof.
  unfold e_get_table. eapply eok_bind; [apply eok_getg|]. cbn beta. intros s1 g _ [-> ->].
  eapply eok_bind; [apply eok_geth|]. cbn beta. intros s1 h _ [-> ->].
  assert (NEW : forall w arrs s1, below (p_g s) w -> goes s s1 -> p_g s1 = p_g s -> Forall (fun p => h5_find p (p_out s) = None) arrs ->
    let m := des e_create w (lower_s n) (Table (table_descr n) []); des stop (modg (add_table n (w ++ [lower_s n], arrs))); eret (w ++ [lower_s n], arrs) in
    goes s (fst (m s1)) /\ forall t, snd (m s1) = Ok t -> In (n, t) (g_tables (p_g (fst (m s1))))).
  { intros w arrs s1 B G E N. cbv zeta. unfold ebind. destruct (create_goes w (lower_s n) (Table (table_descr n) []) s1) as [G1 X1]; [now rewrite E|].
    destruct (e_create w _ _ s1) as [s2 [u|e]]; cbn [fst snd] in *; [|split; [eapply goes_trans; eassumption|discriminate]].
    destruct (X1 u eq_refl) as [E2 N2]. unfold ebind, stop, modg, eret. cbn [fst snd].
    split; [|intros t X; injection X as <-; cbn [p_g add_table g_tables dset]; now left].
    apply add_table_goes; [eapply goes_trans; eassumption|congruence|]. split; [|exact N]. cbn [fst]. now apply (goes_none s s1). }
  destruct (sget n (g_tables (p_g s))) as [[p [|a l]]|] eqn:T.
  - destruct (tab_rows p (p_out s)) as [|row rows].
    + eapply eok_bind; [apply eok_lift|]. cbn beta. intros s1 w _ [-> W]. apply path_below in W. apply (NEW w [] s W (goes_refl s) eq_refl (Forall_nil _)).
    + apply eok_ret. now apply sget_in.
  - apply eok_ret. now apply sget_in.
  - eapply eok_bind; [apply eok_lift|]. cbn beta. intros s1 w _ [-> W]. apply path_below in W. match goal with |- eok (ebind _ ?k) s _ => set (K := k) end. unfold eok, ebind.
    destruct (arrays_goes w n (atoms_of n) s W) as [G1 X1]. destruct (e_arrays w n _ s) as [s1 [ps|e]]; cbn [fst snd] in *; [|split; [exact G1|discriminate]].
    destruct (X1 ps eq_refl) as [E1 N1]. unfold K; apply (NEW w ps s1 W G1 E1 N1).
Qed.

(* writing *)
Lemma upd_goes s p f t n : In (n, t) (g_tables (p_g s)) -> (p = fst t \/ In p (snd t)) -> (forall nd, extends nd (f nd)) ->
  goes s (mkP (p_in s) (p_g s) (h5_upd p f (p_out s))).
Proof.
  intros Ht Hp Hf. constructor; cbn [p_g p_out]; [|now apply grows_upd|reflexivity|now split|apply newin_upd|apply incl_refl].
  intros h0 [K F]. split; [|exact F]. intros q nd E. pose proof (K _ _ E) as E'.
  assert (N : h5_find p h0 = None).
  { apply F in Ht. destruct Ht as [H1 H2]. destruct Hp as [->|Hp]; [exact H1|]. rewrite Forall_forall in H2. now apply H2. }
  cbn [p_out]. rewrite find_upd_other; [exact E'|]. intros ->. congruence.
Qed.
Lemma vl_write_goes n t v s : In (n, t) (g_tables (p_g s)) -> In (v_path v) (snd t) -> eok (stop (vl_write v)) s (fun s' v' => v_path v' = v_path v).
Proof.
  intros Ht Hv. unfold eok, stop, vl_write. destruct (v_data v) as [|x xs] eqn:D.
  - split; [apply goes_refl|]. cbn. intros a X. now injection X as <-.
  - unfold sbind, geth, liftR, slift. destruct (rmap _ _) as [cs|e]; [|split; [apply goes_refl|discriminate]].
    unfold seth, sret. cbn [fst snd]. split; [apply (upd_goes s _ _ t n Ht); [now right|apply extends_items]|]. intros a X. now injection X as <-.
Qed.
Lemma vls_write_goes n t : forall l s, In (n, t) (g_tables (p_g s)) -> Forall (fun v => In (v_path v) (snd t)) l ->
  eok (e_vls_write l) s (fun s' l' => map v_path l' = map v_path l).
Proof.
  induction l as [|v l IH]; intros s Ht Hl; cbn [e_vls_write]; [now apply eok_ret|]. inversion Hl as [|? ? Hv Hl']; subst.
  eapply eok_bind; [apply (vl_write_goes n t); assumption|]. cbn beta. intros s1 v' G E.
  eapply eok_bind; [apply IH; [now apply G|exact Hl']|]. cbn beta. intros s2 r' G2 E2. apply eok_ret. cbn. now rewrite E, E2.
Qed.
Lemma rd_write_goes r s : rd_ok s r -> eok (e_rd_write r) s rd_ok.
Proof.
  intros (n & t & Ht & Hp & Hv). unfold e_rd_write. eapply eok_bind; [apply eok_geth|]. cbn beta. intros s1 h _ [-> ->].
  eapply (eok_bind _ _ _ (fun s' _ => p_g s' = p_g s)).
  { split; [|reflexivity]. apply (upd_goes s _ _ t n Ht); [now left|apply extends_rows]. }
  intros s1 _ G E. eapply (eok_bind _ _ _ (fun s' l' => goes s1 s' /\ map v_path l' = map v_path (r_vls r))).
  { destruct (vls_write_goes n t (r_vls r) s1) as [G1 X1]; [now rewrite E|exact Hv|]. split; [exact G1|]. intros l' X. split; [exact G1|now apply X1]. }
  intros s2 vs _ [G2 E2]. apply eok_ret. exists n, t. split; [apply G2; now rewrite E|]. split; [exact Hp|]. cbn. now apply (Forall_paths _ (r_vls r)).
Qed.
Lemma rd_add_goes row r s : rd_ok s r -> eok (e_rd_add row r) s rd_ok.
Proof.
  intros H. unfold e_rd_add. eapply eok_bind; [apply eok_getg|]. cbn beta. intros s1 g _ [-> ->]. cbv zeta.
  eapply eok_bind; [apply eok_lift|]. cbn beta. intros s1 cs _ [-> _]. destruct (_ <=? _); [apply eok_raise|].
  match goal with |- eok (if ?b then _ else _) _ _ => destruct b end; [apply rd_write_goes|apply eok_ret]; destruct H as (n & t & H1 & H2 & H3); now exists n, t.
Qed.
Lemma vladds_ok s : forall ad r, rd_ok s r -> rd_ok s (rd_vladds ad r).
Proof.
  induction ad as [|[i d] ad IH]; intros r H; cbn; [exact H|]. apply IH. destruct H as (n & t & H1 & H2 & H3). exists n, t.
  split; [exact H1|]. split; [exact H2|]. cbn. apply (Forall_paths _ (r_vls r)); [apply upd_nth_path|exact H3].
Qed.
Lemma rd_init_ok n t h s : In (n, t) (g_tables (p_g s)) -> rd_ok s (rd_init n t h).
Proof.
  intros H. exists n, t. split; [exact H|]. split; [reflexivity|]. cbn. apply Forall_forall. intros v Hv. apply in_map_iff in Hv.
  destruct Hv as ([p a] & <- & Hv). cbn. now apply in_combine_l in Hv.
Qed.
Definition eg_body (b : ebody) : Prop := forall n rec, eg (b n rec).
Lemma run_loop_goes b : eg_body b -> forall fuel n m fs r s, rd_ok s r -> eok (e_run_loop fuel n b m fs r) s (fun s' x => rd_ok s' (snd x)).
Proof.
  intros Hb. induction fuel as [|fuel IH]; intros n m fs r s H; cbn [e_run_loop]; destruct (String.eqb m n); try (now apply eok_ret); try apply eok_raise.
  eapply eok_bind; [apply eok_eg, Hb|]. intros s1 [row ad] G1 _. eapply eok_bind; [apply rd_add_goes, vladds_ok, (rd_ok_goes s); assumption|].
  intros s2 r1 G2 H2. eapply eok_bind; [apply eok_quiet, quiet_rheader|]. intros s3 [n1 fs1] G3 _. apply IH. now apply (rd_ok_goes s2).
Qed.
Lemma run_reader_goes b n fs : eg_body b -> eg (e_run_reader b n fs).
Proof.
  intros Hb s. apply (eok_goes _ _ (fun _ _ => True)). unfold e_run_reader. eapply eok_bind; [apply get_table_goes|]. cbn beta. intros s1 t G1 H1.
  eapply eok_bind; [apply eok_geth|]. cbn beta. intros s2 h _ [-> ->].
  unfold eok. cbv beta. fold (eok (de (x, r) <- e_run_loop (fuel_of s1) n b n fs (rd_init n t (p_out s1)); des e_rd_write r; eret x) s1 (fun _ _ => True)).
  eapply eok_bind; [apply run_loop_goes; [exact Hb|now apply rd_init_ok]|]. cbn beta. intros s2 [x r] G2 H2. cbn [snd] in H2.
  eapply eok_bind; [apply rd_write_goes; exact H2|]. intros s3 r' _ _. now apply eok_ret.
Qed.

(* the readers *)
Lemma eg_modg f : (forall g, g_tables (f g) = g_tables g /\ g_batch (f g) = g_batch g /\ g_prefix (f g) = g_prefix g /\ g_ftid (f g) = g_ftid g) -> eg (stop (modg f)).
Proof. intros H. apply eg_stop. intros s a s' X. injection X as _ <-. now apply goes_modg. Qed.
Ltac egs := repeat first
  [ apply eg_ret | apply eg_raise | apply eg_modg; intro; now repeat split
  | match goal with |- eg (stop _) => apply eg_quiet; quietb end
  | match goal with |- eg (match ?x with _ => _ end) => destruct x end
  | apply eg_bind; [|intro] | assumption ].
Lemma one_eg b : quiet_body b -> eg_body (one b). Proof. intros H n rec. apply eg_quiet, H. Qed.
Lemma gelmnt1_eg : eg_body e_gelmnt1. Proof. intros n rec. unfold e_gelmnt1. egs. Qed.
Lemma compdef_eg : eg_body e_compdef. Proof. intros n rec. unfold e_compdef. egs. Qed.
Lemma rdpoints_eg : eg_body e_rdpoints. Proof. intros n rec. unfold e_rdpoints. cbv zeta. egs. Qed.
Lemma rdielcor_eg : eg_body e_rdielcor.
Proof. intros n rec. unfold e_rdielcor. egs. Qed.
Lemma rdresref_eg : eg_body e_rdresref. Proof. intros n rec. unfold e_rdresref. cbv zeta. egs. Qed.
Definition eg_reader (rd : ereader) : Prop := forall n rec, eg (rd n rec).
Lemma run_eg b : eg_body b -> eg_reader (e_run_reader b).
Proof. intros H n rec. now apply run_reader_goes. Qed.
Lemma hierarch_eg : eg_reader e_hierarch.
Proof.
  intros n rec s. apply (eok_goes _ _ (fun _ _ => True)). unfold e_hierarch.
  eapply eok_bind; [apply eok_quiet; quietb|]. intros s1 rec2 _ _. eapply eok_bind; [apply eok_quiet; quietb|]. intros s2 st _ _.
  eapply eok_bind; [apply eok_eg, eg_modg; intro; now repeat split|]. intros s3 _ _ _.
  eapply eok_bind; [apply get_table_goes|]. cbn beta. intros s4 t _ T. eapply eok_bind; [apply eok_geth|]. cbn beta. intros s5 h _ [-> ->].
  eapply eok_bind; [apply eok_quiet; quietb|]. intros s5 nsub G5 _. eapply eok_bind; [apply eok_quiet; quietb|]. intros s6 ih G6 _.
  eapply eok_bind; [apply rd_add_goes, vladds_ok, rd_init_ok; now apply G6, G5|]. intros s7 r1 G7 R7.
  eapply eok_bind; [apply eok_quiet, quiet_rheader|]. intros s8 [n1 fs1] G8 _. pose proof (rd_ok_goes _ _ _ G8 R7) as R8. unfold eok. cbv beta.
  match goal with |- goes s8 (fst (?m s8)) /\ _ => enough (H : eok m s8 (fun _ _ => True)) by exact H end.
  eapply eok_bind; [apply run_loop_goes; [|exact R8]; apply one_eg; intros m fs; unfold b_hierarch; quietb|]. cbn beta. intros s9 [x r] G9 R9. cbn [snd] in R9.
  eapply eok_bind; [apply rd_write_goes; exact R9|]. intros s10 r' _ _. eapply eok_bind; [apply eok_geth|]. cbn beta. intros s11 h _ [-> ->].
  destruct (tab_rows _ _) as [|row rows]; [apply eok_raise|]. eapply eok_bind; [apply eok_eg, eg_modg; intro; now repeat split|]. intros s12 _ _ _. now apply eok_ret.
Qed.
Lemma ident_eg : eg_reader e_ident.
Proof.
  intros n rec s. apply (eok_goes _ _ (fun _ _ => True)). unfold e_ident.
  eapply eok_bind; [apply eok_getg|]. cbn beta. intros s1 g _ [-> ->].
  eapply eok_bind.
  { apply eok_eg. destruct (opt_truthy _); [apply eg_quiet, quiet_ret|]. apply eg_stop. intros s1 a s' X. unfold sbind, liftR, slift in X.
    destruct (int_at rec 1) as [st|]; [|discriminate]. injection X as _ <-. apply goes_modg. intro. now repeat split. }
  intros s1 _ _ _. eapply eok_bind; [apply get_table_goes|]. cbn beta. intros s2 t _ T.
  eapply eok_bind; [apply eok_lift|]. cbn beta. intros s3 a _ [-> _]. eapply eok_bind; [apply eok_lift|]. cbn beta. intros s3 b _ [-> _].
  eapply eok_bind; [apply eok_lift|]. cbn beta. intros s3 c _ [-> _]. eapply eok_bind; [apply eok_lift|]. cbn beta. intros s3 row _ [-> _].
  eapply eok_bind; [apply eok_geth|]. cbn beta. intros s3 h _ [-> ->].
  eapply (eok_bind _ _ _ (fun _ _ => True)); [split; [apply (upd_goes s2 _ _ t n T); [now left|apply extends_rows]|easy]|]. intros s3 _ _ _.
  apply eok_quiet, quiet_rheader.
Qed.
Lemma xsup_goes n0 t : forall fuel n m fs s, In (n0, t) (g_tables (p_g s)) -> eok (e_xsup_loop fuel n (fst t) m fs) s (fun _ _ => True).
Proof.
  induction fuel as [|fuel IH]; intros n m fs s T; cbn [e_xsup_loop]; destruct (String.eqb m n); try (now apply eok_ret); try apply eok_raise.
  eapply eok_bind; [apply eok_quiet; unfold b_xsuptran; quietb|]. intros s1 [row ad] G1 _. apply G1 in T.
  eapply eok_bind; [apply eok_lift|]. cbn beta. intros s2 cs _ [-> _]. eapply eok_bind; [apply eok_geth|]. cbn beta. intros s2 h _ [-> ->].
  eapply (eok_bind _ _ _ (fun s' _ => p_g s' = p_g s1)); [split; [apply (upd_goes s1 _ _ t n0 T); [now left|apply extends_rows]|reflexivity]|]. intros s2 _ _ E2.
  eapply eok_bind; [apply eok_quiet, quiet_rheader|]. intros s3 [n1 fs1] G3 _. apply IH. apply G3. now rewrite E2.
Qed.
Lemma xsuptran_eg : eg_reader e_xsuptran.
Proof.
  intros n rec s. apply (eok_goes _ _ (fun _ _ => True)). unfold e_xsuptran. eapply eok_bind; [apply get_table_goes|]. cbn beta. intros s1 t _ T.
  unfold eok. cbv beta. now apply (xsup_goes n t).
Qed.
Lemma sconmesh_eg : eg_reader e_sconmesh.
Proof.
  intros n rec. unfold e_sconmesh. apply eg_bind; [apply eg_quiet; quietb|intro]. destruct (1 <? a); [apply eg_raise|].
  apply run_reader_goes, one_eg. intros m fs. unfold b_sconmesh. quietb.
Qed.
Lemma rd_rdielcor_eg : eg_reader e_rd_rdielcor.
Proof.
  intros n rec. unfold e_rd_rdielcor. apply eg_bind; [apply eg_modg; intro; now repeat split|intro]. apply run_reader_goes, rdielcor_eg.
Qed.
Lemma readers_eg : Forall (fun a => eg_reader (snd a)) e_readers.
Proof.
  unfold e_readers, e_std, e_opt. repeat (apply Forall_cons; [|]); [..|apply Forall_nil].
  all: cbn [snd]; first [ apply hierarch_eg | apply ident_eg | apply xsuptran_eg | apply sconmesh_eg | apply rd_rdielcor_eg
    | apply run_eg; first [ apply gelmnt1_eg | apply compdef_eg | apply rdpoints_eg | apply rdresref_eg
      | apply one_eg; first [apply quiet_td|intros n rec; unfold b_standard, b_optional, b_text, b_gelmnt1, b_gelmnt2, b_gelref1, b_gsetmemb, b_sconcept, b_bnbcd,
      b_bldep, b_beuslo, b_brigac, b_groups3, b_rvnodres, b_rvelmres, b_wdresref, b_wglobdef, b_wbody,
      b_w1matrix, b_wcommon1, b_w1sforce, b_drift, b_wfkpoint, b_wfluidkn, b_wsection, b_wsurface, b_winput, b_w1panpre; quietb] ]
    | intros n rec; apply eg_quiet; unfold rd_irecsize, rd_iend, rheader; quiets ].
Qed.
Lemma reader_eg n rd : sget n e_readers = Some rd -> eg_reader rd.
Proof. intros H. apply sget_in in H. pose proof readers_eg as G. rewrite Forall_forall in G. apply (G _ H). Qed.
Lemma general_eg n rec : eg (e_general_parser n rec).
Proof.
  unfold e_general_parser. apply eg_bind; [apply eg_quiet; quietb|intro a]. destruct (flt_lt a f0).
  - apply eg_bind; [apply eg_quiet; quietb|intro]. apply eg_quiet, quiet_rheader.
  - destruct (sget n e_readers) as [rd|] eqn:R; [|apply eg_quiet, skip_same_quiet].
    apply eg_bind; [apply eg_modg; intro; now repeat split|intro]. now apply (reader_eg n rd).
Qed.
Lemma parse_loop_eg only : forall fuel n rec, eg (e_parse_loop fuel only n rec).
Proof.
  induction fuel as [|fuel IH]; intros n rec; cbn [e_parse_loop]; destruct (String.eqb n ""); try apply eg_ret; try apply eg_raise.
  apply eg_bind; [destruct (wanted only n); [apply general_eg|apply eg_quiet, skip_same_quiet]|]. intros [n1 fs1]. apply IH.
Qed.
