(** * ParserRun: the common reader loop stores a run of records. *)
From Verif Require Import Base Flt SeqFile H5 Schema Parsers SeqSpec StoreSpec ParserSpec
  ListFacts SeqProofs SeqTerm StoreProofs.
From Coq Require Import ZifyBool ZifyNat.
Open Scope string_scope.
Open Scope Z_scope.
Open Scope list_scope.
Open Scope monad_scope.

(** The dictionaries of the module agree with the context. *)
Record ctx_of (g : glob) (c : ctx) : Prop := {
  co_elem : forall e v, x_elem c e = Some v -> dget Z.eqb e (g_elem g) = Some v;  (* never cleared *)
  co_points : forall e, dget Z.eqb e (g_points g) = x_points c e;
  co_nsp : forall e, dget pairZ_eqb e (g_nsp g) = x_nsp c e;
  co_compl : forall e, dget Z.eqb e (g_compl g) = x_compl c e;
  co_lenrec : forall e, dget pairSZ_eqb e (g_lenrec g) = x_lenrec c e }.

(** Everything but the dictionaries. *)
Definition gframe (g g' : glob) : Prop :=
  g_ihref g' = g_ihref g /\ g_indsel g' = g_indsel g /\ g_seltyp g' = g_seltyp g /\
  g_ftid g' = g_ftid g /\ g_attop g' = g_attop g /\ g_prefix g' = g_prefix g /\
  g_hashier g' = g_hashier g /\ g_htab g' = g_htab g /\ g_hrec g' = g_hrec g /\
  g_batch g' = g_batch g /\ g_tables g' = g_tables g /\ g_names g' = g_names g.
Lemma gframe_refl g : gframe g g. Proof. repeat split. Qed.
Lemma gframe_trans a b c : gframe a b -> gframe b c -> gframe a c.
Proof. unfold gframe. intuition congruence. Qed.

(** The ranges that the next row would get without further calls of add. *)
Definition marks (r : recd) : list (Z * Z) := map (fun v => (v_start v, v_stop v)) (r_vls r).

(** [b] reads the record [it] completely, says what the record says and goes
    from context [c] to [c']; what follows is [rest].  The add calls amount to
    one per companion array as long as the marks satisfy [J]. *)
Definition body_ok (J : list (Z * Z) -> Prop) (b : body) (k : kind) (c : ctx) (name : string) (it : item) (rest : list ascii) (c' : ctx) : Prop :=
  forall g h fr, ctx_of g c ->
  exists ad s', b name (i_fs it) (mkP (mkIn k (i_bs it ++ rest) false fr) g h)
             = Ok ((e_row (i_entry it), ad), s') /\
    (forall r, J (marks r) -> rd_vladds ad r = rd_vladds (number (e_data (i_entry it))) r /\
                              J (marks (rd_vladds ad r))) /\
    f_kind (p_in s') = k /\ f_rest (p_in s') = rest /\ p_out s' = h /\
    gframe g (p_g s') /\ ctx_of (p_g s') c'.

Lemma rheader_next k n fs bs tail s :
  enc_next k n fs bs tail -> f_kind (p_in s) = k -> f_rest (p_in s) = bs ->
  exists fr, rheader s = Ok ((n, fs), mkP (mkIn k tail false fr) (p_g s) (p_out s)).
Proof.
  intros H Hk Hr. destruct s as [[k0 r0 hr fr] g h]. cbn in Hk, Hr. subst.
  unfold rheader, liftF. cbn [p_in]. rewrite (read_headerrec_next _ _ _ _ _ _ _ H). eauto.
Qed.

Lemma enc_header_nonempty k m fs hb : enc_header k m fs hb -> (1 <= length hb)%nat.
Proof. destruct 1. eapply frame_nonempty; eauto. Qed.
Lemma enc_run_len layout k name c it its c' n fs bs tail :
  enc_run layout k name c it its c' n fs bs tail -> (length its <= length bs)%nat.
Proof.
  induction 1; cbn [length]; [lia|]. rewrite !app_length.
  match goal with H : enc_header _ _ _ _ |- _ => apply enc_header_nonempty in H end. lia.
Qed.

Lemma put_cons_inv cols elts c r rs c2 : put_entries cols elts c (r :: rs) c2 ->
  exists c1, put_entry cols elts c r c1 /\ put_entries cols elts c1 rs c2.
Proof. inversion 1; subst. eauto. Qed.
Lemma put_nil_inv cols elts c c2 : put_entries cols elts c [] c2 -> c2 = c.
Proof. now inversion 1. Qed.


Lemma vls_write_marks : forall vls s vls' s', vls_write vls s = Ok (vls', s') ->
  map (fun v => (v_start v, v_stop v)) vls' = map (fun v => (v_start v, v_stop v)) vls.
Proof.
  induction vls as [|v vls IH]; intros s vls' s' H; cbn [vls_write] in H; [now injection H as <- _|].
  unfold sbind in H. destruct (vl_write v s) as [[v1 s1]|] eqn:E; [|discriminate].
  destruct (vls_write vls s1) as [[vs s2]|] eqn:E2; [|discriminate]. injection H as <- _.
  cbn [map]. rewrite (IH _ _ _ E2). f_equal. unfold vl_write in E. destruct (v_data v).
  - now injection E as <- _.
  - unfold sbind, geth, seth, liftR, slift in E. destruct (rmap _ _); [|discriminate]. now injection E as <- _.
Qed.
Lemma rd_write_marks r s r' s' : rd_write r s = Ok (r', s') -> marks r' = marks r.
Proof.
  unfold rd_write, sbind, geth, seth. intro H. destruct (vls_write _ _) as [[v s1]|] eqn:E; [|discriminate].
  injection H as <- _. unfold marks. cbn [r_vls]. eapply vls_write_marks; eauto.
Qed.
Lemma rd_add_marks row r s r' s' : rd_add row r s = Ok (r', s') -> marks r' = marks r.
Proof.
  unfold rd_add, sbind, getg, liftR, slift. cbv zeta. intro H.
  destruct (conv_row _ _); [|discriminate]. destruct (_ <=? _); [discriminate|].
  destruct (_ =? _).
  - apply rd_write_marks in H. now rewrite H.
  - now injection H as <- _.
Qed.

Section Run.
  Variable layout : kind -> ctx -> string -> item -> list ascii -> ctx -> Prop.
  Variable b : body.
  Variable name : string.
  Variable J : list (Z * Z) -> Prop.
  Hypothesis layout_ok : forall k c it rest c', layout k c name it rest c' -> body_ok J b k c name it rest c'.

  (** One round of the loop: the record, then the next header. *)
  Lemma run_step k c it c1 n fs bs tail : layout k c name it bs c1 -> enc_next k n fs bs tail ->
    forall d elts T As r g h fr con con1 fuel,
    ctx_of g c -> 0 < g_batch g -> rd_inv (g_batch g) d elts T As r h con -> J (marks r) ->
    put_entry (map snd d) elts con (i_entry it) con1 ->
    exists r1 h1 g1 fr1, run_loop (S fuel) name b name (i_fs it) r (mkP (mkIn k (i_bs it ++ bs) false fr) g h)
        = run_loop fuel name b n fs r1 (mkP (mkIn k tail false fr1) g1 h1) /\
      rd_inv (g_batch g) d elts T As r1 h1 con1 /\ J (marks r1) /\ gframe g g1 /\ ctx_of g1 c1 /\
      (forall p, ~ In p (T :: As) -> h5_find p h1 = h5_find p h).
  Proof.
    intros HL HN d elts T As r g h fr con con1 fuel Hc Hb Hr HJ Hp.
    cbn [run_loop]. rewrite String.eqb_refl. unfold sbind.
    destruct (layout_ok _ _ _ _ _ HL g h fr Hc) as (ad & s1 & E1 & M1 & K1 & R1 & O1 & F1 & C1). rewrite E1.
    destruct (M1 r HJ) as [M2 M3]. rewrite M2 in *.
    assert (B : g_batch (p_g s1) = g_batch g) by apply F1.
    edestruct (rd_add_spec d elts T As r (i_entry it) con con1 s1) as (r1 & h1 & A1 & A2 & A3); rewrite ?B, ?O1; auto.
    rewrite A1. apply rd_add_marks in A1. rewrite <- A1 in M3. destruct (rheader_next k n fs bs tail (pseth s1 h1)) as (fr2 & N2); auto. rewrite N2.
    exists r1, h1, (p_g s1), fr2. rewrite B, O1 in *. auto 10.
  Qed.

  Lemma run_loop_spec k c it its c' n fs bs tail :
    enc_run layout k name c it its c' n fs bs tail ->
    forall d elts T As r g h fr con con' fuel,
    ctx_of g c -> 0 < g_batch g -> rd_inv (g_batch g) d elts T As r h con -> J (marks r) ->
    put_entries (map snd d) elts con (map i_entry (it :: its)) con' ->
    (length its < fuel)%nat ->
    exists r' h' g' fr', run_loop fuel name b name (i_fs it) r (mkP (mkIn k bs false fr) g h)
        = Ok ((n, fs, r'), mkP (mkIn k tail false fr') g' h') /\
      rd_inv (g_batch g) d elts T As r' h' con' /\ gframe g g' /\ ctx_of g' c' /\
      (forall p, ~ In p (T :: As) -> h5_find p h' = h5_find p h).
  Proof.
    induction 1 as [c it c' n fs bs tail HL HN Hne | c it c1 it2 its c' n fs hb bs tail HL HH HR IH];
      intros d elts T As r g h fr con con' fuel Hc Hb Hr HJ Hp Hf; (destruct fuel as [|fuel]; [lia|]);
      cbn [map] in Hp; apply put_cons_inv in Hp as (con1 & P1 & P2).
    - apply put_nil_inv in P2. subst con'.
      destruct (run_step _ _ _ _ _ _ _ _ HL HN d elts T As r g h fr con con1 fuel Hc Hb Hr HJ P1)
        as (r1 & h1 & g1 & fr1 & E & I & HJ1 & F & C & O).
      exists r1, h1, g1, fr1. rewrite E. split; [|auto].
      destruct fuel; cbn [run_loop]; (destruct (String.eqb_spec n name); [congruence|]); reflexivity.
    - edestruct (run_step _ _ _ _ name (i_fs it2) _ bs HL) as (r1 & h1 & g1 & fr1 & E & I & HJ1 & F & C & O); eauto.
      { now constructor. }
      assert (B : g_batch g1 = g_batch g) by apply F.
      edestruct (IH d elts T As r1 g1 h1 fr1 con1 con' fuel) as (r' & h' & g' & fr' & E' & I' & F' & C' & O'); auto.
      { now rewrite B. }
      { now rewrite B. }
      { cbn [length] in Hf. lia. }
      rewrite B in *. exists r', h', g', fr'. split; [|split; [exact I'|split; [eapply gframe_trans; eauto|split; [exact C'|]]]].
      + rewrite E. exact E'.
      + intros p Hp. rewrite O' by exact Hp. now apply O.
  Qed.
End Run.

(** ** Looking up or creating the table *)
Lemma mkgroups_gen : forall p pre h,
  (forall l r, p = l ++ r -> l <> [] ->
     match h5_find (pre ++ l) h with None => True | Some (Group _) => True | _ => False end) ->
  exists h', mkgroups pre p h = Ok h' /\
    (forall q, h5_find q h' = h5_find q h \/
      (exists l r, p = l ++ r /\ l <> [] /\ q = pre ++ l /\ h5_find q h = None /\ h5_find q h' = Some (Group []))) /\
    (forall l r, p = l ++ r -> l <> [] -> exists a, h5_find (pre ++ l) h' = Some (Group a)).
Proof.
  induction p as [|a p IH]; intros pre h H.
  - exists h. repeat split; auto. intros l r E Hl. destruct l; [congruence|discriminate].
  - cbn [mkgroups]. cbv zeta. pose proof (H [a] p eq_refl ltac:(discriminate)) as H0.
    assert (Step : forall h1,
      (forall q, h5_find q h1 = h5_find q h \/ (q = pre ++ [a] /\ h5_find q h = None /\ h5_find q h1 = Some (Group []))) ->
      (exists b, h5_find (pre ++ [a]) h1 = Some (Group b)) ->
      exists h', mkgroups (pre ++ [a]) p h1 = Ok h' /\
        (forall q, h5_find q h' = h5_find q h \/
          (exists l r, a :: p = l ++ r /\ l <> [] /\ q = pre ++ l /\ h5_find q h = None /\ h5_find q h' = Some (Group []))) /\
        (forall l r, a :: p = l ++ r -> l <> [] -> exists a, h5_find (pre ++ l) h' = Some (Group a))).
    { intros h1 M1 (b0 & M3). destruct (IH (pre ++ [a]) h1) as (h' & E & I1 & I2).
      - intros l r -> Hl. rewrite <- app_assoc. cbn [app].
        destruct (M1 (pre ++ a :: l)) as [->|(X & _)].
        + apply (H (a :: l) r); [reflexivity|discriminate].
        + apply app_inv_head in X. injection X as X. congruence.
      - exists h'. repeat split; auto.
        + intro q. destruct (I1 q) as [E1|(l & r & -> & Hl & -> & N1 & N2)].
          * rewrite E1. destruct (M1 q) as [->|(-> & N1 & N2)]; [now left|]. right.
            exists [a], p. repeat split; auto. discriminate.
          * right. exists (a :: l), r. rewrite <- app_assoc in *. cbn [app] in *. repeat split; auto; try discriminate.
            destruct (M1 (pre ++ a :: l)) as [<-|(X & _)]; [exact N1|].
            apply app_inv_head in X. injection X as X. congruence.
        + intros l r E0 Hl. destruct l as [|a' l]; [congruence|]. injection E0 as <- ->.
          destruct l as [|x l].
          * destruct (I1 (pre ++ [a])) as [->|(l & r' & _ & Hl' & X & _)]; [eauto|].
            exfalso. rewrite <- app_assoc in X. apply app_inv_head in X. injection X as X. congruence.
          * destruct (I2 (x :: l) r eq_refl ltac:(discriminate)) as (b & B).
            rewrite <- app_assoc in B. cbn [app] in B. eauto. }
    destruct (h5_find (pre ++ [a]) h) as [[at_| |]|] eqn:E; try tauto.
    + apply Step; auto. eauto.
    + apply Step.
      * intro q. rewrite find_add. destruct (h5_find q h) eqn:E2; [now left|].
        destruct (path_eqb q (pre ++ [a])) eqn:E3; [|now left]. apply path_eqb_spec in E3. auto.
      * exists []. rewrite find_add, E, path_eqb_refl. reflexivity.
Qed.
Lemma mkgroups_spec w h : groupable h w ->
  exists h', mkgroups [] w h = Ok h' /\ same_but h h' w [] /\
    (forall q, leads q w -> exists a, h5_find q h' = Some (Group a)).
Proof.
  intro H. destruct (mkgroups_gen w [] h) as (h' & E & I1 & I2).
  - intros l r -> Hl. apply H. exists r. auto.
  - exists h'. repeat split; auto.
    + intros q _. destruct (I1 q) as [->|(l & r & -> & Hl & -> & N)]; [now left|right]. split; [exists r; auto|exact N].
    + intros q (r & Hq & ->). eauto.
Qed.
Lemma leads_not_leaf w m : ~ leads (w ++ [m]) w.
Proof.
  intros (r & _ & E). apply (f_equal (@length _)) in E. rewrite !app_length in E. cbn in E. lia.
Qed.

Lemma create_spec w m nd h : groupable h w -> h5_find (w ++ [m]) h = None ->
  exists h', h5_create w m nd h = Ok h' /\ same_but h h' w [w ++ [m]] /\
    h5_find (w ++ [m]) h' = Some nd /\ groupable h' w /\
    (forall q, leads q w -> exists a, h5_find q h' = Some (Group a)).
Proof.
  intros Hg Hn. destruct (mkgroups_spec w h Hg) as (h1 & E & S & G). unfold h5_create, rbind. rewrite E.
  assert (N1 : h5_find (w ++ [m]) h1 = None).
  { destruct (S (w ++ [m])) as [->|(L & _)]; auto. exfalso. now apply leads_not_leaf in L. }
  rewrite N1. eexists. split; [reflexivity|].
  assert (O : forall q, q <> w ++ [m] -> h5_find q (h5_add (w ++ [m]) nd h1) = h5_find q h1).
  { intros q Hq. rewrite find_add. destruct (h5_find q h1); [reflexivity|]. now rewrite path_eqb_neq. }
  assert (LG : forall q, leads q w -> exists a, h5_find q (h5_add (w ++ [m]) nd h1) = Some (Group a)).
  { intros q Hq. rewrite O; [auto|]. intros ->. now apply leads_not_leaf in Hq. }
  repeat split.
  - intros q Hq. cbn in Hq. rewrite O by intuition congruence. apply S. auto.
  - rewrite find_add, N1, path_eqb_refl. reflexivity.
  - intros q Hq. destruct (LG q Hq) as (a & ->). exact I.
  - exact LG.
Qed.

Lemma same_but_trans h h1 h2 w p1 p2 : same_but h h1 w p1 -> same_but h1 h2 w p2 -> same_but h h2 w (p1 ++ p2).
Proof.
  intros H1 H2 q Hq. rewrite in_app_iff in Hq.
  destruct (H1 q) as [E1|(L1 & N1 & G1)]; [tauto| |]; (destruct (H2 q) as [E2|(L2 & N2 & G2)]; [tauto| |]).
  - left. congruence.
  - right. repeat split; auto. congruence.
  - right. repeat split; auto. congruence.
  - congruence.
Qed.
Lemma same_but_incl h h1 w p1 p2 : same_but h h1 w p1 -> incl p1 p2 -> same_but h h1 w p2.
Proof. intros H Hi q Hq. apply H. intro X. apply Hq. now apply Hi. Qed.

Lemma create_arrays_spec w n : forall l h, groupable h w ->
  NoDup (map (fun a => w ++ [lower_s n ++ "_" ++ fst a]%string) l) ->
  (forall a, In a l -> h5_find (w ++ [lower_s n ++ "_" ++ fst a]%string) h = None) ->
  exists h', create_arrays w n l h = Ok (map (fun a => w ++ [lower_s n ++ "_" ++ fst a]%string) l, h') /\
    groupable h' w /\ same_but h h' w (map (fun a => w ++ [lower_s n ++ "_" ++ fst a]%string) l) /\
    Forall (fun a => h5_find (w ++ [lower_s n ++ "_" ++ fst a]%string) h' = Some (Arr (snd a) [])) l.
Proof.
  induction l as [|[a t] l IH]; intros h Hg Hn Ha.
  - exists h. repeat split; auto. intros q _. now left.
  - cbn [create_arrays map fst]. cbv zeta. inversion Hn as [|? ? N1 N2]; subst.
    destruct (create_spec w (lower_s n ++ "_" ++ a)%string (Arr t []) h Hg) as (h1 & E1 & S1 & F1 & G1 & _).
    { apply (Ha (a, t)). now left. }
    destruct (IH h1 G1 N2) as (h2 & E2 & G2 & S2 & F2).
    { intros x Hx. destruct (S1 (w ++ [lower_s n ++ "_" ++ fst x]%string)) as [->|(L & _)].
      - intros [X|[]]. apply N1. apply in_map_iff. exists x. auto.
      - apply Ha. now right.
      - now apply leads_not_leaf in L. }
    exists h2. unfold rbind. rewrite E1, E2. repeat split; auto.
    + eapply same_but_incl; [eapply same_but_trans; eauto|]. intros x Hx. rewrite in_app_iff in Hx. cbn in *. tauto.
    + constructor; auto. cbn [fst snd]. destruct (S2 (w ++ [lower_s n ++ "_" ++ a]%string)) as [->|(L & _)].
      * exact N1.
      * exact F1.
      * now apply leads_not_leaf in L.
Qed.

(** State of the table of type [n] in the data set [w]: present with some
    content, or not yet. *)
Definition tab_ok (g : glob) (h : h5) (w : path) (n : string) (oc : option content) : Prop :=
  match oc with
  | Some c => sget n (g_tables g) = Some (tpath w n, apaths w n) /\ holds h w n c /\
              (apaths w n <> [] \/ c_rows c <> []) /\ grouped h w
  | None => sget n (g_tables g) = None /\ forall p, In p (own w n) -> h5_find p h = None
  end.
Definition gtables_frame (g g' : glob) : Prop :=
  g_ihref g' = g_ihref g /\ g_indsel g' = g_indsel g /\ g_seltyp g' = g_seltyp g /\
  g_ftid g' = g_ftid g /\ g_attop g' = g_attop g /\ g_prefix g' = g_prefix g /\
  g_hashier g' = g_hashier g /\ g_htab g' = g_htab g /\ g_hrec g' = g_hrec g /\
  g_batch g' = g_batch g /\ g_names g' = g_names g /\
  g_elem g' = g_elem g /\ g_points g' = g_points g /\ g_nsp g' = g_nsp g /\
  g_compl g' = g_compl g /\ g_lenrec g' = g_lenrec g /\ g_ielcor g' = g_ielcor g.

Lemma apaths_map w n : apaths w n = map (fun a => w ++ [lower_s n ++ "_" ++ fst a]%string) (atoms_of n).
Proof. unfold apaths, arr_names. now rewrite map_map. Qed.

Lemma leads_not_own q w n : leads q w -> In q (own w n) -> False.
Proof.
  intros Hq X. unfold own in X. cbn in X. destruct X as [<-|X]; [now apply leads_not_leaf in Hq|].
  rewrite apaths_map in X. apply in_map_iff in X as (a & <- & _). now apply leads_not_leaf in Hq.
Qed.

Lemma get_table_spec g h w n oc i : tab_ok g h w n oc -> get_path g h = Ok w -> groupable h w ->
  NoDup (own w n) ->
  exists g' h', get_table n (mkP i g h) = Ok ((tpath w n, apaths w n), mkP i g' h') /\
    sget n (g_tables g') = Some (tpath w n, apaths w n) /\ holds h' w n (base_content n oc) /\
    gtables_frame g g' /\ (forall m, m <> n -> sget m (g_tables g') = sget m (g_tables g)) /\
    same_but h h' w (own w n) /\ groupable h' w /\ grouped h' w.
Proof.
  intros Ht Hp Hg Hn. unfold get_table, sbind, getg, geth. cbn [p_g p_out]. destruct oc as [c|].
  - destruct Ht as (T1 & T2 & T3 & T4). rewrite T1. exists g, h.
    assert (X : (match apaths w n with
              | [] => match tab_rows (tpath w n) h with
                      | [] => fun s => match liftR (get_path g h) s with Ok (w0, s') =>
                           (do h1 <- liftR (h5_create w0 (lower_s n) (Table (table_descr n) []) h);
                             dos seth h1; dos modg (add_table n (w0 ++ [lower_s n], [])); sret (w0 ++ [lower_s n], [])) s' | Err e => Err e end
                      | _ :: _ => sret (tpath w n, [])
                      end
              | a :: l => sret (tpath w n, a :: l)
              end : P (path * list path)) (mkP i g h) = Ok ((tpath w n, apaths w n), mkP i g h)).
    { destruct (apaths w n) eqn:E; [|reflexivity]. destruct T3 as [T3|T3]; [congruence|].
      destruct T2 as [T2 _]. unfold tab_rows. rewrite T2. destruct (c_rows c); [congruence|reflexivity]. }
    split; [exact X|]. repeat split; auto; try apply T2. intros q _. now left.
  - destruct Ht as (T1 & T2). rewrite T1. unfold liftR, slift at 1. rewrite Hp.
    inversion Hn as [|? ? N1 N2]; subst. rewrite apaths_map in N1, N2.
    destruct (create_arrays_spec w n (atoms_of n) h Hg N2) as (h1 & E1 & G1 & S1 & F1).
    { intros a Ha. apply T2. right. rewrite apaths_map. apply in_map_iff. eauto. }
    unfold slift at 1. rewrite E1.
    destruct (create_spec w (lower_s n) (Table (table_descr n) []) h1 G1) as (h2 & E2 & S2 & F2 & G2 & L2).
    { destruct (S1 (tpath w n) N1) as [X|(L & _)].
      - change (w ++ [lower_s n]) with (tpath w n). rewrite X. apply T2. now left.
      - now apply leads_not_leaf in L. }
    unfold slift. rewrite E2. cbv [seth modg sret]. cbn [p_in p_g p_out].
    rewrite <- apaths_map in *. exists (add_table n (w ++ [lower_s n], apaths w n) g), h2.
    split; [reflexivity|]. split; [cbn; unfold dset; cbn; rewrite String.eqb_refl; reflexivity|].
    split; [|split; [repeat split|split; [|split; [|split; [exact G2|exact L2]]]]].
    + split; [exact F2|]. cbn [base_content c_arrs]. rewrite apaths_map in *.
      clear - F1 S2 N1. unfold elts_of.
      assert (Q : Forall (fun a => h5_find (w ++ [lower_s n ++ "_" ++ fst a]%string) h2 = Some (Arr (snd a) [])) (atoms_of n)).
      { rewrite Forall_forall in *. intros a Ha.
        destruct (S2 (w ++ [lower_s n ++ "_" ++ fst a]%string)) as [->|(L & _)].
        - intros [X|[]]. apply N1. apply in_map_iff. exists a. split; [symmetry; exact X|exact Ha].
        - auto.
        - now apply leads_not_leaf in L. }
      clear - Q. induction Q; cbn [map combine]; constructor; auto.
    + intros m Hm. cbn. unfold dset, sget. cbn. destruct (String.eqb_spec m n); [congruence|reflexivity].
    + eapply same_but_incl; [eapply same_but_trans; eauto|]. intros x Hx. rewrite in_app_iff in Hx.
      unfold own, tpath. cbn in *. tauto.
Qed.

Lemma rd_init_inv batch h w n c : 0 < batch -> holds h w n c -> NoDup (own w n) ->
  rd_inv batch (table_descr n) (elts_of n) (tpath w n) (apaths w n) (rd_init n (tpath w n, apaths w n) h) h c.
Proof.
  intros Hb [H1 H2] Hn. unfold rd_init. cbn [fst snd].
  assert (L : length (apaths w n) = length (atoms_of n)) by (rewrite apaths_map; apply map_length).
  constructor; cbn [r_path r_types r_vls r_buf]; auto.
  - rewrite map_map. cbn [v_path vl_init]. revert L. generalize (apaths w n), (atoms_of n).
    induction l; intros [|y l2] L; try discriminate; cbn [combine map fst]; [reflexivity|].
    cbn in L. rewrite IHl by lia. reflexivity.
  - rewrite map_map. cbn [v_type vl_init]. unfold elts_of. revert L. generalize (apaths w n), (atoms_of n).
    induction l; intros [|y l2] L; try discriminate; cbn [combine map fst snd]; [reflexivity|].
    cbn in L. rewrite IHl by lia. reflexivity.
  - exists (c_rows c). rewrite app_nil_r. auto.
  - unfold elts_of in H2. revert H2 L. generalize (c_arrs c), (apaths w n), (atoms_of n).
    intros l l0. revert l. induction l0 as [|p ps IH]; intros l [|y ys] H L; try discriminate; cbn [combine map] in *.
    + inversion H; subst. constructor.
    + inversion H as [|? a ? l' A1 A2]; subst. cbn [fst snd] in A1. constructor; [|apply IH; auto].
      exists a, []. cbn [vl_init v_path v_type v_data v_next fst snd]. rewrite app_nil_r. repeat split; auto.
      unfold arr_items. now rewrite A1.
Qed.

(** Everything but tables and dictionaries. *)
Definition gsame (g g' : glob) : Prop :=
  g_ihref g' = g_ihref g /\ g_indsel g' = g_indsel g /\ g_seltyp g' = g_seltyp g /\
  g_ftid g' = g_ftid g /\ g_attop g' = g_attop g /\ g_prefix g' = g_prefix g /\
  g_hashier g' = g_hashier g /\ g_htab g' = g_htab g /\ g_hrec g' = g_hrec g /\
  g_batch g' = g_batch g /\ g_names g' = g_names g.
Lemma put_entries_rows cols elts c es c' : put_entries cols elts c es c' ->
  length (c_rows c') = (length (c_rows c) + length es)%nat.
Proof.
  induction 1 as [|c e c1 es c2 H _ IH]; [cbn; lia|]. rewrite IH. destruct H; cbn [c_rows]. rewrite app_length. cbn. lia.
Qed.
Lemma get_path_same g g' h h' : gsame g g' ->
  (forall p, g_htab g = Some p -> tab_rows p h' = tab_rows p h) -> get_path g' h' = get_path g h.
Proof.
  intros (_ & E2 & E3 & E4 & E5 & E6 & E7 & E8 & _) H. unfold get_path, hier_cell.
  rewrite E2, E3, E4, E5, E6, E7, E8. destruct (g_htab g) as [p|]; [|reflexivity].
  rewrite (H p eq_refl). reflexivity.
Qed.

Lemma map_const_combine {A B C} (c : C) : forall (l : list A) (m : list B), length l = length m ->
  map (fun _ => c) (combine l m) = map (fun _ => c) m.
Proof.
  induction l; intros [|y m] H; try discriminate; cbn; [reflexivity|]. rewrite IHl; auto.
Qed.
Theorem run_reader_spec (layout : kind -> ctx -> string -> item -> list ascii -> ctx -> Prop) (J : list (Z * Z) -> Prop) b name :
  J (map (fun _ => (0, 0)) (atoms_of name)) ->
  (forall k c it rest c', layout k c name it rest c' -> body_ok J b k c name it rest c') ->
  forall k c it its c' n fs bs tail g h fr w oc con',
  enc_run layout k name c it its c' n fs bs tail ->
  ctx_of g c -> 0 < g_batch g -> get_path g h = Ok w -> groupable h w -> NoDup (own w name) ->
  tab_ok g h w name oc ->
  put_entries (map snd (table_descr name)) (elts_of name) (base_content name oc) (map i_entry (it :: its)) con' ->
  exists g' h' fr', run_reader b name (i_fs it) (mkP (mkIn k bs false fr) g h)
      = Ok ((n, fs), mkP (mkIn k tail false fr') g' h') /\
    tab_ok g' h' w name (Some con') /\ (forall m, m <> name -> sget m (g_tables g') = sget m (g_tables g)) /\
    gsame g g' /\ ctx_of g' c' /\ same_but h h' w (own w name) /\ groupable h' w.
Proof.
  intros HJ HL k c it its c' n fs bs tail g h fr w oc con' HR Hc Hb Hp Hg Hn Ht HP.
  destruct (get_table_spec g h w name oc (mkIn k bs false fr) Ht Hp Hg Hn)
    as (g1 & h1 & E1 & T1 & H1 & F1 & O1 & S1 & G1 & L1).
  unfold run_reader, sbind, geth. rewrite E1. cbn [p_out].
  assert (B1 : g_batch g1 = g_batch g) by apply F1.
  assert (C1 : ctx_of g1 c).
  { destruct F1 as (_ & _ & _ & _ & _ & _ & _ & _ & _ & _ & _ & Q1 & Q2 & Q3 & Q4 & Q5 & Q6).
    destruct Hc. constructor; rewrite ?Q1, ?Q2, ?Q3, ?Q4, ?Q5; auto. }
  edestruct (run_loop_spec layout b name J HL k c it its c' n fs bs tail HR (table_descr name) (elts_of name)
    (tpath w name) (apaths w name) (rd_init name (tpath w name, apaths w name) h1) g1 h1 fr (base_content name oc) con'
    (fuel_of (mkP (mkIn k bs false fr) g1 h1))) as (r2 & h2 & g2 & fr2 & E2 & I2 & F2 & C2 & O2).
  - exact C1.
  - now rewrite B1.
  - apply rd_init_inv; [now rewrite B1|exact H1|exact Hn].
  - unfold marks, rd_init. cbn [r_vls fst snd]. rewrite map_map. cbn [vl_init v_start v_stop].
    assert (L : length (apaths w name) = length (atoms_of name)) by (rewrite apaths_map; apply map_length).
    rewrite map_const_combine by exact L. exact HJ.
  - exact HP.
  - unfold fuel_of. cbn [p_in f_rest]. apply enc_run_len in HR. lia.
  - rewrite E2. rewrite B1 in *.
    edestruct (rd_write_spec (g_batch g) (table_descr name) (elts_of name) (tpath w name) (apaths w name) r2
      (mkP (mkIn k tail false fr2) g2 h2) con' Hb I2) as (r3 & h3 & E3 & I3 & T3 & A3 & O3).
    rewrite E3. unfold sret, pseth. cbn [p_in p_g p_out] in *.
    exists g2, h3, fr2. split; [reflexivity|].
    assert (SB : same_but h h3 w (own w name)).
    { intros q Hq. rewrite O3, O2 by exact Hq. now apply S1. }
    assert (T2 : g_tables g2 = g_tables g1) by apply F2.
    split; [|split; [|split; [|split; [exact C2|split; [exact SB|]]]]].
    + split; [now rewrite T2|]. split; [split; assumption|]. split.
      * right. apply put_entries_rows in HP.
        cbn [map length] in HP. destruct (c_rows con'); [cbn in HP; lia|discriminate].
      * intros q Hq. rewrite O3, O2 by (intro X; exact (leads_not_own _ _ _ Hq X)). now apply L1.
    + intros m Hm. rewrite T2. now apply O1.
    + destruct F1 as (Q1 & Q2 & Q3 & Q4 & Q5 & Q6 & Q7 & Q8 & Q9 & Q10 & Q11 & _).
      destruct F2 as (R1 & R2 & R3 & R4 & R5 & R6 & R7 & R8 & R9 & R10 & R11 & R12).
      unfold gsame. intuition congruence.
    + intros q Hq. assert (X : ~ In q (own w name)) by (intro X; exact (leads_not_own _ _ _ Hq X)).
      rewrite O3, O2 by exact X. now apply G1.
Qed.
