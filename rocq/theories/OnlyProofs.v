(** * OnlyProofs: determinacy of the stored data, restriction to some record types. *)
From Verif Require Import Base Flt SeqFile H5 Schema Parsers SeqSpec StoreSpec ParserSpec LayoutSpec FileSpec DataSpec OnlySpec
  StoreProofs ParserRun FileProofs DataProofs.
Open Scope string_scope.
Open Scope Z_scope.
Open Scope list_scope.

(** ** Stored values are determined *)
Lemma strip_nul_unique a : forall b i j, (a = [] \/ last a blank <> nul) -> (b = [] \/ last b blank <> nul) ->
  a ++ repeat nul i = b ++ repeat nul j -> a = b.
Proof.
  induction a as [|x a IH]; intros [|y b] i j Ha Hb E.
  - reflexivity.
  - exfalso. destruct Hb as [Hb|Hb]; [discriminate|]. apply Hb.
    assert (Q : forall z, In z (y :: b) -> z = nul).
    { intros z Hz. apply (repeat_spec i nul z). cbn [app] in E. rewrite E. change (y :: b ++ repeat nul j) with ((y :: b) ++ repeat nul j). apply in_or_app. now left. }
    apply Q. clear. generalize y. induction b as [|c b IH]; intro u; [now left|]. right. exact (IH c).
  - exfalso. destruct Ha as [Ha|Ha]; [discriminate|]. apply Ha.
    assert (Q : forall z, In z (x :: a) -> z = nul).
    { intros z Hz. apply (repeat_spec j nul z). cbn [app] in E. rewrite <- E. change (x :: a ++ repeat nul i) with ((x :: a) ++ repeat nul i). apply in_or_app. now left. }
    apply Q. clear. generalize x. induction a as [|c b IH]; intro u; [now left|]. right. exact (IH c).
  - cbn [app] in E. injection E as <- E. f_equal. apply (IH b i j); [| |exact E].
    + destruct a; [now left|right]. destruct Ha as [Ha|Ha]; [discriminate|exact Ha].
    + destruct b; [now left|right]. destruct Hb as [Hb|Hb]; [discriminate|exact Hb].
Qed.
Lemma text_of_unique n s a b : text_of n s a -> text_of n s b -> a = b.
Proof. intros (i & Ha & La) (j & Hb & Lb). apply (strip_nul_unique a b i j La Lb). congruence. Qed.
Lemma trunc_det f a b : trunc_is f a -> trunc_is f b -> a = b.
Proof. intros A B. apply trunc_int_of in A. apply trunc_int_of in B. congruence. Qed.

Lemma Forall2_det {A B} (R : A -> B -> Prop) l : (forall a x y, In a l -> R a x -> R a y -> x = y) ->
  forall xs ys, Forall2 R l xs -> Forall2 R l ys -> xs = ys.
Proof.
  induction l as [|a l IH]; intros D xs ys X Y; inversion X; inversion Y; subst; [reflexivity|]. f_equal.
  - eapply D; eauto. now left.
  - apply IH; auto. intros. eapply D; eauto. now right.
Qed.
Lemma stored_det t : forall v a b, stored t v a -> stored t v b -> a = b.
Proof.
  induction t; intros v a b A B; destruct v, a, b; cbn [stored] in A, B; try tauto; try congruence.
  - f_equal. eapply trunc_det; [exact (proj1 A)|exact (proj1 B)].
  - destruct A as [<- _], B as [<- _]. reflexivity.
  - f_equal. eapply text_of_unique; [exact (proj2 A)|exact (proj2 B)].
  - destruct A as [-> ->], B as [-> ->]. reflexivity.
  - destruct A as [-> ->], B as [-> ->]. reflexivity.
  - f_equal. eapply Forall2_det; [|exact (proj2 A)|exact (proj2 B)]. intros. eapply IHt; eauto.
Qed.
Lemma app2_det {A} (a b : list (list A)) x : app2 a b x -> forall y, app2 a b y -> x = y.
Proof. induction 1; intros y Y; inversion Y; subst; [reflexivity|]. f_equal. auto. Qed.
Lemma put_entry_det cols elts c e c1 c2 : put_entry cols elts c e c1 -> put_entry cols elts c e c2 -> c1 = c2.
Proof.
  intros A B. inversion A; subst. inversion B; subst.
  assert (cs = cs0) as <- by (eapply Forall2_det; [|exact H1|exact H9]; intros a x y _ X Y; exact (stored_det _ _ _ _ X Y)).
  assert (ds = ds0) as <-.
  { eapply Forall2_det; [|exact H3|exact H11]. intros a x y _ X Y. eapply Forall2_det; [|exact X|exact Y]. intros. eapply stored_det; eassumption. }
  f_equal. eapply app2_det; eassumption.
Qed.
Lemma put_entries_det cols elts c es c1 : put_entries cols elts c es c1 -> forall c2, put_entries cols elts c es c2 -> c1 = c2.
Proof.
  induction 1 as [|c r c1 rs c2 P _ IH]; intros d B; inversion B; subst; [reflexivity|].
  match goal with H : put_entry _ _ _ _ _ |- _ => assert (c1 = c3) as -> by (eapply put_entry_det; eassumption) end. auto.
Qed.
Lemma holds_same h1 h2 w n con : holds h1 w n con -> holds h2 w n con -> same_data h1 h2 w n.
Proof.
  intros [T1 A1] [T2 A2] p [<- |Hp]; [congruence|].
  assert (L : length (apaths w n) = length (elts_of n)) by (unfold apaths, arr_names, elts_of; now rewrite !map_length).
  revert L Hp A1 A2. generalize (apaths w n) (elts_of n) (c_arrs con). clear.
  intros ps. induction ps as [|q ps IH]; intros [|t ts] arrs L Hp A1 A2; try discriminate; [destruct Hp|].
  cbn [combine] in *. inversion A1; subst. inversion A2; subst. cbn [fst snd] in *. destruct Hp as [->|Hp]; [congruence|].
  eapply IH; eauto.
Qed.
Lemma tables_same h1 h2 w segs1 segs2 n : tables h1 w segs1 -> tables h2 w segs2 -> In n stored_types ->
  items_of n segs1 = items_of n segs2 -> same_data h1 h2 w n.
Proof.
  intros T1 T2 Hn E. specialize (T1 n Hn). specialize (T2 n Hn). unfold entries_of in *. rewrite E in T1.
  destruct (map i_entry (items_of n segs2)).
  - intros p Hp. now rewrite T1, T2.
  - destruct T1 as (c1 & P1 & H1), T2 as (c2 & P2 & H2). assert (c1 = c2) as <- by (eapply put_entries_det; eassumption).
    eapply holds_same; eassumption.
Qed.

(** ** Restriction *)
Lemma no_empty n : In n laid_types -> n <> "".
Proof. unfold laid_types. rewrite filter_In. intros [H _] ->. revert H. cbn. intuition discriminate. Qed.
Lemma flt_eq0_int f : flt_eq f f0 = true -> int_of f = Ok 0.
Proof.
  destruct f as [|[]|s|s m e]; try discriminate; [reflexivity|]. unfold flt_eq, fcmp, f0, scaled, fexp.
  intro H. exfalso. assert (Q : 0 < Z.shiftl (Zpos m) (e - Z.min e 0)).
  { rewrite Z.shiftl_mul_pow2 by lia. apply Z.mul_pos_pos; [lia|]. apply Z.pow_pos_nonneg; lia. }
  destruct s; match type of H with context [?a ?= ?b] => destruct (Z.compare_spec a b) end; try discriminate; lia.
Qed.
Lemma enc_pass_next k n fs bs m mfs tail : enc_pass k n fs bs m mfs tail -> m <> n.
Proof. induction 1; assumption. Qed.

Section Only.
  Variables (only : list string) (k : kind) (id : Z) (sub : bool).
  Hypothesis closed : forall a b, In (a, b) needs -> asked only a -> asked only b.

  Lemma asked_dec n : {asked only n} + {~ asked only n}.
  Proof.
    unfold asked. destruct only as [|x l]; [left; now left|]. destruct (in_dec string_dec n (x :: l)); [left; now right|right].
    intros [H|H]; [discriminate|contradiction].
  Qed.

  Definition agree (c d : ctx) : Prop :=
    (asked only "GELMNT1" -> forall e, x_elem c e = x_elem d e) /\
    (asked only "RDPOINTS" -> (forall e, x_points c e = x_points d e) /\ (forall e, x_nsp c e = x_nsp d e)) /\
    (asked only "RDRESREF" -> forall e, x_compl c e = x_compl d e) /\
    (forall n rv, In (n, rv) comp_types -> asked only n -> forall z, x_lenrec c (rv, z) = x_lenrec d (rv, z)).

  Ltac same := eexists; split; [solve [econstructor; first [eassumption|reflexivity]]|assumption].

  Lemma layout_agree kinds c n it rest c' d : layout kinds k c n it rest c' -> agree c d -> asked only n ->
    exists d', layout kinds k d n it rest d' /\ agree c' d'.
  Proof.
    intros L (A1 & A2 & A3 & A4) HA. pose proof (conj A1 (conj A2 (conj A3 A4))) as AG.
    inversion L; subst; try same.
    - (* GELMNT1 *) eexists. split; [econstructor; first [eassumption|reflexivity]|]. unfold with_elem, agree; cbn [x_elem x_points x_nsp x_compl x_lenrec].
      repeat split; auto; try apply A2; auto. intros HE e1. unfold upd. rewrite A1 by assumption. reflexivity.
    - (* GELREF1 *) exists d. split; [|exact AG]. econstructor; eauto. rewrite <- A1; [assumption|]. apply (closed "GELREF1"); [now left|assumption].
    - (* compdef *) eexists. split; [econstructor; first [eassumption|reflexivity]|]. unfold with_lenrec, agree; cbn [x_elem x_points x_nsp x_compl x_lenrec].
      repeat split; auto; try apply A2; auto. intros m r Hm HM z1. unfold upd. destruct (pair_eqb _ _ _ _); [reflexivity|]. eapply A4; eauto.
    - (* RDPOINTS *) eexists. split; [eapply (lay_rdpoints kinds k d nf alt el cr e nsp ijk nst nl alt' el' cr' nsp' nl' nok noj noi pts xfs bs rest); assumption|]. unfold with_points, agree; cbn [x_elem x_points x_nsp x_compl x_lenrec].
      repeat split; auto; unfold upd; intros.
      + rewrite (proj1 (A2 HA)). reflexivity.
      + rewrite (proj2 (A2 HA)). reflexivity.
    - (* RDIELCOR *) exists d. split; [|exact AG]. econstructor; eauto. unfold grid_of in *.
      rewrite <- (proj1 (A2 (closed "RDIELCOR" "RDPOINTS" ltac:(cbn; auto) HA))). assumption.
    - (* RDRESREF *) eexists. split; [econstructor; first [eassumption|reflexivity]|]. unfold with_compl, agree; cbn [x_elem x_points x_nsp x_compl x_lenrec].
      repeat split; auto; try apply A2; auto. intros HE e1. unfold upd. rewrite A3 by assumption. reflexivity.
    - (* nodres *) exists d. split; [|exact AG]. econstructor; eauto. rewrite <- A3; [assumption|].
      apply (closed n); [|assumption]. match goal with H : In n nodres_types |- _ => cbn in H; destruct H as [<-|[<-|[<-|[]]]]; cbn; auto 10 end.
    - (* elmres *) exists d. split; [|exact AG].
      assert (I : In n elmres_types) by assumption. assert (B : asked only "RDRESREF" /\ asked only "RDPOINTS" /\ exists m, In (m, n) comp_types /\ asked only m).
      { cbn in I. destruct I as [<-|[<-|[<-|[]]]]; (split; [eapply closed; [|exact HA]; cbn; auto 20|split; [eapply closed; [|exact HA]; cbn; auto 20|]]).
        - exists "RDFORCES". split; [cbn; auto|eapply closed; [|exact HA]; cbn; auto 20].
        - exists "RDSTRAIN". split; [cbn; auto 10|eapply closed; [|exact HA]; cbn; auto 20].
        - exists "RDSTRESS". split; [cbn; auto 10|eapply closed; [|exact HA]; cbn; auto 20]. }
      destruct B as (B1 & B2 & m & B3 & B4).
      econstructor; eauto; [rewrite <- (proj2 (A2 B2)); assumption|rewrite <- (A4 m n B3 B4); assumption|rewrite <- A3; assumption].
  Qed.

  Lemma layout_other kinds c n it rest c' d : layout kinds k c n it rest c' -> agree c d -> ~ asked only n -> agree c' d.
  Proof.
    intros L (A1 & A2 & A3 & A4) HA. pose proof (conj A1 (conj A2 (conj A3 A4))) as AG.
    inversion L; subst; try exact AG; unfold with_elem, with_lenrec, with_points, with_compl, agree; cbn [x_elem x_points x_nsp x_compl x_lenrec];
      try (repeat split; auto; try apply A2; auto; intros; contradiction).
    repeat split; auto; try apply A2; auto. intros m r Hm HM z1. unfold upd.
    destruct (pair_eqb _ _ _ _) eqn:E; [|eapply A4; eauto].
    exfalso. apply andb_prop in E as [E _]. cbn [fst] in E. apply String.eqb_eq in E as ->. apply HA.
    assert (m = n) as <-; [|assumption].
    match goal with H : In (n, rv) comp_types |- _ => clear - H Hm; cbn in H, Hm end.
    repeat (match goal with H : _ \/ _ |- _ => destruct H as [H|H] | H : False |- _ => destruct H end; try match goal with H : (_, _) = (_, _) |- _ => injection H as <- <- end; try congruence).
  Qed.

  Lemma run_agree kinds n c it its c' m mfs bs tail : enc_run (layout kinds) k n c it its c' m mfs bs tail ->
    forall d, agree c d -> asked only n -> exists d', enc_run (layout kinds) k n d it its d' m mfs bs tail /\ agree c' d'.
  Proof.
    induction 1 as [c it c' m mfs bs tail L E N|c it c1 it2 its c' m mfs hb bs tail L E R IH]; intros d AG HA.
    - destruct (layout_agree _ _ _ _ _ _ _ L AG HA) as (d' & L' & AG'). exists d'. split; [econstructor; eassumption|exact AG'].
    - destruct (layout_agree _ _ _ _ _ _ _ L AG HA) as (d1 & L' & AG1). destruct (IH d1 AG1 HA) as (d' & R' & AG').
      exists d'. split; [econstructor; eassumption|exact AG'].
  Qed.
  Lemma run_other kinds n c it its c' m mfs bs tail : enc_run (layout kinds) k n c it its c' m mfs bs tail ->
    forall d, agree c d -> ~ asked only n -> agree c' d.
  Proof.
    induction 1 as [c it c' m mfs bs tail L E N|c it c1 it2 its c' m mfs hb bs tail L E R IH]; intros d AG HA.
    - eapply layout_other; eassumption.
    - apply IH; [|exact HA]. eapply layout_other; eassumption.
  Qed.
  Lemma run_free (lay : kind -> ctx -> string -> item -> list ascii -> ctx -> Prop) n c it its c' m mfs bs tail :
    (forall c it r c', lay k c n it r c' -> c' = c /\ forall d, lay k d n it r d) ->
    enc_run lay k n c it its c' m mfs bs tail -> c' = c /\ forall d, enc_run lay k n d it its d m mfs bs tail.
  Proof.
    intros F. induction 1 as [c it c' m mfs bs tail L E N|c it c1 it2 its c' m mfs hb bs tail L E R IH].
    - destruct (F _ _ _ _ L) as [-> L']. split; [reflexivity|]. intro d. econstructor; [apply L'|exact E|exact N].
    - destruct (F _ _ _ _ L) as [-> L']. destruct IH as [-> R']. split; [reflexivity|]. intro d. econstructor; [apply L'|exact E|apply R'].
  Qed.
  Lemma hier_free n c it r c' : hier_layout k c n it r c' -> c' = c /\ forall d, hier_layout k d n it r d.
  Proof. intro L. inversion L; subst. split; [reflexivity|]. intro. constructor; assumption. Qed.
  Lemma tran_free n c it r c' : tran_layout k c n it r c' -> c' = c /\ forall d, tran_layout k d n it r d.
  Proof. intro L. inversion L; subst. split; [reflexivity|]. intro. eapply lay_suptran; eassumption. Qed.

  Lemma run_pass lay n c it its c' m mfs bs tail : enc_run lay k n c it its c' m mfs bs tail ->
    (forall it' nxt, In it' (it :: its) -> nxt = n \/ nxt = m -> rest_of_record k n (i_fs it') nxt (i_bs it')) ->
    m <> n /\ enc_pass k n (i_fs it) bs m mfs tail.
  Proof.
    induction 1 as [c it c' m mfs bs tail L E N|c it c1 it2 its c' m mfs hb bs tail L E R IH]; intro S.
    - split; [exact N|]. eapply pass_last; [apply S; [now left|now right]|exact E|exact N].
    - destruct IH as [N P]; [intros; apply S; [now right|assumption]|]. split; [exact N|].
      eapply pass_more; [apply S; [now left|now left]|exact E|exact P].
  Qed.
  Lemma reads_hd o st segs n fs bs st' : reads o k id sub st segs n fs bs st' -> n = hd_name segs.
  Proof. now destruct 1. Qed.

  Definition rel (st d : fstate) : Prop :=
    s_known d = s_known st /\ agree (s_ctx st) (s_ctx d) /\ forall x, asked only x -> s_tabs d x = s_tabs st x.
  Definition hier_ok (segs : list seg) : Prop := asked only "HIERARCH" \/ items_of "HIERARCH" segs = [].
  Definition keeps_items (segs' segs : list seg) : Prop := forall x, asked only x -> items_of x segs' = items_of x segs.

  Lemma hier_tl s segs : hier_ok (s :: segs) -> hier_ok segs.
  Proof. intros [H|H]; [now left|right]. unfold items_of in *. cbn [flat_map] in H. now apply app_eq_nil in H. Qed.
  Lemma keeps_run n its segs' segs : ~ asked only n -> keeps_items segs' segs -> keeps_items segs' (Run n its :: segs).
  Proof.
    intros H K x Hx. unfold items_of in *. cbn [flat_map]. destruct (String.eqb_spec n x) as [->|]; [contradiction|]. exact (K x Hx).
  Qed.
  Lemma rel_put st d n con c' b1 b2 b3 names names' : rel st d -> ~ asked only n -> s_known st = b1 -> agree c' (s_ctx d) ->
    rel (mkF c' b1 b2 (put_tab n con (s_tabs st)) names) (mkF (s_ctx d) (s_known d) b3 (s_tabs d) names').
  Proof.
    intros (R1 & R2 & R3) HN <- A. split; [exact R1|split; [exact A|]]. cbn [s_tabs]. intros x Hx. unfold put_tab.
    destruct (String.eqb_spec x n) as [->|]; [contradiction|]. exact (R3 x Hx).
  Qed.

  Lemma pass_block segs : forall st n fs bs st' d,
    reads [] k id sub st segs n fs bs st' -> skippable only k segs -> ~ asked only n -> n <> "" ->
    asked only "IDENT" -> hier_ok segs -> rel st d ->
    exists m mfs tail segs2 stx,
      m <> n /\ enc_pass k n fs bs m mfs tail /\ reads [] k id sub stx segs2 m mfs tail st' /\ rel stx d /\
      skippable only k segs2 /\ hier_ok segs2 /\ (length segs2 < length segs)%nat /\ keeps_items segs2 segs.
  Proof.
    induction segs as [|s segs IH]; intros st n fs bs st' d HR HS HN HE HI HH RL.
    - inversion HR; subst. congruence.
    - cbn [skippable] in HS. destruct HS as [HS1 HS2]. pose proof (hier_tl _ _ HH) as HH2.
      inversion HR; subst.
      + (* IEND *) destruct HS1 as [HS1|[[_ HS1]|[HS1 _]]]; [contradiction| |].
        2:{ match goal with H : flt_eq _ _ = true |- _ => unfold ends in HS1; rewrite H in HS1; discriminate HS1 end. }
        exists "", [], [], [], (saw st "IEND"). split; [discriminate|]. split.
        { replace bs with ([] ++ bs) by reflexivity. eapply pass_last; [|apply next_end; exact HS1|discriminate].
          apply rest_small with (z := 0); [|reflexivity| |lia].
          - match goal with H : flt_eq _ _ = true |- _ => revert H end.
            unfold flt_eq, flt_lt. destruct (fcmp _ _) as [[]|]; congruence.
          - match goal with H : flt_eq f f0 = true |- _ => apply flt_eq0_int in H; exact H end. }
        split; [apply reads_end|]. split; [exact RL|]. split; [exact I|]. split; [right; reflexivity|].
        split; [cbn; lia|]. intros x _. reflexivity.
      + (* run *)
        match goal with H : reads _ _ _ _ _ segs ?m ?mfs ?tail _ |- _ => pose proof (reads_hd _ _ _ _ _ _ _ H) as EM; exists m, mfs, tail, segs; eexists end.
        destruct HS1 as [HS1|HS1]; [contradiction|].
        match goal with H : enc_run _ _ _ _ _ _ _ _ _ _ _ |- _ => pose proof (run_other _ _ _ _ _ _ _ _ _ _ H (s_ctx d) (proj1 (proj2 RL)) HN) as AG;
          apply run_pass in H as [M P]; [|intros; apply HS1; [assumption|rewrite EM in *; assumption]] end.
        match goal with H : i_fs it = _ |- _ => rewrite H in P end.
        split; [exact M|]. split; [exact P|]. split; [eassumption|].
        split. { destruct d as [dc dk dh dt dn]. pose proof (rel_put st (mkF dc dk dh dt dn) n con' c' true (s_hier st) dh (s_names st ++ [n]) dn RL HN ltac:(assumption) AG) as Q. exact Q. }
        split; [exact HS2|]. split; [exact HH2|]. split; [cbn; lia|]. apply keeps_run; [exact HN|intros x _; reflexivity].
      + (* transformations *)
        match goal with H : reads _ _ _ _ _ segs ?m ?mfs ?tail _ |- _ => pose proof (reads_hd _ _ _ _ _ _ _ H) as EM; exists m, mfs, tail, segs; eexists end.
        destruct HS1 as [HS1|HS1]; [contradiction|].
        match goal with H : enc_run _ _ _ _ _ _ _ _ _ _ _ |- _ => destruct (run_free _ _ _ _ _ _ _ _ _ _ (tran_free n) H) as [-> _];
          apply run_pass in H as [M P]; [|intros; apply HS1; [assumption|rewrite EM in *; assumption]] end.
        match goal with H : i_fs it = _ |- _ => rewrite H in P end.
        split; [exact M|]. split; [exact P|]. split; [eassumption|].
        split. { destruct d as [dc dk dh dt dn]. exact (rel_put st (mkF dc dk dh dt dn) n con' (s_ctx st) true (s_hier st) dh (s_names st ++ [n]) dn RL HN ltac:(assumption) (proj1 (proj2 RL))). }
        split; [exact HS2|]. split; [exact HH2|]. split; [cbn; lia|]. apply keeps_run; [exact HN|intros x _; reflexivity].
      + (* hierarchy *) exfalso. destruct HH as [HH|HH]; [contradiction|]. discriminate HH.
      + (* IDENT *) contradiction.
      + (* IRECSIZE *)
        destruct HS1 as [HS1|[[HS1 _]|[_ HS1]]]; [contradiction|discriminate|].
        match goal with H : reads _ _ _ _ _ segs ?m _ _ _ |- _ => rename m into m0; pose proof (reads_hd _ _ _ _ _ _ _ H) as EM; pose proof H as HR2 end.
        assert (RL2 : rel (saw st "IRECSIZE") d) by exact RL.
        destruct (string_dec m0 "IRECSIZE") as [->|NM].
        * destruct (IH _ _ _ _ _ d HR2 HS2 HN HE HI HH2 RL2) as (m & mf & tl & s2 & sx & B1 & B2 & B3 & B4 & B5 & B6 & B7 & B8).
          exists m, mf, tl, s2, sx. split; [exact B1|]. split.
          { match goal with H : enc_next _ _ _ bs _ |- _ => inversion H; subst end.
            eapply (pass_more k "IRECSIZE" (f :: g :: fs0) []); [apply HS1; now left|eassumption|exact B2]. }
          split; [exact B3|]. split; [exact B4|]. split; [exact B5|]. split; [exact B6|]. split; [cbn; lia|]. intros x Hx. rewrite B8 by assumption. reflexivity.
        * exists m0, mfs, tail, segs, (saw st "IRECSIZE"). split; [exact NM|]. split.
          { apply (pass_last k "IRECSIZE" (f :: g :: fs0) []); [apply HS1; now right|assumption|exact NM]. }
          split; [exact HR2|]. split; [exact RL2|]. split; [exact HS2|]. split; [exact HH2|]. split; [cbn; lia|]. intros x Hx. reflexivity.
      + (* IEND *)
        destruct HS1 as [HS1|[[HS1 _]|[_ HS1]]]; [contradiction| |].
        { match goal with H : flt_eq _ _ = false |- _ => unfold ends in HS1; rewrite H in HS1; discriminate HS1 end. }
        match goal with H : reads _ _ _ _ _ segs ?m _ _ _ |- _ => rename m into m0; pose proof (reads_hd _ _ _ _ _ _ _ H) as EM; pose proof H as HR2 end.
        assert (RL2 : rel (saw st "IEND") d) by exact RL.
        destruct (string_dec m0 "IEND") as [->|NM].
        * destruct (IH _ _ _ _ _ d HR2 HS2 HN HE HI HH2 RL2) as (m & mf & tl & s2 & sx & B1 & B2 & B3 & B4 & B5 & B6 & B7 & B8).
          exists m, mf, tl, s2, sx. split; [exact B1|]. split.
          { match goal with H : enc_next _ _ _ bs _ |- _ => inversion H; subst end.
            eapply (pass_more k "IEND" (f :: fs0) []); [apply HS1; now left|eassumption|exact B2]. }
          split; [exact B3|]. split; [exact B4|]. split; [exact B5|]. split; [exact B6|]. split; [cbn; lia|]. intros x Hx. rewrite B8 by assumption. reflexivity.
        * exists m0, mfs, tail, segs, (saw st "IEND"). split; [exact NM|]. split.
          { apply (pass_last k "IEND" (f :: fs0) []); [apply HS1; now right|assumption|exact NM]. }
          split; [exact HR2|]. split; [exact RL2|]. split; [exact HS2|]. split; [exact HH2|]. split; [cbn; lia|]. intros x Hx. reflexivity.
      + (* passed over anyway *)
        match goal with H : enc_pass _ _ _ _ ?m ?mfs ?tail |- _ => exists m, mfs, tail, segs, st; split; [exact (enc_pass_next _ _ _ _ _ _ _ H)|split; [exact H|]] end.
        split; [assumption|]. split; [exact RL|]. split; [exact HS2|]. split; [exact HH2|]. split; [cbn; lia|]. intros x Hx. reflexivity.
      + (* void *)
        match goal with H : reads _ _ _ _ _ segs ?m _ _ _ |- _ => rename m into m0; pose proof (reads_hd _ _ _ _ _ _ _ H) as EM; pose proof H as HR2 end.
        assert (RB : forall nxt, rest_of_record k n (f :: fs0) nxt b).
        { intro nxt. match goal with H : _ \/ _ |- _ => destruct H as [[V ->]|[V (cc & W)]] end; [apply rest_neg; assumption|eapply rest_neg5; eassumption]. }
        destruct (string_dec m0 n) as [->|NM].
        * destruct (IH _ _ _ _ _ d HR2 HS2 HN HE HI HH2 RL) as (m & mf & tl & s2 & sx & B1 & B2 & B3 & B4 & B5 & B6 & B7 & B8).
          exists m, mf, tl, s2, sx. split; [exact B1|]. split.
          { match goal with H : enc_next _ _ _ _ _ |- _ => inversion H; subst end; [|congruence].
            eapply pass_more; [apply RB|eassumption|exact B2]. }
          split; [exact B3|]. split; [exact B4|]. split; [exact B5|]. split; [exact B6|]. split; [cbn; lia|]. intros x Hx. rewrite B8 by assumption. reflexivity.
        * exists m0, mfs, tail, segs, st. split; [exact NM|]. split.
          { eapply pass_last; [apply RB|eassumption|exact NM]. }
          split; [exact HR2|]. split; [exact RL|]. split; [exact HS2|]. split; [exact HH2|]. split; [cbn; lia|]. intros x Hx. reflexivity.
  Qed.

  Definition drops_items (segs : list seg) : Prop := forall x, ~ asked only x -> items_of x segs = [].

  Lemma asked_nil n : asked [] n. Proof. now left. Qed.
  Lemma rel_same st d n con c' dc' b h1 h2 names names' : rel st d -> agree c' dc' ->
    rel (mkF c' b h1 (put_tab n con (s_tabs st)) names) (mkF dc' b h2 (put_tab n con (s_tabs d)) names').
  Proof.
    intros (R1 & R2 & R3) A. split; [reflexivity|split; [exact A|]]. cbn [s_tabs]. intros x Hx. unfold put_tab.
    destruct (String.eqb x n); [reflexivity|]. exact (R3 x Hx).
  Qed.
  Lemma keeps_cons n its segs' segs : keeps_items segs' segs -> keeps_items (Run n its :: segs') (Run n its :: segs).
  Proof. intros K x Hx. pose proof (K x Hx) as E. unfold items_of in *. cbn [flat_map]. now rewrite E. Qed.
  Lemma drops_cons n its segs' : asked only n -> drops_items segs' -> drops_items (Run n its :: segs').
  Proof.
    intros A K x Hx. unfold items_of in *. cbn [flat_map]. destruct (String.eqb_spec n x) as [->|]; [contradiction|]. exact (K x Hx).
  Qed.

  Lemma reads_only N : forall segs st n fs bs st' d, (length segs <= N)%nat ->
    reads [] k id sub st segs n fs bs st' -> skippable only k segs -> asked only "IDENT" -> hier_ok segs -> rel st d ->
    exists segs' d', reads only k id sub d segs' n fs bs d' /\ keeps_items segs' segs /\ drops_items segs'.
  Proof.
    induction N as [|N IH]; intros segs st n fs bs st' d HL HR HS HI HH RL.
    - destruct segs; [|cbn in HL; lia]. inversion HR; subst. exists [], d. split; [apply reads_end|]. split; intros x _; reflexivity.
    - destruct segs as [|s segs].
      { inversion HR; subst. exists [], d. split; [apply reads_end|]. split; intros x _; reflexivity. }
      cbn [length] in HL.
      destruct (asked_dec n) as [HN|HN].
      2:{ assert (NE : n <> "") by (inversion HR; subst; try discriminate; try assumption;
            match goal with H : In _ laid_types |- _ => exact (no_empty _ H) | H : In _ tran_types |- _ => intros ->; cbn in H; intuition discriminate end).
          destruct (pass_block _ _ _ _ _ _ d HR HS HN NE HI HH RL) as (m & mf & tl & s2 & sx & B1 & B2 & B3 & B4 & B5 & B6 & B7 & B8).
          cbn [length] in B7. destruct (IH s2 sx m mf tl st' d ltac:(lia) B3 B5 HI B6 B4) as (segs' & d' & E1 & E2 & E3).
          exists (Pass n :: segs'), d'. split; [|split].
          - eapply reads_pass; [exact NE|now left|exact B2|exact E1].
          - intros x Hx. rewrite <- (B8 x Hx). exact (E2 x Hx).
          - exact E3. }
      cbn [skippable] in HS. destruct HS as [HS1 HS2]. pose proof (hier_tl _ _ HH) as HH2.
      pose proof RL as (R1 & R2 & R3).
      inversion HR; subst.
      + exists [Look "IEND" (f :: fs0) bs], (saw d "IEND"). split; [apply reads_iend; assumption|]. split; intros x _; reflexivity.
      + match goal with H : enc_run _ _ _ _ _ _ _ _ _ _ _ |- _ => destruct (run_agree _ _ _ _ _ _ _ _ _ _ H (s_ctx d) R2 HN) as (dc' & RA & AG) end.
        match goal with H : reads _ _ _ _ _ segs _ _ _ _ |- _ =>
          destruct (IH segs _ _ _ _ _ (mkF dc' true (s_hier d) (put_tab n con' (s_tabs d)) (s_names d ++ [n])) ltac:(lia) H HS2 HI HH2 (rel_same st d n con' c' dc' true _ _ _ _ RL AG)) as (segs' & d' & E1 & E2 & E3) end.
        exists (Run n (it :: its) :: segs'), d'. split; [|split; [apply keeps_cons; exact E2|apply drops_cons; assumption]].
        eapply reads_run; [exact HN|assumption|congruence|eassumption|assumption|exact RA| |exact E1].
        rewrite (R3 n HN). assumption.
      + match goal with H : enc_run _ _ _ _ _ _ _ _ _ _ _ |- _ => destruct (run_free _ _ _ _ _ _ _ _ _ _ (tran_free n) H) as [-> RA] end.
        match goal with H : reads _ _ _ _ _ segs _ _ _ _ |- _ =>
          destruct (IH segs _ _ _ _ _ (mkF (s_ctx d) true (s_hier d) (put_tab n con' (s_tabs d)) (s_names d ++ [n])) ltac:(lia) H HS2 HI HH2 (rel_same st d n con' (s_ctx st) (s_ctx d) true _ _ _ _ RL R2)) as (segs' & d' & E1 & E2 & E3) end.
        exists (Run n (it :: its) :: segs'), d'. split; [|split; [apply keeps_cons; exact E2|apply drops_cons; assumption]].
        eapply reads_tran; [exact HN|assumption|congruence|eassumption|assumption|apply RA| |exact E1].
        rewrite (R3 n HN). assumption.
      + match goal with H : enc_run _ _ _ _ _ _ _ _ _ _ _ |- _ => destruct (run_free _ _ _ _ _ _ _ _ _ _ (hier_free "HIERARCH") H) as [-> RA] end.
        match goal with H : reads _ _ _ _ _ segs _ _ _ _ |- _ =>
          destruct (IH segs _ _ _ _ _ (mkF (s_ctx d) true true (put_tab "HIERARCH" con' (s_tabs d)) (s_names d ++ ["HIERARCH"])) ltac:(lia) H HS2 HI HH2 (rel_same st d "HIERARCH" con' (s_ctx st) (s_ctx d) true _ _ _ _ RL R2)) as (segs' & d' & E1 & E2 & E3) end.
        exists (Run "HIERARCH" (it :: its) :: segs'), d'. split; [|split; [apply keeps_cons; exact E2|apply drops_cons; assumption]].
        eapply reads_hierarch; [reflexivity|exact HN|eassumption|assumption|assumption|apply RA| |exact E1].
        rewrite (R3 _ HN). assumption.
      + match goal with H : reads _ _ _ _ _ segs _ _ _ _ |- _ =>
          destruct (IH segs _ _ _ _ _ (mkF (s_ctx d) true (s_hier d) (put_tab "IDENT" con' (s_tabs d)) (s_names d ++ ["IDENT"])) ltac:(lia) H HS2 HI HH2 (rel_same st d "IDENT" con' (s_ctx st) (s_ctx d) true _ _ _ _ RL R2)) as (segs' & d' & E1 & E2 & E3) end.
        eexists (Run "IDENT" _ :: segs'), d'. split; [|split; [apply keeps_cons; exact E2|apply drops_cons; assumption]].
        eapply reads_ident; [exact HN|assumption|assumption|assumption|assumption|rewrite R1; assumption| |eassumption|exact E1].
        rewrite (R3 _ HN). assumption.
      + match goal with H : reads _ _ _ _ _ segs _ _ _ _ |- _ => destruct (IH segs _ _ _ _ _ (saw d "IRECSIZE") ltac:(lia) H HS2 HI HH2 RL) as (segs' & d' & E1 & E2 & E3) end.
        exists (Look "IRECSIZE" (f :: g :: fs0) bs :: segs'), d'. split; [|split].
        * eapply reads_irecsize; eassumption.
        * exact E2.
        * exact E3.
      + match goal with H : reads _ _ _ _ _ segs _ _ _ _ |- _ => destruct (IH segs _ _ _ _ _ (saw d "IEND") ltac:(lia) H HS2 HI HH2 RL) as (segs' & d' & E1 & E2 & E3) end.
        exists (Look "IEND" (f :: fs0) bs :: segs'), d'. split; [|split].
        * eapply reads_iend_more; eassumption.
        * exact E2.
        * exact E3.
      + match goal with H : reads _ _ _ _ _ segs _ _ _ _ |- _ => destruct (IH segs _ _ _ _ _ d ltac:(lia) H HS2 HI HH2 RL) as (segs' & d' & E1 & E2 & E3) end.
        exists (Pass n :: segs'), d'. split; [|split; [exact E2|exact E3]].
        eapply reads_pass; [assumption| |eassumption|exact E1].
        match goal with H : ~ asked [] n \/ _ |- _ => destruct H as [H|H]; [destruct (H (asked_nil n))|right; exact H] end.
      + match goal with H : reads _ _ _ _ _ segs _ _ _ _ |- _ => destruct (IH segs _ _ _ _ _ d ltac:(lia) H HS2 HI HH2 RL) as (segs' & d' & E1 & E2 & E3) end.
        exists (Pass n :: segs'), d'. split; [|split; [exact E2|exact E3]].
        eapply reads_void; eassumption.
  Qed.

  Lemma file_only bs segs : file_of [] k id sub bs segs -> skippable only k segs -> asked only "IDENT" -> hier_ok segs ->
    exists segs', file_of only k id sub bs segs' /\ keeps_items segs' segs /\ drops_items segs'.
  Proof.
    intros (n & fs & tail & st' & E & HR) HS HI HH.
    assert (RL : rel start start) by (split; [reflexivity|split; [|reflexivity]]; repeat split).
    destruct (reads_only (length segs) segs start n fs tail st' start (le_n _) HR HS HI HH RL) as (segs' & d' & H1 & H2 & H3).
    exists segs'. split; [exists n, fs, tail, d'; split; assumption|split; assumption].
  Qed.
End Only.
