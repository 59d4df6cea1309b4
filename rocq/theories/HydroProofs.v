(** * HydroProofs: the getters of hydrodynamic data. *)
From Coq Require Import Sorted Permutation.
From Verif Require Import Base Flt H5 Schema StoreSpec ParserSpec Data DataFacts StrucSpec StrucRes Nd NdProofs Hydro HydroSpec FltOrder HydroUnique.
Open Scope string_scope.
Open Scope Z_scope.
Open Scope list_scope.
Open Scope monad_scope.

(** ** Directions, frequencies, time steps *)
Lemma seconds_ok xs cs : Forall2 (fun x c => exists a, c = CV [CF a; CF x]) xs cs -> seconds cs = Ok xs.
Proof. unfold seconds. induction 1 as [|x c xs cs (a & ->) HF IH]; [reflexivity|]. cbn [rmap second]. now rewrite IH. Qed.
Lemma counted_ok h d rec n : d_open d = true -> counted h (d_group d) rec n -> count_or_0 h d rec = Ok n.
Proof.
  intros Ho [(rows & H & <-)|[H ->]]; unfold count_or_0.
  - now rewrite (holds_record0 _ _ _ _ _ Ho H).
  - unfold record0, get_record, check_isopen. rewrite Ho. cbn [rbind]. unfold get_child_table. unfold tpath in H. rewrite H. reflexivity.
Qed.
Lemma global_fields r g ro depth a b : let t := mkTab (descr_of "WGLOBDEF") r in let row := [CI a; g; ro; CI b; depth] in
  field t "g" row = Ok g /\ field t "ro" row = Ok ro /\ field t "depth" row = Ok depth.
Proof. repeat split; reflexivity. Qed.
Theorem init_ok h d dirs freqs times nsec npts g ro depth : d_open d = true ->
  headings_in h (d_group d) dirs freqs times -> counted h (d_group d) "WSECTION" nsec -> counted h (d_group d) "WFKPOINT" npts ->
  global_in h (d_group d) g ro depth ->
  exists x, hydro_init h d = Ok x /\ hy_data x = d /\ firsts dirs (hy_dirs x) /\ firsts freqs (hy_freqs x) /\ increasing times (hy_times x) /\
    hy_nsections x = nsec /\ hy_npoints x = npts /\ hy_g x = g /\ hy_ro x = ro /\ hy_depth x = depth.
Proof.
  intros Ho (rows & ds & fs & ts & H & HD & HF & HT) H1 H2 (a & b & more & HG). unfold hydro_init.
  rewrite (holds_table _ _ _ _ Ho H). cbn [rbind c_arrs]. rewrite (seconds_ok _ _ HF). cbn [rbind].
  destruct (firsts_ok freqs) as (of & -> & Pf). cbn [rbind]. rewrite (seconds_ok _ _ HD). cbn [rbind].
  destruct (firsts_ok dirs) as (od & -> & Pd). cbn [rbind]. rewrite (seconds_ok _ _ HT). cbn [rbind].
  rewrite (counted_ok _ _ _ _ Ho H1), (counted_ok _ _ _ _ Ho H2). cbn [rbind].
  rewrite (holds_record0 _ _ _ _ _ Ho HG). cbn [rbind t_rows].
  change (pyget ([CI a; g; ro; CI b; depth] :: more) 0) with (Ok [CI a; g; ro; CI b; depth] : Res (list cell)). cbn [rbind].
  destruct (global_fields ([CI a; g; ro; CI b; depth] :: more) g ro depth a b) as (-> & -> & ->). cbn [rbind].
  eexists. split; [reflexivity|]. cbn. repeat split; auto; apply increasing_ok.
Qed.

(** ** Grids *)
Lemma prod_nth {A B} (ds : list A) (fs : list B) i j x y : nth_error ds i = Some x -> nth_error fs j = Some y ->
  nth_error (list_prod ds fs) (i * length fs + j) = Some (x, y).
Proof.
  revert i. induction ds as [|d ds IH]; intros [|i] Hi Hj; cbn in Hi; try discriminate; cbn [list_prod].
  - injection Hi as ->. cbn [Nat.mul Nat.add]. rewrite nth_error_app1 by (rewrite map_length; apply nth_error_Some; congruence). rewrite nth_error_map, Hj. reflexivity.
  - assert (j < length fs)%nat by (apply nth_error_Some; congruence).
    rewrite nth_error_app2 by (rewrite map_length; lia). rewrite map_length. replace (S i * length fs + j - length fs)%nat with (i * length fs + j)%nat by lia. auto.
Qed.
Lemma prod_split {A B} (ds : list A) (fs : list B) k p : nth_error (list_prod ds fs) k = Some p ->
  exists i j, k = (i * length fs + j)%nat /\ (j < length fs)%nat /\ nth_error ds i = Some (fst p) /\ nth_error fs j = Some (snd p).
Proof.
  intro H. assert (HK : (k < length ds * length fs)%nat) by (rewrite <- prod_length; apply nth_error_Some; congruence).
  assert (NZ : length fs <> 0%nat) by nia. exists (k / length fs)%nat, (k mod length fs)%nat.
  assert (E : k = (k / length fs * length fs + k mod length fs)%nat) by (rewrite Nat.mul_comm; apply Nat.div_mod; exact NZ).
  pose proof (Nat.mod_upper_bound k (length fs) NZ) as U. split; [exact E|]. split; [exact U|].
  assert (L : (k / length fs < length ds)%nat) by (apply Nat.div_lt_upper_bound; [exact NZ|nia]).
  destruct (nth_error ds (k / length fs)) as [x|] eqn:E1; [|apply nth_error_None in E1; lia].
  destruct (nth_error fs (k mod length fs)) as [y|] eqn:E2; [|apply nth_error_None in E2; lia].
  pose proof (prod_nth ds fs _ _ _ _ E1 E2) as G. rewrite <- E in G. rewrite G in H. injection H as <-. split; reflexivity.
Qed.
Lemma pairwise_nth l i j x y : pairwise l -> (i < j)%nat -> nth_error l i = Some x -> nth_error l j = Some y -> ~ same x y.
Proof.
  intro H. revert i j. induction H as [|a l HF HP IH]; intros i j Hij Hi Hj; [destruct i; discriminate|].
  destruct j as [|j]; [lia|]. cbn in Hj. destruct i as [|i]; cbn in Hi.
  - injection Hi as <-. rewrite Forall_forall in HF. apply HF. eapply nth_error_In; exact Hj.
  - apply (IH i j); [lia|assumption..].
Qed.
Lemma sorted_mul n : (0 < n)%nat -> forall m s, StronglySorted lt (map (fun k => (k * n)%nat) (seq s m)).
Proof.
  intros Hn m. induction m as [|m IH]; intro s; cbn [seq map]; constructor; [apply IH|]. rewrite Forall_map. apply Forall_forall. intros k Hk. apply in_seq in Hk. nia.
Qed.
Lemma firsts_outer (ds fs : list flt) : fs <> [] -> pairwise ds -> firsts (map fst (list_prod ds fs)) ds.
Proof.
  intros Hn HP. assert (Hn' : (0 < length fs)%nat) by (destruct fs; [congruence|cbn; lia]).
  destruct fs as [|f0' fs'] eqn:EF; [congruence|]. rewrite <- EF in *. assert (E0 : nth_error fs 0 = Some f0') by now rewrite EF. clear EF.
  exists (map (fun k => (k * length fs)%nat) (seq 0 (length ds))). split; [apply sorted_mul; exact Hn'|]. split.
  - assert (G : forall ps s, (forall k x, nth_error ps k = Some x -> nth_error ds (s + k) = Some x) ->
      Forall2 (fun i x => nth_error (map fst (list_prod ds fs)) i = Some x) (map (fun k => (k * length fs)%nat) (seq s (length ps))) ps).
    { induction ps as [|p ps IH]; intros s Hs; cbn [length seq map]; constructor.
      - rewrite nth_error_map. specialize (Hs 0%nat p eq_refl). rewrite Nat.add_0_r in Hs. rewrite <- (Nat.add_0_r (s * length fs)). rewrite (prod_nth ds fs s 0 p f0' Hs E0). reflexivity.
      - apply IH. intros k x Hk. specialize (Hs (S k) x Hk). now rewrite Nat.add_succ_r in Hs. }
    apply (G ds 0%nat). auto.
  - intros p x Hp. rewrite nth_error_map in Hp. destruct (nth_error (list_prod ds fs) p) as [q|] eqn:Eq; [|discriminate]. injection Hp as <-.
    destruct (prod_split ds fs p q Eq) as (i & j & -> & Hj & Hi & Hy). rewrite in_map_iff. split.
    + intros (k & E & Hk). assert (k = i) as -> by nia. intros p' y Hp' Hy'. rewrite nth_error_map in Hy'.
      destruct (nth_error (list_prod ds fs) p') as [q'|] eqn:Eq'; [|discriminate]. injection Hy' as <-.
      destruct (prod_split ds fs p' q' Eq') as (i' & j' & -> & Hj' & Hi' & _). apply (pairwise_nth ds i' i); [exact HP|nia|assumption..].
    + intro H. exists i. split; [|apply in_seq; split; [lia|]; apply nth_error_Some; congruence].
      destruct j as [|j]; [lia|]. exfalso. apply (H (i * length fs + 0)%nat (fst q)); [lia| |apply same_refl].
      rewrite nth_error_map. rewrite (prod_nth ds fs i 0 _ _ Hi E0). reflexivity.
Qed.
Lemma firsts_inner (ds fs : list flt) : ds <> [] -> pairwise fs -> firsts (map snd (list_prod ds fs)) fs.
Proof.
  intros Hn HP. destruct ds as [|d0 ds'] eqn:ED; [congruence|]. rewrite <- ED in *. assert (E0 : nth_error ds 0 = Some d0) by now rewrite ED. clear ED Hn.
  exists (seq 0 (length fs)). split; [apply sorted_seq|]. split.
  - assert (G : forall ps s, (forall k x, nth_error ps k = Some x -> nth_error fs (s + k) = Some x) ->
      Forall2 (fun i x => nth_error (map snd (list_prod ds fs)) i = Some x) (seq s (length ps)) ps).
    { induction ps as [|p ps IH]; intros s Hs; cbn [length seq]; constructor.
      - rewrite nth_error_map. specialize (Hs 0%nat p eq_refl). rewrite Nat.add_0_r in Hs. pose proof (prod_nth ds fs 0 s _ _ E0 Hs) as G. cbn [Nat.mul Nat.add] in G. now rewrite G.
      - apply IH. intros k x Hk. specialize (Hs (S k) x Hk). now rewrite Nat.add_succ_r in Hs. }
    apply (G fs 0%nat). auto.
  - intros p x Hp. rewrite nth_error_map in Hp. destruct (nth_error (list_prod ds fs) p) as [q|] eqn:Eq; [|discriminate]. injection Hp as <-.
    destruct (prod_split ds fs p q Eq) as (i & j & -> & Hj & Hi & Hy). rewrite in_seq. split.
    + intros [_ L]. cbn in L. assert (i = 0)%nat as -> by nia. intros p' y Hp' Hy'. rewrite nth_error_map in Hy'.
      destruct (nth_error (list_prod ds fs) p') as [q'|] eqn:Eq'; [|discriminate]. injection Hy' as <-.
      destruct (prod_split ds fs p' q' Eq') as (i' & j' & -> & Hj' & _ & Hy''). assert (i' = 0)%nat as -> by nia. apply (pairwise_nth fs j' j); [exact HP|lia|assumption..].
    + intro H. split; [lia|]. cbn. destruct i as [|i]; [nia|]. exfalso. apply (H (0 * length fs + j)%nat (snd q)); [nia| |apply same_refl].
      rewrite nth_error_map. rewrite (prod_nth ds fs 0 j _ _ E0 Hy). reflexivity.
Qed.
(** The k-th reference of a grid. *)
Lemma grid_nth rs ds fs i j x y : grid rs ds fs -> nth_error ds i = Some x -> nth_error fs j = Some y ->
  exists w, nth_error rs (i * length fs + j) = Some w /\ w_dir w = x /\ w_freq w = y.
Proof.
  intros (H & _) Hi Hj. pose proof (prod_nth ds fs i j x y Hi Hj) as G. rewrite <- H, nth_error_map in G.
  destruct (nth_error rs _) as [w|]; [|discriminate]. injection G as <- <-. now exists w.
Qed.
Lemma grid_length rs ds fs : grid rs ds fs -> length rs = (length ds * length fs)%nat.
Proof. intros (H & _). rewrite <- (map_length (fun r => (w_dir r, w_freq r)) rs), H. apply prod_length. Qed.

(** ** Bodies *)
Section Body.
  Variables (h : h5) (x : hydro).
  Let d := hy_data x.
  Let w := d_group d.
  Hypothesis Ho : d_open d = true.

  Lemma ibcond_ok bs b i : bodies_in h w bs -> body_cond bs b i -> get_ibcond h x b = Ok i.
  Proof.
    intros (rows & arr & H & HF) (l1 & l2 & -> & Hn). unfold get_ibcond. fold d. rewrite (holds_record1 _ _ _ _ _ Ho H). cbn [rbind].
    set (t := mkTab (descr_of "WBODCON") rows).
    apply Forall2_app_inv_l in HF as (r1 & r2 & HF1 & HF2 & E). inversion HF2 as [|? row ? r3 Hr HF3]; subst.
    assert (Fi : forall c row, (exists a e s1 s2, row = [CI a; CI (snd c); CI (fst c); CI e; CI s1; CI s2]) -> int_is t "ibody" b row = Ok (fst c =? b) /\ ifield t "ibcond" row = Ok (snd c)).
    { intros c r (a & e & s1 & s2 & ->). split; reflexivity. }
    unfold getrow. change (t_rows t) with (r1 ++ row :: r3). clearbody t.
    assert (G : forall l r, Forall2 (fun (c : Z * Z) row => exists a e s1 s2, row = [CI a; CI (snd c); CI (fst c); CI e; CI s1; CI s2]) l r -> exists out, rfilter (int_is t "ibody" b) r = Ok out).
    { induction 1 as [|c r l l' Hc HF IH]; [exists []; reflexivity|]. destruct IH as (out & IH). cbn [rfilter]. destruct (Fi c r Hc) as [-> _]. cbn [rbind]. rewrite IH. cbn [rbind]. eexists. reflexivity. }
    assert (G2 : exists out, rfilter (int_is t "ibody" b) (r1 ++ row :: r3) = Ok (row :: out)).
    { clear H HF2. revert HF1. revert r1. induction l1 as [|c l1 IH]; intros r1 HF1; inversion HF1 as [|? r ? r1' Hc HF1']; subst; cbn [app rfilter].
      - destruct (Fi (b, i) row Hr) as [E _]. cbn [fst] in E. rewrite E, Z.eqb_refl. cbn [rbind]. destruct (G _ _ HF3) as (out & ->). exists out. reflexivity.
      - destruct (Fi c r Hc) as [-> _]. cbn [rbind]. cbn in Hn. destruct (Z.eqb_spec (fst c) b); [tauto|]. destruct (IH ltac:(tauto) r1' HF1') as (out & IH'). exists out. rewrite IH'. reflexivity. }
    destruct G2 as (out & ->). cbn [rbind]. destruct (Fi (b, i) row Hr) as [_ E]. exact E.
  Qed.
  Lemma ibcond_unknown bs b : bodies_in h w bs -> ~ In b (map fst bs) -> get_ibcond h x b = Err ConditionError.
  Proof.
    intros (rows & arr & H & HF) Hn. unfold get_ibcond. fold d. rewrite (holds_record1 _ _ _ _ _ Ho H). cbn [rbind].
    unfold getrow. set (t := mkTab (descr_of "WBODCON") rows). cbn [t_rows t].
    assert (G : rfilter (int_is t "ibody" b) rows = Ok []); [|now rewrite G].
    unfold t. generalize rows at 1. intro rr. clear H. induction HF as [|c r l l' (a & e & s1 & s2 & ->) HF IH]; [reflexivity|]. cbn in Hn. cbn [rfilter].
    change (int_is (mkTab (descr_of "WBODCON") rr) "ibody" b [CI a; CI (snd c); CI (fst c); CI e; CI s1; CI s2]) with (Ok (fst c =? b) : Res bool). cbn [rbind].
    destruct (Z.eqb_spec (fst c) b); [tauto|]. rewrite IH by tauto. reflexivity.
  Qed.
End Body.

Lemma flat_plain l : Forall plain l -> flat_map flat_cell l = l.
Proof. induction 1 as [|c l H HF IH]; [reflexivity|]. cbn. rewrite IH. destruct c; try reflexivity. destruct H. Qed.
Lemma flat_lengths {A B} (f : A -> list B) n l : (forall a, In a l -> length (f a) = n) -> length (flat_map f l) = (length l * n)%nat.
Proof. induction l as [|a l IH]; intro H; [reflexivity|]. cbn. rewrite app_length, H by (now left). rewrite IH; [lia|]. intros b Hb. apply H. now right. Qed.
(** Records chosen by a whole number *)
Lemma rfilter_rel {A} (P : A -> list cell -> Prop) (q : list cell -> Res bool) (p : A -> bool) rs rows : (forall r row, P r row -> q row = Ok (p r)) ->
  Forall2 P rs rows -> exists out, rfilter q rows = Ok out /\ Forall2 P (filter p rs) out.
Proof.
  intros Hq. induction 1 as [|r row rs rows Hr HF (out & E & HO)]; [exists []; split; [reflexivity|constructor]|].
  cbn [rfilter]. rewrite (Hq r row Hr). cbn [rbind]. rewrite E. cbn [rbind]. eexists. split; [reflexivity|]. cbn [filter]. destruct (p r); [constructor; assumption|assumption].
Qed.
Lemma rmap_rel {A B} (P : A -> list cell -> Prop) (q : list cell -> Res B) (g : A -> B) rs rows : (forall r row, P r row -> q row = Ok (g r)) ->
  Forall2 P rs rows -> rmap q rows = Ok (map g rs).
Proof. intros Hq. induction 1 as [|r row rs rows Hr HF IH]; [reflexivity|]. cbn [rmap map]. now rewrite (Hq r row Hr), IH. Qed.
Lemma Forall2_length' {A B} (P : A -> B -> Prop) l l' : Forall2 P l l' -> length l' = length l.
Proof. induction 1; cbn; congruence. Qed.
Lemma column_rel {A} (P : A -> list cell -> Prop) t n ty (g : A -> cell) rs rows : sget n (t_descr t) = Some ty ->
  (forall r row, P r row -> field t n row = Ok (g r)) -> Forall2 P rs rows ->
  column t rows n = Ok (mkNd (length rs :: shape_of ty) (flat_map flat_cell (map g rs))).
Proof.
  intros E Hq HF. unfold column. rewrite E, (rmap_rel P _ g _ _ Hq HF). cbn [rbind]. now rewrite (Forall2_length' _ _ _ HF).
Qed.
Lemma flat_map_map {A B C} (f : B -> list C) (g : A -> B) l : flat_map f (map g l) = flat_map (fun a => f (g a)) l.
Proof. induction l as [|a l IH]; [reflexivity|]. cbn. now rewrite IH. Qed.
Lemma flat_map_ext_in {A B} (f g : A -> list B) l : (forall a, In a l -> f a = g a) -> flat_map f l = flat_map g l.
Proof. induction l as [|a l IH]; intro H; [reflexivity|]. cbn. rewrite H by now left. rewrite IH; [reflexivity|]. intros b Hb. apply H. now right. Qed.
Lemma Forall2_In_l {A B} (P : A -> B -> Prop) l l' a : Forall2 P l l' -> In a l -> exists b, In b l' /\ P a b.
Proof. induction 1 as [|x y l l' H HF IH]; intros Ha; [destruct Ha|]. destruct Ha as [<-|Ha]; [exists y; split; [now left|exact H]|]. destruct (IH Ha) as (b & Hb & K). exists b. split; [now right|exact K]. Qed.

(** ** Motions, excitation forces and drift forces *)
Section Responses.
  Variables (h : h5) (x : hydro).
  Let d := hy_data x.
  Let w := d_group d.
  Hypothesis Ho : d_open d = true.
  Hypothesis Hf : hy_freqs x <> [].

  Lemma domain_ok : assert_domaintype x "frequency" = Ok tt.
  Proof. unfold assert_domaintype, check_isopen. fold d. rewrite Ho. cbn [rbind]. unfold domaintype. destruct (hy_freqs x); [congruence|reflexivity]. Qed.

  Variables (bs : list (Z * Z)) (b i : Z).
  Hypothesis HB : bodies_in h w bs.
  Hypothesis Hi : body_cond bs b i.
  Hypothesis Hb : b <> 0.

  Section One.
    Variables (rec fld : string) (n : nat) (rs mine : list resp).
    Hypothesis HK : response rec fld n.
    Hypothesis HR : responses_in h w rec n rs.
    Hypothesis HM : subseq (fun r => r_cond r = i) rs mine.

    Lemma response_column : get_results h x rec (Some b) fld = Ok (mkNd [length mine; n] (flat_map r_comps mine)) /\ (forall r, In r mine -> length (r_comps r) = n).
    Proof.
      destruct HR as (rows & H & HF). unfold get_results, result_rows. fold d. rewrite (holds_record0 _ _ _ _ _ Ho H). cbn [rbind].
      destruct (Z.eqb_spec b 0); [contradiction|]. rewrite (ibcond_ok h x Ho bs b i HB Hi). cbn [rbind t_rows].
      set (t := mkTab (descr_of rec) rows).
      assert (F : forall r row, resp_row rec n r row -> int_is t "ibcond" i row = Ok (r_cond r =? i) /\ field t fld row = Ok (CV (r_comps r))).
      { intros r row (_ & _ & a & c & ->). destruct HK; split; reflexivity. }
      destruct (rfilter_rel (resp_row rec n) (int_is t "ibcond" i) (fun r => r_cond r =? i) rs rows ltac:(intros r row Hr; apply F; exact Hr) HF) as (out & -> & HO).
      cbn [rbind].
      rewrite (subseq_filter (fun r => r_cond r = i) (fun r => r_cond r =? i) rs mine ltac:(intro; apply Z.eqb_eq) HM) in HO.
      assert (L : forall r, In r mine -> length (r_comps r) = n /\ Forall plain (r_comps r)).
      { intros r Hr. destruct (Forall2_In_l _ _ _ r HO Hr) as (row & _ & K1 & K2 & _). auto. }
      split; [|intros r Hr; now apply L].
      assert (S : exists ty, sget fld (descr_of rec) = Some ty /\ shape_of ty = [n]) by (destruct HK; eexists; split; reflexivity).
      destruct S as (ty & S1 & S2).
      rewrite (column_rel (resp_row rec n) t fld ty (fun r => CV (r_comps r)) mine out S1 ltac:(intros r row Hr; apply F; exact Hr) HO).
      rewrite S2. do 2 f_equal. rewrite flat_map_map. apply flat_map_ext_in. intros r Hr. cbn [flat_cell]. apply flat_plain. now apply L.
    Qed.
    Lemma n_pos : (0 < n)%nat.
    Proof. destruct HK; lia. Qed.
    Theorem response_ok : length mine = (ndirs x * nfreqs x)%nat ->
      exists a, get_response h x rec fld n b = Ok a /\ n_shape a = [n; ndirs x; nfreqs x] /\
        forall k p q, (k < n)%nat -> (p < ndirs x)%nat -> (q < nfreqs x)%nat ->
          exists r, nth_error mine (p * nfreqs x + q) = Some r /\ at_ a [k; p; q] = nth_error (r_comps r) k.
    Proof.
      intro HL. destruct response_column as [E L]. unfold get_response. rewrite domain_ok. cbn [rbind]. rewrite E. cbn [rbind].
      unfold set_shape. cbn [n_shape size fold_right].
      assert (EQ : Nat.eqb (length mine * (n * 1)) (ndirs x * (nfreqs x * (n * 1))) = true) by (apply Nat.eqb_eq; rewrite HL; lia).
      rewrite EQ. cbn [rbind n_flat]. eexists. split; [reflexivity|]. split; [reflexivity|]. intros k p q Hk Hp Hq.
      assert (LF : length (flat_map r_comps mine) = (ndirs x * (nfreqs x * (n * 1)))%nat) by (rewrite (flat_lengths _ n _ L), HL; lia).
      destruct (roll3 (flat_map r_comps mine) (ndirs x) (nfreqs x) n p q k LF Hp Hq Hk) as [_ ->].
      destruct (nth_error mine (p * nfreqs x + q)) as [r|] eqn:Er; [|apply nth_error_None in Er; nia].
      exists r. split; [reflexivity|]. now apply (nth_blocks r_comps n).
    Qed.
    Theorem response_count : length mine <> (ndirs x * nfreqs x)%nat -> get_response h x rec fld n b = Err ValueError.
    Proof.
      intro HL. destruct response_column as [E L]. unfold get_response. rewrite domain_ok. cbn [rbind]. rewrite E. cbn [rbind].
      unfold set_shape. cbn [n_shape size fold_right]. pose proof n_pos.
      assert (EQ : Nat.eqb (length mine * (n * 1)) (ndirs x * (nfreqs x * (n * 1))) = false) by (apply Nat.eqb_neq; nia).
      now rewrite EQ.
    Qed.
  End One.

  (** Section forces *)
  Section Sections.
    Variables (rs mine : list (Z * resp)).
    Hypothesis HR : sforces_in h w rs.
    Hypothesis HM : subseq (fun sr => r_cond (snd sr) = i) rs mine.
    Lemma section_column : get_results h x "W1SFORCE" (Some b) "data" = Ok (mkNd [length mine; 6%nat] (flat_map (fun sr => r_comps (snd sr)) mine)) /\
      (forall r, In r mine -> length (r_comps (snd r)) = 6%nat).
    Proof.
      destruct HR as (rows & H & HF). unfold get_results, result_rows. fold d. rewrite (holds_record0 _ _ _ _ _ Ho H). cbn [rbind].
      destruct (Z.eqb_spec b 0); [contradiction|]. rewrite (ibcond_ok h x Ho bs b i HB Hi). cbn [rbind t_rows].
      set (t := mkTab (descr_of "W1SFORCE") rows).
      match type of HF with Forall2 ?Q _ _ => set (P := Q) in * end.
      assert (F : forall r row, P r row -> int_is t "ibcond" i row = Ok (r_cond (snd r) =? i) /\ field t "data" row = Ok (CV (r_comps (snd r)))).
      { intros r row (_ & _ & a & c & ->). split; reflexivity. }
      destruct (rfilter_rel P (int_is t "ibcond" i) (fun r => r_cond (snd r) =? i) rs rows ltac:(intros r row Hr; apply F; exact Hr) HF) as (out & -> & HO).
      cbn [rbind].
      rewrite (subseq_filter (fun r => r_cond (snd r) = i) (fun r => r_cond (snd r) =? i) rs mine ltac:(intro; apply Z.eqb_eq) HM) in HO.
      assert (L : forall r, In r mine -> length (r_comps (snd r)) = 6%nat /\ Forall plain (r_comps (snd r))).
      { intros r Hr. destruct (Forall2_In_l _ _ _ r HO Hr) as (row & _ & K1 & K2 & _). auto. }
      split; [|intros r Hr; now apply L].
      rewrite (column_rel P t "data" (TV 6 TC) (fun r => CV (r_comps (snd r))) mine out eq_refl ltac:(intros r row Hr; apply F; exact Hr) HO).
      cbn [shape_of]. do 2 f_equal. rewrite flat_map_map. apply flat_map_ext_in. intros r Hr. cbn [flat_cell]. apply flat_plain. now apply L.
    Qed.
    Theorem sectionforce_ok : length mine = (hy_nsections x * (ndirs x * nfreqs x))%nat ->
      exists a, get_sectionforce_raos h x b = Ok a /\ n_shape a = [hy_nsections x; 6%nat; ndirs x; nfreqs x] /\
        forall s k p q, (s < hy_nsections x)%nat -> (k < 6)%nat -> (p < ndirs x)%nat -> (q < nfreqs x)%nat ->
          exists r, nth_error mine (s * (ndirs x * nfreqs x) + (p * nfreqs x + q)) = Some r /\ at_ a [s; k; p; q] = nth_error (r_comps (snd r)) k.
    Proof.
      intro HL. destruct section_column as [E L]. unfold get_sectionforce_raos. rewrite domain_ok. cbn [rbind]. rewrite E. cbn [rbind].
      unfold set_shape. cbn [n_shape size fold_right].
      assert (EQ : Nat.eqb (length mine * (6 * 1)) (hy_nsections x * (ndirs x * (nfreqs x * (6 * 1)))) = true) by (apply Nat.eqb_eq; rewrite HL; lia).
      rewrite EQ. cbn [rbind n_flat]. eexists. split; [reflexivity|]. split; [reflexivity|]. intros s k p q Hs Hk Hp Hq.
      assert (LF : length (flat_map (fun sr => r_comps (snd sr)) mine) = (hy_nsections x * (ndirs x * (nfreqs x * (6 * 1))))%nat) by (rewrite (flat_lengths _ 6%nat _ L), HL; lia).
      destruct (roll4 (flat_map (fun sr => r_comps (snd sr)) mine) (hy_nsections x) (ndirs x) (nfreqs x) 6 s p q k LF Hs Hp Hq Hk) as [_ ->].
      replace (((s * ndirs x + p) * nfreqs x + q) * 6 + k)%nat with ((s * (ndirs x * nfreqs x) + (p * nfreqs x + q)) * 6 + k)%nat by lia.
      destruct (nth_error mine (s * (ndirs x * nfreqs x) + (p * nfreqs x + q))) as [r|] eqn:Er; [|apply nth_error_None in Er; exfalso; rewrite HL in Er].
      - exists r. split; [reflexivity|]. exact (nth_blocks (fun sr => r_comps (snd sr)) 6 mine _ k r L Er Hk).
      - assert (p * nfreqs x + q < ndirs x * nfreqs x)%nat by nia. nia.
    Qed.
    Theorem sectionforce_count : length mine <> (hy_nsections x * (ndirs x * nfreqs x))%nat -> get_sectionforce_raos h x b = Err ValueError.
    Proof.
      intro HL. destruct section_column as [E L]. unfold get_sectionforce_raos. rewrite domain_ok. cbn [rbind]. rewrite E. cbn [rbind].
      unfold set_shape. cbn [n_shape size fold_right].
      assert (EQ : Nat.eqb (length mine * (6 * 1)) (hy_nsections x * (ndirs x * (nfreqs x * (6 * 1)))) = false) by (apply Nat.eqb_neq; nia).
      now rewrite EQ.
    Qed.
  End Sections.
End Responses.
