(** * HydroGrid: entries of the arrays by direction and frequency, when there is
    one result reference for each, directions outermost. *)
From Coq Require Import Sorted Permutation.
From Verif Require Import Base Flt H5 Schema StoreSpec ParserSpec Data DataFacts StrucSpec StrucRes Nd NdProofs Hydro HydroSpec FltOrder HydroUnique HydroProofs HydroMore.
Open Scope string_scope.
Open Scope Z_scope.
Open Scope list_scope.
Open Scope monad_scope.

Lemma Forall2_map_eq {A B} (P : A -> B -> Prop) (f : A -> B) l l' : Forall2 P l l' -> (forall a b, P a b -> f a = b) -> map f l = l'.
Proof. intros H HP. induction H; [reflexivity|]. cbn. f_equal; auto. Qed.
Lemma Forall2_map_l {A B C} (P : B -> C -> Prop) (f : A -> B) l l' : Forall2 P (map f l) l' <-> Forall2 (fun a => P (f a)) l l'.
Proof.
  revert l'. induction l as [|a l IH]; intro l'; split; intro H; inversion H; subst; constructor; auto; now apply IH.
Qed.
(** The references give the headings. *)
Lemma refs_headings h w rs : wrefs_in h w rs -> exists times, headings_in h w (map w_dir rs) (map w_freq rs) times.
Proof.
  intros (rows & dirs & freqs & times & H & HT & _ & HD & HF).
  assert (exists ts, Forall2 (fun x c => exists a, c = CV [CF a; CF x]) ts times) as (ts & Hts).
  { clear H. induction HT as [|c l (a & b & ->) HT (ts & IH)]; [exists []; constructor|]. exists (b :: ts). constructor; [now exists a|exact IH]. }
  exists ts, rows, dirs, freqs, times. split; [exact H|]. rewrite !Forall2_map_l. auto.
Qed.
Lemma grid_firsts rs ds fs : grid rs ds fs -> ds <> [] -> fs <> [] -> firsts (map w_dir rs) ds /\ firsts (map w_freq rs) fs.
Proof.
  intros (H & HD & HF & _) Hd Hf.
  replace (map w_dir rs) with (map fst (list_prod ds fs)) by (rewrite <- H, map_map; reflexivity).
  replace (map w_freq rs) with (map snd (list_prod ds fs)) by (rewrite <- H, map_map; reflexivity).
  split; [now apply firsts_outer|now apply firsts_inner].
Qed.
(** The object made from a file with a grid of references has its axes. *)
Theorem grid_axes h d rs ds fs x : d_open d = true -> wrefs_in h (d_group d) rs -> grid rs ds fs -> ds <> [] -> fs <> [] ->
  hydro_init h d = Ok x -> hy_data x = d /\ hy_dirs x = ds /\ hy_freqs x = fs.
Proof.
  intros Ho HW HG Hd Hf E. destruct (refs_headings _ _ _ HW) as (times & (rows & dd & ff & tt_ & H & HD & HF & HT)). unfold hydro_init in E.
  rewrite (holds_table _ _ _ _ Ho H) in E. cbn [rbind c_arrs] in E. rewrite (seconds_ok _ _ HF) in E. cbn [rbind] in E.
  destruct (firsts_ok (map w_freq rs)) as (of & E1 & Pf). rewrite E1 in E. cbn [rbind] in E. rewrite (seconds_ok _ _ HD) in E. cbn [rbind] in E.
  destruct (firsts_ok (map w_dir rs)) as (od & E2 & Pd). rewrite E2 in E. cbn [rbind] in E. rewrite (seconds_ok _ _ HT) in E. cbn [rbind] in E.
  destruct (grid_firsts _ _ _ HG Hd Hf) as [Gd Gf]. pose proof (firsts_fun _ _ _ Pf Gf). pose proof (firsts_fun _ _ _ Pd Gd). subst.
  repeat match type of E with (rbind ?m _ = _) => destruct m; cbn [rbind] in E; [|discriminate] end. injection E as <-. auto.
Qed.

Section Grid.
  Variables (h : h5) (x : hydro) (rs : list wref) (ds fs : list flt).
  Let d := hy_data x.
  Let w := d_group d.
  Hypothesis Ho : d_open d = true.
  Hypothesis HG : grid rs ds fs.
  Hypothesis Hd : hy_dirs x = ds.
  Hypothesis Hf : hy_freqs x = fs.
  Hypothesis Hfs : fs <> [].
  Lemma nonempty : hy_freqs x <> [].
  Proof. now rewrite Hf. Qed.
  Lemma nd_ : ndirs x = length ds. Proof. unfold ndirs. now rewrite Hd. Qed.
  Lemma nf_ : nfreqs x = length fs. Proof. unfold nfreqs. now rewrite Hf. Qed.
  Lemma ref_at p q : (p < ndirs x)%nat -> (q < nfreqs x)%nat -> exists dir fr ref, nth_error (hy_dirs x) p = Some dir /\ nth_error (hy_freqs x) q = Some fr /\
    nth_error rs (p * nfreqs x + q) = Some ref /\ w_dir ref = dir /\ w_freq ref = fr.
  Proof.
    intros Hp Hq. rewrite Hd, Hf, nf_. destruct (nth_error ds p) as [dir|] eqn:E1; [|apply nth_error_None in E1; rewrite nd_ in Hp; lia].
    destruct (nth_error fs q) as [fr|] eqn:E2; [|apply nth_error_None in E2; rewrite nf_ in Hq; lia].
    destruct (grid_nth _ _ _ p q dir fr HG E1 E2) as (ref & E3 & E4 & E5). now exists dir, fr, ref.
  Qed.
  Lemma refs_count : length rs = (ndirs x * nfreqs x)%nat.
  Proof. rewrite nd_, nf_. now apply grid_length. Qed.
  (** The record of a reference, among records in the order of the references *)
  Lemma of_ref {A} (f : A -> Z) (mine : list A) k a ref : map f mine = map w_ires rs -> nth_error mine k = Some a -> nth_error rs k = Some ref -> f a = w_ires ref.
  Proof. intros H Ha Hr. apply (f_equal (fun l => nth_error l k)) in H. rewrite !nth_error_map, Ha, Hr in H. cbn in H. congruence. Qed.

  Variables (bs : list (Z * Z)) (b i : Z).
  Hypothesis HB : bodies_in h w bs.
  Hypothesis Hi : body_cond bs b i.
  Hypothesis Hb : b <> 0.

  (** [at_heading p q ref]: the reference of the p-th direction and q-th frequency *)
  Definition at_heading (p q : nat) (ref : wref) : Prop :=
    In ref rs /\ nth_error (hy_dirs x) p = Some (w_dir ref) /\ nth_error (hy_freqs x) q = Some (w_freq ref).

  Theorem response_grid rec fld n all mine : response rec fld n -> responses_in h w rec n all -> subseq (fun r => r_cond r = i) all mine ->
    map r_ires mine = map w_ires rs ->
    exists a, get_response h x rec fld n b = Ok a /\ n_shape a = [n; ndirs x; nfreqs x] /\
      forall k p q, (k < n)%nat -> (p < ndirs x)%nat -> (q < nfreqs x)%nat ->
        exists ref r, at_heading p q ref /\ In r all /\ r_cond r = i /\ r_ires r = w_ires ref /\ at_ a [k; p; q] = nth_error (r_comps r) k.
  Proof.
    intros HK HR HM HO.
    assert (HL : length mine = (ndirs x * nfreqs x)%nat) by (rewrite <- refs_count, <- (map_length r_ires mine), HO, map_length; reflexivity).
    destruct (response_ok h x Ho nonempty bs b i HB Hi Hb rec fld n all mine HK HR HM HL) as (a & E & S & A).
    exists a. split; [exact E|]. split; [exact S|]. intros k p q Hk Hp Hq. destruct (A k p q Hk Hp Hq) as (r & E1 & E2).
    destruct (ref_at p q Hp Hq) as (dir & fr & ref & K1 & K2 & K3 & <- & <-). exists ref, r.
    pose proof (subseq_filter (fun r => r_cond r = i) (fun r => r_cond r =? i) all mine ltac:(intro; apply Z.eqb_eq) HM) as EM.
    pose proof (nth_error_In _ _ E1) as HIn. rewrite <- EM, filter_In, Z.eqb_eq in HIn.
    split; [split; [exact (nth_error_In _ _ K3)|now split]|]. split; [apply HIn|]. split; [apply HIn|]. split; [|exact E2].
    exact (of_ref r_ires mine _ r ref HO E1 K3).
  Qed.

  Theorem sectionforce_grid secs all mine : hy_nsections x = length secs -> sforces_in h w all -> subseq (fun sr => r_cond (snd sr) = i) all mine ->
    section_major rs secs mine ->
    exists a, get_sectionforce_raos h x b = Ok a /\ n_shape a = [length secs; 6%nat; ndirs x; nfreqs x] /\
      forall s sec k p q, nth_error secs s = Some sec -> (k < 6)%nat -> (p < ndirs x)%nat -> (q < nfreqs x)%nat ->
        exists ref r, at_heading p q ref /\ In (sec, r) all /\ r_cond r = i /\ r_ires r = w_ires ref /\ at_ a [s; k; p; q] = nth_error (r_comps r) k.
  Proof.
    intros HN HR HM HO. unfold section_major in HO.
    assert (HL : length mine = (hy_nsections x * (ndirs x * nfreqs x))%nat).
    { rewrite <- refs_count, HN, <- (map_length w_ires rs), <- prod_length, <- HO, map_length. reflexivity. }
    destruct (sectionforce_ok h x Ho nonempty bs b i HB Hi Hb all mine HR HM HL) as (a & E & S & A).
    exists a. split; [exact E|]. rewrite HN in S. split; [exact S|]. intros s sec k p q Hs Hk Hp Hq.
    assert (Hs' : (s < hy_nsections x)%nat) by (rewrite HN; apply nth_error_Some; congruence).
    destruct (A s k p q Hs' Hk Hp Hq) as (r & E1 & E2).
    destruct (ref_at p q Hp Hq) as (dir & fr & ref & K1 & K2 & K3 & <- & <-). destruct r as [sec' r].
    assert (G : nth_error (map w_ires rs) (p * nfreqs x + q) = Some (w_ires ref)) by now rewrite nth_error_map, K3.
    pose proof (prod_nth secs (map w_ires rs) s _ _ _ Hs G) as G2. rewrite <- HO, map_length, refs_count, nth_error_map, E1 in G2. cbn in G2. injection G2 as -> G2.
    exists ref, r. pose proof (subseq_filter (fun sr => r_cond (snd sr) = i) (fun sr => r_cond (snd sr) =? i) all mine ltac:(intro; apply Z.eqb_eq) HM) as EM.
    pose proof (nth_error_In _ _ E1) as HIn. rewrite <- EM, filter_In, Z.eqb_eq in HIn.
    split; [split; [exact (nth_error_In _ _ K3)|now split]|]. split; [apply HIn|]. split; [apply HIn|]. split; [exact G2|exact E2].
  Qed.

  Lemma fluid_order pts (all : list fluid) t pt p q ref r : point_minor rs pts all -> nth_error pts t = Some pt -> nth_error rs (p * nfreqs x + q) = Some ref ->
    nth_error all ((p * nfreqs x + q) * length pts + t) = Some r -> f_ires r = w_ires ref /\ f_point r = pt.
  Proof.
    intros HO Ht K3 E1. unfold point_minor in HO.
    assert (G : nth_error (map w_ires rs) (p * nfreqs x + q) = Some (w_ires ref)) by now rewrite nth_error_map, K3.
    pose proof (prod_nth (map w_ires rs) pts _ t _ _ G Ht) as G2. rewrite <- HO, nth_error_map, E1 in G2. cbn in G2. injection G2 as G2 G3. now split.
  Qed.
  Lemma fluid_length pts all : point_minor rs pts all -> hy_npoints x = length pts -> length all = (ndirs x * nfreqs x * hy_npoints x)%nat.
  Proof. intros HO HN. unfold point_minor in HO. rewrite <- refs_count, HN, <- (map_length w_ires rs), <- prod_length, <- HO, map_length. reflexivity. Qed.
  Theorem pressure_grid divide kind pts all : In kind ["elevation"; "pressure"] -> hy_npoints x = length pts -> fluids_in h w all -> point_minor rs pts all ->
    exists a, get_fluidkinematics_raos divide h x kind = Ok a /\ n_shape a = [length pts; ndirs x; nfreqs x] /\
      forall t pt p q, nth_error pts t = Some pt -> (p < ndirs x)%nat -> (q < nfreqs x)%nat ->
        exists ref r, at_heading p q ref /\ In r all /\ f_ires r = w_ires ref /\ f_point r = pt /\
          at_ a [t; p; q] = Some (if String.eqb kind "elevation" then divide (divide (f_p r) (hy_ro x)) (hy_g x) else f_p r).
  Proof.
    intros HK HN HR HO. destruct (pressure_ok h x all Ho nonempty HR divide kind HK (fluid_length _ _ HO HN)) as (a & E & S & A).
    exists a. split; [exact E|]. rewrite HN in S. split; [exact S|]. intros t pt p q Ht Hp Hq.
    assert (Ht' : (t < hy_npoints x)%nat) by (rewrite HN; apply nth_error_Some; congruence).
    destruct (A t p q Ht' Hp Hq) as (r & E1 & E2). destruct (ref_at p q Hp Hq) as (dir & fr & ref & K1 & K2 & K3 & <- & <-).
    rewrite HN in E1. destruct (fluid_order _ _ _ _ _ _ _ _ HO Ht K3 E1) as [G2 G3].
    exists ref, r. split; [split; [exact (nth_error_In _ _ K3)|now split]|]. split; [exact (nth_error_In _ _ E1)|]. auto.
  Qed.
  Theorem velocity_grid divide pts all : hy_npoints x = length pts -> fluids_in h w all -> point_minor rs pts all ->
    exists a, get_fluidkinematics_raos divide h x "velocity" = Ok a /\ n_shape a = [length pts; 3%nat; ndirs x; nfreqs x] /\
      forall t pt k p q, nth_error pts t = Some pt -> (k < 3)%nat -> (p < ndirs x)%nat -> (q < nfreqs x)%nat ->
        exists ref r, at_heading p q ref /\ In r all /\ f_ires r = w_ires ref /\ f_point r = pt /\ at_ a [t; k; p; q] = nth_error (f_v r) k.
  Proof.
    intros HN HR HO. destruct (velocity_ok h x all Ho nonempty HR divide (fluid_length _ _ HO HN)) as (a & E & S & A).
    exists a. split; [exact E|]. rewrite HN in S. split; [exact S|]. intros t pt k p q Ht Hk Hp Hq.
    assert (Ht' : (t < hy_npoints x)%nat) by (rewrite HN; apply nth_error_Some; congruence).
    destruct (A t k p q Ht' Hk Hp Hq) as (r & E1 & E2). destruct (ref_at p q Hp Hq) as (dir & fr & ref & K1 & K2 & K3 & <- & <-).
    rewrite HN in E1. destruct (fluid_order _ _ _ _ _ _ _ _ HO Ht K3 E1) as [G2 G3].
    exists ref, r. split; [split; [exact (nth_error_In _ _ K3)|now split]|]. split; [exact (nth_error_In _ _ E1)|]. auto.
  Qed.

  Theorem panels_grid symms pans all mine : symms <> [] -> pans <> [] -> rs <> [] -> NoDup symms -> NoDup pans ->
    panels_in h w all -> subseq (fun r => p_cond r = i) all mine -> panel_minor rs symms pans mine ->
    exists a, get_panel_pressures h x b = Ok (Some a) /\ n_shape a = [length pans; length symms; ndirs x; nfreqs x] /\
      forall k pan t symm p q, nth_error pans k = Some pan -> nth_error symms t = Some symm -> (p < ndirs x)%nat -> (q < nfreqs x)%nat ->
        exists ref r, at_heading p q ref /\ In r all /\ p_cond r = i /\ p_ires r = w_ires ref /\ p_pan r = pan /\ p_symm r = symm /\ at_ a [k; t; p; q] = Some (p_p r).
  Proof.
    intros Hs Hp0 Hr Ns Np HR HM HO. unfold panel_minor in HO.
    assert (Np_ : length (unique (map p_pan mine)) = length pans).
    { apply count_unique; [exact Np|]. intro z. split.
      - intro Hz. apply in_map_iff in Hz as (r & <- & Hz). assert (G : In (p_ires r, (p_symm r, p_pan r)) (map (fun r => (p_ires r, (p_symm r, p_pan r))) mine)) by (apply in_map_iff; now exists r).
        rewrite HO, !in_prod_iff in G. tauto.
      - intro Hz. destruct rs as [|ref rs']; [congruence|]. destruct symms as [|s0 symms']; [congruence|].
        assert (G : In (w_ires ref, (s0, z)) (list_prod (map w_ires (ref :: rs')) (list_prod (s0 :: symms') pans))) by (rewrite !in_prod_iff; cbn; tauto).
        rewrite <- HO in G. apply in_map_iff in G as (r & G & Hr'). injection G as _ _ <-. apply in_map_iff. now exists r. }
    assert (Ns_ : length (unique (map p_symm mine)) = length symms).
    { apply count_unique; [exact Ns|]. intro z. split.
      - intro Hz. apply in_map_iff in Hz as (r & <- & Hz). assert (G : In (p_ires r, (p_symm r, p_pan r)) (map (fun r => (p_ires r, (p_symm r, p_pan r))) mine)) by (apply in_map_iff; now exists r).
        rewrite HO, !in_prod_iff in G. tauto.
      - intro Hz. destruct rs as [|ref rs']; [congruence|]. destruct pans as [|s0 pans']; [congruence|].
        assert (G : In (w_ires ref, (z, s0)) (list_prod (map w_ires (ref :: rs')) (list_prod symms (s0 :: pans')))) by (rewrite !in_prod_iff; cbn; tauto).
        rewrite <- HO in G. apply in_map_iff in G as (r & G & Hr'). injection G as _ <- _. apply in_map_iff. now exists r. }
    assert (HL : length mine = (ndirs x * nfreqs x * (length symms * length pans))%nat).
    { rewrite <- refs_count, <- (prod_length symms pans), <- (map_length w_ires rs), <- prod_length, <- HO, map_length. reflexivity. }
    assert (Hm : mine <> []).
    { intros ->. cbn in HL. rewrite <- refs_count in HL. destruct rs; [congruence|]. destruct symms; [congruence|]. destruct pans; [congruence|]. cbn in HL. lia. }
    destruct (panels_ok h x all mine bs b i Ho nonempty HB Hi Hb HR HM (length pans) (length symms) (eq_sym Np_) (eq_sym Ns_) Hm HL) as (a & E & S & A).
    exists a. split; [exact E|]. split; [exact S|]. intros k pan t symm p q Hk Ht Hp Hq.
    destruct (A k t p q ltac:(apply nth_error_Some; congruence) ltac:(apply nth_error_Some; congruence) Hp Hq) as (r & E1 & E2).
    destruct (ref_at p q Hp Hq) as (dir & fr & ref & K1 & K2 & K3 & <- & <-).
    assert (G : nth_error (map w_ires rs) (p * nfreqs x + q) = Some (w_ires ref)) by now rewrite nth_error_map, K3.
    pose proof (prod_nth (map w_ires rs) (list_prod symms pans) _ _ _ _ G (prod_nth symms pans t k _ _ Ht Hk)) as G2.
    rewrite <- HO, prod_length, nth_error_map, E1 in G2. cbn in G2. injection G2 as G2 G3 G4.
    exists ref, r. pose proof (subseq_filter (fun r => p_cond r = i) (fun r => p_cond r =? i) all mine ltac:(intro; apply Z.eqb_eq) HM) as EM.
    pose proof (nth_error_In _ _ E1) as HIn. rewrite <- EM, filter_In, Z.eqb_eq in HIn.
    split; [split; [exact (nth_error_In _ _ K3)|now split]|]. split; [apply HIn|]. split; [apply HIn|]. auto.
  Qed.
End Grid.

(** ** Getters of the axes *)
Lemma axes_ok period degrees x : d_open (hy_data x) = true ->
  (hy_freqs x <> [] -> get_angular_freqs x = Ok (hy_freqs x) /\ get_periods period x = Ok (map period (hy_freqs x)) /\ get_timesteps x = Err ResultError) /\
  (hy_freqs x = [] -> get_angular_freqs x = Err ResultError /\ get_periods period x = Err ResultError /\ get_timesteps x = Ok (hy_times x)) /\
  get_directions degrees x "radians" = Ok (hy_dirs x) /\ get_directions degrees x "degrees" = Ok (map degrees (hy_dirs x)) /\
  (forall u, u <> "radians" -> u <> "degrees" -> get_directions degrees x u = Err ValueError).
Proof.
  intro Ho. unfold get_angular_freqs, get_periods, get_timesteps, get_directions, assert_domaintype, check_isopen, domaintype. rewrite Ho. cbn [rbind].
  split; [|split; [|split; [|split]]].
  - intro H. destruct (hy_freqs x); [congruence|]. repeat split; reflexivity.
  - intros ->. repeat split; reflexivity.
  - reflexivity.
  - reflexivity.
  - intros u H1 H2. destruct (String.eqb_spec u "degrees"); [congruence|]. destruct (String.eqb_spec u "radians"); [congruence|reflexivity].
Qed.
(** Time domain: the frequency domain results are not available. *)
Lemma time_domain_errors divide h x : d_open (hy_data x) = true -> hy_freqs x = [] ->
  (forall rec fld n b, get_response h x rec fld n b = Err ResultError) /\ (forall b, get_sectionforce_raos h x b = Err ResultError) /\
  (forall k, get_fluidkinematics_raos divide h x k = Err ResultError) /\ (forall b, get_panel_pressures h x b = Err ResultError) /\
  (forall b, get_pressure_panel_ids h x b = Err ResultError).
Proof.
  intros Ho Hf. unfold get_response, get_sectionforce_raos, get_fluidkinematics_raos, get_panel_pressures, get_pressure_panel_ids, assert_domaintype, check_isopen, domaintype. rewrite Ho, Hf. repeat split; reflexivity.
Qed.
(** No panel pressures on the file *)
Lemma panels_none h x b : d_open (hy_data x) = true -> hy_freqs x <> [] -> h5_find (tpath (d_group (hy_data x)) "W1PANPRE") h = None ->
  get_panel_pressures h x b = Ok None /\ get_pressure_panel_ids h x b = Ok None.
Proof.
  intros Ho Hf HN. unfold get_panel_pressures, get_pressure_panel_ids. rewrite (domain_ok x Ho Hf). cbn [rbind].
  assert (G : forall f, int_results h x b f = Err NoSuchRecordError).
  { intro f. unfold int_results, get_results, result_rows, record0, get_record, check_isopen. rewrite Ho. cbn [rbind]. unfold get_child_table. unfold tpath in HN. rewrite HN. reflexivity. }
  unfold count_distinct. rewrite !G. split; reflexivity.
Qed.
(** Numbers of sections and points, and constants *)
Lemma init_data h d x : hydro_init h d = Ok x -> hy_data x = d.
Proof.
  unfold hydro_init. destruct (get_record h d "WDRESREF") as [[t arrs]|]; cbn [rbind]; [|discriminate].
  destruct arrs as [|a [|b [|c [|]]]]; try discriminate. intro E.
  repeat match type of E with (rbind ?m _ = _) => destruct m; cbn [rbind] in E; [|discriminate] end. injection E as <-. reflexivity.
Qed.
Lemma init_counts h d x n1 n2 g ro depth : d_open d = true -> hydro_init h d = Ok x ->
  (counted h (d_group d) "WSECTION" n1 -> hy_nsections x = n1) /\ (counted h (d_group d) "WFKPOINT" n2 -> hy_npoints x = n2) /\
  (global_in h (d_group d) g ro depth -> hy_g x = g /\ hy_ro x = ro /\ hy_depth x = depth).
Proof.
  intros Ho E. unfold hydro_init in E. destruct (get_record h d "WDRESREF") as [[t arrs]|]; cbn [rbind] in E; [|discriminate].
  destruct arrs as [|a0 [|b0 [|c0 [|]]]]; try discriminate.
  repeat match type of E with (rbind (match ?m with _ => _ end) _ = _) => fail 1 | (rbind ?m _ = _) => let X := fresh "X" in destruct m eqn:X; cbn [rbind] in E; [|discriminate] end.
  injection E as <-. cbn [hy_nsections hy_npoints hy_g hy_ro hy_depth]. split; [|split].
  - intro H. rewrite (counted_ok _ _ _ _ Ho H) in *. congruence.
  - intro H. rewrite (counted_ok _ _ _ _ Ho H) in *. congruence.
  - intros (u & v & more & HG). rewrite (holds_record0 _ _ _ _ _ Ho HG) in *.
    match goal with X : Ok _ = Ok ?t |- _ => injection X as <- end. cbn [t_rows] in *.
    match goal with X : pyget _ 0 = Ok _ |- _ => injection X as <- end.
    destruct (global_fields ([CI u; g; ro; CI v; depth] :: more) g ro depth u v) as (E1 & E2 & E3). cbn zeta in *.
    rewrite E1, E2, E3 in *. repeat split; congruence.
Qed.
Lemma matrix_unknown2 h x bs typ b b2 i ms : d_open (hy_data x) = true -> bodies_in h (d_group (hy_data x)) bs -> matrices_in h (d_group (hy_data x)) ms ->
  body_cond bs b i -> ~ In b2 (map fst bs) -> get_matrix h x typ b b2 = Err ConditionError.
Proof.
  intros Ho HB (rows & H & _) Hi Hn. unfold get_matrix. rewrite (holds_record0 _ _ _ _ _ Ho H). cbn [rbind]. rewrite (ibcond_ok h x Ho bs b i HB Hi). cbn [rbind]. rewrite (ibcond_unknown h x Ho bs b2 HB Hn). reflexivity.
Qed.
Lemma response_unknown h x bs rec fld n b all : d_open (hy_data x) = true -> hy_freqs x <> [] -> bodies_in h (d_group (hy_data x)) bs -> responses_in h (d_group (hy_data x)) rec n all ->
  b <> 0 -> ~ In b (map fst bs) -> get_response h x rec fld n b = Err ConditionError.
Proof.
  intros Ho Hf HB (rows & H & _) Hb Hn. unfold get_response. rewrite (domain_ok x Ho Hf). cbn [rbind]. unfold get_results, result_rows. rewrite (holds_record0 _ _ _ _ _ Ho H). cbn [rbind].
  destruct (Z.eqb_spec b 0); [contradiction|]. rewrite (ibcond_unknown h x Ho bs b HB Hn). reflexivity.
Qed.
