(** * HydroMore: fluid kinematics, panel pressures, matrices, and everything by
    direction and frequency. *)
From Coq Require Import Sorted Permutation.
From Verif Require Import Base Flt H5 Schema StoreSpec ParserSpec Data DataFacts StrucSpec StrucRes Nd NdProofs Hydro HydroSpec FltOrder HydroUnique HydroProofs.
Open Scope string_scope.
Open Scope Z_scope.
Open Scope list_scope.
Open Scope monad_scope.

Lemma flat_single {A} (f : A -> cell) l : (forall a, In a l -> plain (f a)) -> flat_map flat_cell (map f l) = map f l.
Proof. intro H. apply flat_plain. rewrite Forall_map. now apply Forall_forall. Qed.

(** ** Fluid kinematics *)
Section Fluid.
  Variables (h : h5) (x : hydro) (rs : list fluid).
  Let d := hy_data x.
  Let w := d_group d.
  Hypothesis Ho : d_open d = true.
  Hypothesis Hf : hy_freqs x <> [].
  Hypothesis HR : fluids_in h w rs.

  Lemma fluid_columns : exists t rows, result_rows h x "WFLUIDKN" None = Ok (t, rows) /\
    column t rows "p" = Ok (mkNd [length rs] (map f_p rs)) /\ column t rows "v" = Ok (mkNd [length rs; 3%nat] (flat_map f_v rs)) /\
    (forall r, In r rs -> length (f_v r) = 3%nat).
  Proof.
    destruct HR as (rows & H & HF). unfold result_rows. fold d. rewrite (holds_record0 _ _ _ _ _ Ho H). cbn [rbind t_rows].
    exists (mkTab (descr_of "WFLUIDKN") rows), rows. split; [reflexivity|].
    match type of HF with Forall2 ?Q _ _ => set (P := Q) in * end.
    assert (F : forall r row, P r row -> field (mkTab (descr_of "WFLUIDKN") rows) "p" row = Ok (f_p r) /\ field (mkTab (descr_of "WFLUIDKN") rows) "v" row = Ok (CV (f_v r))).
    { intros r row (_ & _ & _ & a & c & ->). split; reflexivity. }
    assert (L : forall r, In r rs -> plain (f_p r) /\ length (f_v r) = 3%nat /\ Forall plain (f_v r)).
    { intros r Hr. destruct (Forall2_In_l _ _ _ r HF Hr) as (row & _ & K1 & K2 & K3 & _). auto. }
    split; [|split; [|intros r Hr; now apply L]].
    - rewrite (column_rel P (mkTab (descr_of "WFLUIDKN") rows) "p" TC f_p rs rows eq_refl ltac:(intros r row Hr; apply F; exact Hr) HF). cbn [shape_of]. do 2 f_equal. apply flat_single. intros r Hr. now apply L.
    - rewrite (column_rel P (mkTab (descr_of "WFLUIDKN") rows) "v" (TV 3 TC) (fun r => CV (f_v r)) rs rows eq_refl ltac:(intros r row Hr; apply F; exact Hr) HF).
      cbn [shape_of]. do 2 f_equal. rewrite flat_map_map. apply flat_map_ext_in. intros r Hr. cbn [flat_cell]. apply flat_plain. now apply L.
  Qed.
  Lemma fluid_enter divide kind : exists t rows, get_fluidkinematics_raos divide h x kind =
    (if str_in kind ["elevation"; "pressure"] then
      dor q <- set_shape (mkNd [length rs] (map f_p rs)) [ndirs x; nfreqs x; hy_npoints x];
      let q' := rollaxis q 2 0 in
      if String.eqb kind "elevation" then Ok (nd_map (fun c => divide (divide c (hy_ro x)) (hy_g x)) q') else Ok q'
    else if String.eqb kind "velocity" then
      dor w <- set_shape (mkNd [length rs; 3%nat] (flat_map f_v rs)) [ndirs x; nfreqs x; hy_npoints x; 3%nat];
      Ok (rollaxis (rollaxis w 3 0) 3 0)
    else Err ValueError) /\ result_rows h x "WFLUIDKN" None = Ok (t, rows).
  Proof.
    destruct fluid_columns as (t & rows & E & E1 & E2 & _). exists t, rows. split; [|exact E]. unfold get_fluidkinematics_raos.
    rewrite (domain_ok x Ho Hf). cbn [rbind]. rewrite E. cbn [rbind]. rewrite E1. cbn [rbind]. rewrite E2. reflexivity.
  Qed.
  Lemma nd_map_at {A B} (f : A -> B) a idx : at_ (nd_map f a) idx = option_map f (at_ a idx).
  Proof. unfold at_, nd_map. cbn [n_shape n_flat]. destruct (inside (n_shape a) idx); [apply nth_error_map|reflexivity]. Qed.

  Theorem pressure_ok divide kind : In kind ["elevation"; "pressure"] -> length rs = (ndirs x * nfreqs x * hy_npoints x)%nat ->
    exists a, get_fluidkinematics_raos divide h x kind = Ok a /\ n_shape a = [hy_npoints x; ndirs x; nfreqs x] /\
      forall t p q, (t < hy_npoints x)%nat -> (p < ndirs x)%nat -> (q < nfreqs x)%nat ->
        exists r, nth_error rs ((p * nfreqs x + q) * hy_npoints x + t) = Some r /\
          at_ a [t; p; q] = Some (if String.eqb kind "elevation" then divide (divide (f_p r) (hy_ro x)) (hy_g x) else f_p r).
  Proof.
    intros HK HL. destruct (fluid_enter divide kind) as (t0 & rows0 & -> & _).
    assert (EQ : Nat.eqb (size [length rs]) (size [ndirs x; nfreqs x; hy_npoints x]) = true) by (apply Nat.eqb_eq; cbn [size fold_right]; rewrite HL; lia).
    unfold set_shape. cbn [n_shape n_flat]. rewrite EQ. cbn [rbind].
    assert (LF : length (map f_p rs) = (ndirs x * (nfreqs x * (hy_npoints x * 1)))%nat) by (rewrite map_length, HL; lia).
    assert (G : forall t p q, (t < hy_npoints x)%nat -> (p < ndirs x)%nat -> (q < nfreqs x)%nat ->
      exists r, nth_error rs ((p * nfreqs x + q) * hy_npoints x + t) = Some r /\ at_ (rollaxis (mkNd [ndirs x; nfreqs x; hy_npoints x] (map f_p rs)) 2 0) [t; p; q] = Some (f_p r)).
    { intros t p q Ht Hp Hq. destruct (roll3 (map f_p rs) (ndirs x) (nfreqs x) (hy_npoints x) p q t LF Hp Hq Ht) as [_ ->]. rewrite nth_error_map.
      destruct (nth_error rs ((p * nfreqs x + q) * hy_npoints x + t)) as [r|] eqn:Er; [exists r; split; reflexivity|].
      apply nth_error_None in Er. exfalso. assert (p * nfreqs x + q < ndirs x * nfreqs x)%nat by nia. nia. }
    destruct HK as [<-|[<-|[]]]; cbn [str_in String.eqb Ascii.eqb Bool.eqb orb existsb]; (eexists; split; [reflexivity|]; split; [reflexivity|]); intros t p q Ht Hp Hq.
    - destruct (G t p q Ht Hp Hq) as (r & E1 & E2). exists r. split; [exact E1|]. rewrite nd_map_at, E2. reflexivity.
    - destruct (G t p q Ht Hp Hq) as (r & E1 & E2). exists r. split; [exact E1|]. exact E2.
  Qed.
  Theorem velocity_ok divide : length rs = (ndirs x * nfreqs x * hy_npoints x)%nat ->
    exists a, get_fluidkinematics_raos divide h x "velocity" = Ok a /\ n_shape a = [hy_npoints x; 3%nat; ndirs x; nfreqs x] /\
      forall t k p q, (t < hy_npoints x)%nat -> (k < 3)%nat -> (p < ndirs x)%nat -> (q < nfreqs x)%nat ->
        exists r, nth_error rs ((p * nfreqs x + q) * hy_npoints x + t) = Some r /\ at_ a [t; k; p; q] = nth_error (f_v r) k.
  Proof.
    intros HL. destruct (fluid_enter divide "velocity") as (t0 & rows0 & -> & _). destruct fluid_columns as (_ & _ & _ & _ & _ & L).
    cbn [str_in String.eqb Ascii.eqb Bool.eqb orb existsb].
    assert (EQ : Nat.eqb (size [length rs; 3%nat]) (size [ndirs x; nfreqs x; hy_npoints x; 3%nat]) = true) by (apply Nat.eqb_eq; cbn [size fold_right]; rewrite HL; lia).
    unfold set_shape. cbn [n_shape n_flat]. rewrite EQ. cbn [rbind].
    assert (LF : length (flat_map f_v rs) = (ndirs x * (nfreqs x * (hy_npoints x * (3 * 1))))%nat) by (rewrite (flat_lengths _ 3%nat _ L), HL; lia).
    eexists. split; [reflexivity|]. split; [reflexivity|]. intros t k p q Ht Hk Hp Hq.
    destruct (roll_twice (flat_map f_v rs) (ndirs x) (nfreqs x) (hy_npoints x) 3 p q t k LF Hp Hq Ht Hk) as [_ ->].
    destruct (nth_error rs ((p * nfreqs x + q) * hy_npoints x + t)) as [r|] eqn:Er.
    - exists r. split; [reflexivity|]. exact (nth_blocks f_v 3 rs _ k r L Er Hk).
    - apply nth_error_None in Er. exfalso. assert (p * nfreqs x + q < ndirs x * nfreqs x)%nat by nia. nia.
  Qed.
  Theorem fluid_count divide kind : In kind ["elevation"; "pressure"; "velocity"] -> length rs <> (ndirs x * nfreqs x * hy_npoints x)%nat ->
    get_fluidkinematics_raos divide h x kind = Err ValueError.
  Proof.
    intros HK HL. destruct (fluid_enter divide kind) as (t0 & rows0 & -> & _).
    assert (EQ : Nat.eqb (size [length rs]) (size [ndirs x; nfreqs x; hy_npoints x]) = false) by (apply Nat.eqb_neq; cbn [size fold_right]; nia).
    assert (EQ' : Nat.eqb (size [length rs; 3%nat]) (size [ndirs x; nfreqs x; hy_npoints x; 3%nat]) = false) by (apply Nat.eqb_neq; cbn [size fold_right]; nia).
    unfold set_shape. cbn [n_shape n_flat]. rewrite EQ, EQ'. destruct HK as [<-|[<-|[<-|[]]]]; reflexivity.
  Qed.
  Theorem fluid_kind divide kind : ~ In kind ["elevation"; "pressure"; "velocity"] -> get_fluidkinematics_raos divide h x kind = Err ValueError.
  Proof.
    intro HK. destruct (fluid_enter divide kind) as (t0 & rows0 & -> & _). cbn [In] in HK.
    assert (str_in kind ["elevation"; "pressure"] = false) as ->.
    { unfold str_in. cbn [existsb]. destruct (String.eqb_spec kind "elevation"); [subst; tauto|]. destruct (String.eqb_spec kind "pressure"); [subst; tauto|]. reflexivity. }
    destruct (String.eqb_spec kind "velocity"); [subst; tauto|reflexivity].
  Qed.
End Fluid.

(** ** Panel pressures *)
Lemma count_unique l l' : NoDup l' -> (forall z, In z l <-> In z l') -> length (unique l) = length l'.
Proof.
  intros HN H. apply Nat.le_antisymm.
  - apply NoDup_incl_length; [|intros z Hz; apply H; now apply In_unique].
    assert (S : forall k, StronglySorted Z.lt k -> NoDup k); [|apply S, sorted_unique].
    induction 1 as [|a k S IH F]; constructor; [|exact IH]. intro Ha. rewrite Forall_forall in F. specialize (F a Ha). lia.
  - apply NoDup_incl_length; [exact HN|]. intros z Hz. apply In_unique. now apply H.
Qed.
Section Panels.
  Variables (h : h5) (x : hydro) (rs mine : list panel) (bs : list (Z * Z)) (b i : Z).
  Let d := hy_data x.
  Let w := d_group d.
  Hypothesis Ho : d_open d = true.
  Hypothesis Hf : hy_freqs x <> [].
  Hypothesis HB : bodies_in h w bs.
  Hypothesis Hi : body_cond bs b i.
  Hypothesis Hb : b <> 0.
  Hypothesis HR : panels_in h w rs.
  Hypothesis HM : subseq (fun r => p_cond r = i) rs mine.

  Lemma panel_columns : get_results h x "W1PANPRE" (Some b) "p" = Ok (mkNd [length mine] (map p_p mine)) /\
    get_results h x "W1PANPRE" (Some b) "ipan" = Ok (mkNd [length mine] (map CI (map p_pan mine))) /\
    get_results h x "W1PANPRE" (Some b) "isymm1" = Ok (mkNd [length mine] (map CI (map p_symm mine))).
  Proof.
    destruct HR as (rows & H & HF). unfold get_results, result_rows. fold d. rewrite (holds_record0 _ _ _ _ _ Ho H). cbn [rbind].
    destruct (Z.eqb_spec b 0); [contradiction|]. rewrite (ibcond_ok h x Ho bs b i HB Hi). cbn [rbind t_rows].
    set (t := mkTab (descr_of "W1PANPRE") rows).
    match type of HF with Forall2 ?Q _ _ => set (P := Q) in * end.
    assert (F : forall r row, P r row -> int_is t "ibcond" i row = Ok (p_cond r =? i) /\ field t "p" row = Ok (p_p r) /\ field t "ipan" row = Ok (CI (p_pan r)) /\ field t "isymm1" row = Ok (CI (p_symm r))).
    { intros r row (_ & a & c & e & f & ->). repeat split; reflexivity. }
    destruct (rfilter_rel P (int_is t "ibcond" i) (fun r => p_cond r =? i) rs rows ltac:(intros r row Hr; apply F; exact Hr) HF) as (out & -> & HO).
    cbn [rbind].
    rewrite (subseq_filter (fun r => p_cond r = i) (fun r => p_cond r =? i) rs mine ltac:(intro; apply Z.eqb_eq) HM) in HO.
    assert (L : forall r, In r mine -> plain (p_p r)).
    { intros r Hr. destruct (Forall2_In_l _ _ _ r HO Hr) as (row & _ & K1 & _). auto. }
    split; [|split].
    - rewrite (column_rel P t "p" TC p_p mine out eq_refl ltac:(intros r row Hr; apply F; exact Hr) HO). cbn [shape_of]. do 2 f_equal. apply flat_single. exact L.
    - rewrite (column_rel P t "ipan" TI (fun r => CI (p_pan r)) mine out eq_refl ltac:(intros r row Hr; apply F; exact Hr) HO). cbn [shape_of]. do 2 f_equal. rewrite flat_single by (intros; exact I). now rewrite map_map.
    - rewrite (column_rel P t "isymm1" TI (fun r => CI (p_symm r)) mine out eq_refl ltac:(intros r row Hr; apply F; exact Hr) HO). cbn [shape_of]. do 2 f_equal. rewrite flat_single by (intros; exact I). now rewrite map_map.
  Qed.
  Lemma panel_counts : count_distinct h x b "ipan" = Ok (length (unique (map p_pan mine))) /\ count_distinct h x b "isymm1" = Ok (length (unique (map p_symm mine))).
  Proof.
    destruct panel_columns as (_ & E1 & E2). unfold count_distinct, int_results. rewrite E1, E2. cbn [rbind n_flat]. rewrite !ints_of_CI. split; reflexivity.
  Qed.
  Theorem panels_ok np ns : np = length (unique (map p_pan mine)) -> ns = length (unique (map p_symm mine)) -> mine <> [] -> length mine = (ndirs x * nfreqs x * (ns * np))%nat ->
    exists a, get_panel_pressures h x b = Ok (Some a) /\ n_shape a = [np; ns; ndirs x; nfreqs x] /\
      forall k t p q, (k < np)%nat -> (t < ns)%nat -> (p < ndirs x)%nat -> (q < nfreqs x)%nat ->
        exists r, nth_error mine ((p * nfreqs x + q) * (ns * np) + (t * np + k)) = Some r /\ at_ a [k; t; p; q] = Some (p_p r).
  Proof.
    intros -> -> HN HL. destruct panel_counts as [C1 C2]. destruct panel_columns as (E & _ & _). unfold get_panel_pressures. rewrite (domain_ok x Ho Hf). cbn [rbind]. rewrite C1. cbn [rbind]. rewrite C2. cbn [rbind].
    destruct (length (unique (map p_pan mine))) as [|np'] eqn:EN.
    { exfalso. destruct (unique (map p_pan mine)) eqn:U; [|discriminate]. apply unique_nil in U. destruct mine; [congruence|discriminate]. }
    rewrite <- EN in *. clear EN np'. rewrite E. cbn [rbind]. set (np := length (unique (map p_pan mine))) in *. set (ns := length (unique (map p_symm mine))) in *.
    assert (EQ : Nat.eqb (size [length mine]) (size [ndirs x; nfreqs x; ns; np]) = true) by (apply Nat.eqb_eq; cbn [size fold_right]; rewrite HL; lia).
    unfold set_shape. cbn [n_shape n_flat]. rewrite EQ. cbn [rbind]. eexists. split; [reflexivity|]. split; [reflexivity|]. intros k t p q Hk Ht Hp Hq.
    assert (LF : length (map p_p mine) = (ndirs x * (nfreqs x * (ns * (np * 1))))%nat) by (rewrite map_length, HL; lia).
    destruct (move_two (map p_p mine) (ndirs x) (nfreqs x) ns np p q t k LF Hp Hq Ht Hk) as [_ ->]. rewrite nth_error_map.
    replace (((p * nfreqs x + q) * ns + t) * np + k)%nat with ((p * nfreqs x + q) * (ns * np) + (t * np + k))%nat by lia.
    destruct (nth_error mine ((p * nfreqs x + q) * (ns * np) + (t * np + k))) as [r|] eqn:Er; [exists r; split; reflexivity|].
    apply nth_error_None in Er. exfalso. assert (p * nfreqs x + q < ndirs x * nfreqs x)%nat by nia. assert (t * np + k < ns * np)%nat by nia. nia.
  Qed.
  Theorem panels_count : mine <> [] -> length mine <> (ndirs x * nfreqs x * (length (unique (map p_symm mine)) * length (unique (map p_pan mine))))%nat ->
    get_panel_pressures h x b = Err ValueError.
  Proof.
    intros HN HL. destruct panel_counts as [C1 C2]. destruct panel_columns as (E & _ & _). unfold get_panel_pressures. rewrite (domain_ok x Ho Hf). cbn [rbind]. rewrite C1. cbn [rbind]. rewrite C2. cbn [rbind].
    destruct (length (unique (map p_pan mine))) as [|np'] eqn:EN.
    { exfalso. destruct (unique (map p_pan mine)) eqn:U; [|discriminate]. apply unique_nil in U. destruct mine; [congruence|discriminate]. }
    rewrite <- EN in *. rewrite E. cbn [rbind]. unfold set_shape. cbn [n_shape n_flat].
    match goal with |- context [Nat.eqb ?u ?v] => assert (Nat.eqb u v = false) as -> by (apply Nat.eqb_neq; cbn [size fold_right]; rewrite EN in *; lia) end.
    reflexivity.
  Qed.
  Theorem panel_ids_ok : mine <> [] -> get_pressure_panel_ids h x b =
    Ok (Some (flat_map (fun s => map (fun p => (p, s)) (unique (map p_pan mine))) (unique (map p_symm mine)))).
  Proof.
    intros HN. destruct panel_counts as [C1 C2]. destruct panel_columns as (_ & E1 & E2). unfold get_pressure_panel_ids. rewrite (domain_ok x Ho Hf). cbn [rbind]. rewrite C1. cbn [rbind]. rewrite C2. cbn [rbind].
    destruct (length (unique (map p_pan mine))) as [|np'] eqn:EN.
    { exfalso. destruct (unique (map p_pan mine)) eqn:U; [|discriminate]. apply unique_nil in U. destruct mine; [congruence|discriminate]. }
    unfold int_results. rewrite E1. cbn [rbind n_flat]. rewrite ints_of_CI. cbn [rbind]. rewrite E2. cbn [rbind n_flat]. rewrite ints_of_CI. reflexivity.
  Qed.
End Panels.

(** ** Matrices *)
Section Matrices.
  Variables (h : h5) (x : hydro) (ms : list matr) (bs : list (Z * Z)) (b b2 i j : Z).
  Let d := hy_data x.
  Let w := d_group d.
  Hypothesis Ho : d_open d = true.
  Hypothesis HB : bodies_in h w bs.
  Hypothesis Hi : body_cond bs b i.
  Hypothesis Hj : body_cond bs b2 j.
  Hypothesis HM : matrices_in h w ms.

  Let P (m : matr) (row : list cell) := length (m_rows m) = 6%nat /\ Forall (fun r => length r = 6%nat /\ Forall plain r) (m_rows m) /\
      exists a b c, row = [CI a; CI b; CI (m_i m); CI (m_j m); CI c; CI (m_typ m); CV (map CV (m_rows m))].
  Let pick_ t m := ((m_i m =? i) && (m_j m =? j) && (m_typ m =? t))%bool.
  Lemma pick_spec t m : pick_ t m = true <-> is_for i j t m.
  Proof. unfold pick_, is_for. rewrite !andb_true_iff, !Z.eqb_eq. tauto. Qed.
  Let cond t u := both (both (int_is t "ibconi" i) (int_is t "ibconj" j)) (int_is t "imtyp" u).
  Lemma matrix_enter typ : exists rows, Forall2 P ms rows /\
    get_matrix h x typ b b2 =
      let t := mkTab (descr_of "W1MATRIX") rows in
      if zmem typ [11; 22; 31; 32] then dor row <- getrow t (cond t typ); dor c <- field t "hmat" row; Ok (mkNd [6%nat; 6%nat] (flat_cell c))
      else if zmem typ [12; 21] then dor rs <- rfilter (cond t typ) rows; dor a <- column t rs "hmat"; Ok (rollaxis a 0 3)
      else Err ValueError.
  Proof.
    destruct HM as (rows & H & HF). exists rows. split; [exact HF|]. unfold get_matrix. fold d. rewrite (holds_record0 _ _ _ _ _ Ho H). cbn [rbind].
    rewrite (ibcond_ok h x Ho bs b i HB Hi), (ibcond_ok h x Ho bs b2 j HB Hj). reflexivity.
  Qed.
  Lemma matrix_fields rr m row typ : P m row -> let t := mkTab (descr_of "W1MATRIX") rr in
    cond t typ row = Ok (pick_ typ m) /\ field t "hmat" row = Ok (CV (map CV (m_rows m))).
  Proof. intros (_ & _ & a & c & e & ->). split; reflexivity. Qed.
  Definition entries (m : matr) : list cell := concat (m_rows m).
  Lemma flat_matrix m : (exists row, P m row) -> flat_cell (CV (map CV (m_rows m))) = entries m /\ length (entries m) = 36%nat.
  Proof.
    intros (row & L & HF & _). unfold entries. cbn [flat_cell]. rewrite flat_map_map. split.
    - rewrite flat_map_concat_map. f_equal. change (map (fun a => flat_cell (CV a)) (m_rows m) = m_rows m). clear L. induction HF as [|r l [_ Hr] HF IH]; [reflexivity|]. cbn [map concat]. rewrite IH. f_equal. exact (flat_plain r Hr).
    - rewrite <- (map_id (m_rows m)), <- flat_map_concat_map. rewrite (flat_lengths (fun r => r) 6%nat); [now rewrite L|]. intros r Hr. rewrite Forall_forall in HF. now apply HF.
  Qed.
  Lemma entry_nth m p q c : (exists row, P m row) -> (p < 6)%nat -> (q < 6)%nat -> (nth_error (entries m) (p * 6 + q) = Some c <-> entry m p q c).
  Proof.
    intros (row & L & HF & _) Hp Hq. unfold entries. rewrite <- (map_id (m_rows m)), <- flat_map_concat_map.
    destruct (nth_error (m_rows m) p) as [r|] eqn:Er; [|apply nth_error_None in Er; lia].
    rewrite (nth_blocks (fun r => r) 6 (m_rows m) p q r); [|intros r' Hr'; rewrite Forall_forall in HF; now apply HF|exact Er|exact Hq].
    unfold entry. split; [intro H; exists r; now split|]. intros (r' & E & H). congruence.
  Qed.

  Theorem matrix_ok typ l1 m l2 : In typ [11; 22; 31; 32] -> ms = l1 ++ m :: l2 -> is_for i j typ m -> (forall m', In m' l1 -> ~ is_for i j typ m') ->
    exists a, get_matrix h x typ b b2 = Ok a /\ n_shape a = [6; 6]%nat /\
      forall p q, (p < 6)%nat -> (q < 6)%nat -> exists c, at_ a [p; q] = Some c /\ entry m p q c.
  Proof.
    intros HT Ems Hm Hn. destruct (matrix_enter typ) as (rows & HF & ->). rewrite Ems in HF. cbv zeta. assert (zmem typ [11; 22; 31; 32] = true) as -> by now apply zmem_spec.
    set (t := mkTab (descr_of "W1MATRIX") rows).
    assert (HF' := HF). apply Forall2_app_inv_l in HF' as (r1 & r2 & HF1 & HF2 & E). inversion HF2 as [|? row ? r3 Hr HF3]; subst r2. clear HF2. subst rows.
    assert (G : getrow t (cond t typ) = Ok row).
    { unfold getrow. change (t_rows t) with (r1 ++ row :: r3). unfold t. generalize (r1 ++ row :: r3) at 1. intro rr.
      destruct (rfilter_rel P (cond (mkTab (descr_of "W1MATRIX") rr) typ) (pick_ typ) l2 r3 ltac:(intros m0 row0 Hr0; apply (matrix_fields rr m0 row0 typ Hr0)) HF3) as (out & E3 & _).
      assert (G : rfilter (cond (mkTab (descr_of "W1MATRIX") rr) typ) (r1 ++ row :: r3) = Ok (row :: out)); [|now rewrite G].
      clear HF Ems t. induction HF1 as [|m0 row0 l1 r1 Hr0 HF1 IH]; cbn [app rfilter].
      - destruct (matrix_fields rr m row typ Hr) as [-> _]. cbn [rbind]. rewrite E3. cbn [rbind]. now rewrite (proj2 (pick_spec typ m) Hm).
      - destruct (matrix_fields rr m0 row0 typ Hr0) as [-> _]. cbn [rbind]. rewrite IH by (intros m' Hm'; apply Hn; now right). cbn [rbind].
        destruct (pick_ typ m0) eqn:EP; [|reflexivity]. exfalso. apply (Hn m0); [now left|now apply pick_spec]. }
    rewrite G. cbn [rbind]. destruct (matrix_fields (r1 ++ row :: r3) m row typ Hr) as [_ E2]. fold t in E2. rewrite E2. cbn [rbind].
    destruct (flat_matrix m (ex_intro _ row Hr)) as [E3 E4]. rewrite E3. eexists. split; [reflexivity|]. split; [reflexivity|]. intros p q Hp Hq.
    unfold at_. cbn [n_shape n_flat inside]. rewrite (proj2 (Nat.ltb_lt p 6) Hp), (proj2 (Nat.ltb_lt q 6) Hq). cbn [andb ravel size fold_right].
    replace (p * (6 * 1) + (q * 1 + 0))%nat with (p * 6 + q)%nat by lia.
    destruct (nth_error (entries m) (p * 6 + q)) as [c|] eqn:Ec; [|apply nth_error_None in Ec; nia]. exists c. split; [reflexivity|]. now apply (entry_nth m p q c (ex_intro _ row Hr) Hp Hq).
  Qed.
  Theorem matrix_none typ : In typ [11; 22; 31; 32] -> (forall m, In m ms -> ~ is_for i j typ m) -> get_matrix h x typ b b2 = Err ConditionError.
  Proof.
    intros HT Hn. destruct (matrix_enter typ) as (rows & HF & ->). cbv zeta. assert (zmem typ [11; 22; 31; 32] = true) as -> by now apply zmem_spec.
    unfold getrow. cbn [t_rows].
    destruct (rfilter_rel P (cond (mkTab (descr_of "W1MATRIX") rows) typ) (pick_ typ) ms rows ltac:(intros m0 row0 Hr0; apply (matrix_fields rows m0 row0 typ Hr0)) HF) as (out & -> & HO).
    assert (filter (pick_ typ) ms = []) as E.
    { clear HF HO HM. induction ms as [|m l IH]; [reflexivity|]. cbn [filter]. destruct (pick_ typ m) eqn:EP; [exfalso; apply (Hn m); [now left|now apply pick_spec]|]. apply IH. intros m' Hm'. apply Hn. now right. }
    rewrite E in HO. inversion HO. reflexivity.
  Qed.
  Theorem matrices_ok typ sel : In typ [12; 21] -> subseq (is_for i j typ) ms sel ->
    exists a, get_matrix h x typ b b2 = Ok a /\ n_shape a = [6%nat; 6%nat; length sel] /\
      forall p q f m, (p < 6)%nat -> (q < 6)%nat -> nth_error sel f = Some m -> exists c, at_ a [p; q; f] = Some c /\ entry m p q c.
  Proof.
    intros HT HS. destruct (matrix_enter typ) as (rows & HF & ->). cbv zeta.
    assert (zmem typ [11; 22; 31; 32] = false /\ zmem typ [12; 21] = true) as [-> ->] by (destruct HT as [<-|[<-|[]]]; split; reflexivity).
    destruct (rfilter_rel P (cond (mkTab (descr_of "W1MATRIX") rows) typ) (pick_ typ) ms rows ltac:(intros m0 row0 Hr0; apply (matrix_fields rows m0 row0 typ Hr0)) HF) as (out & -> & HO).
    cbn [rbind]. rewrite (subseq_filter (is_for i j typ) (pick_ typ) ms sel (pick_spec typ) HS) in HO.
    rewrite (column_rel P (mkTab (descr_of "W1MATRIX") rows) "hmat" (TV 6 (TV 6 TF)) (fun m => CV (map CV (m_rows m))) sel out eq_refl ltac:(intros r row Hr; apply (matrix_fields rows r row typ Hr)) HO).
    cbn [rbind shape_of]. rewrite flat_map_map.
    assert (L : forall m, In m sel -> exists row, P m row) by (intros m Hm; destruct (Forall2_In_l _ _ _ m HO Hm) as (row & _ & K); eauto).
    rewrite (flat_map_ext_in _ entries) by (intros m Hm; now apply flat_matrix, L).
    assert (LF : length (flat_map entries sel) = (length sel * (6 * (6 * 1)))%nat).
    { rewrite (flat_lengths entries 36%nat); [lia|]. intros m Hm. now apply flat_matrix, L. }
    eexists. split; [reflexivity|]. split; [reflexivity|]. intros p q f m Hp Hq Hm.
    assert (Hfl : (f < length sel)%nat) by (apply nth_error_Some; congruence).
    destruct (roll_last (flat_map entries sel) (length sel) 6 6 f p q LF Hfl Hp Hq) as [_ ->].
    replace ((f * 6 + p) * 6 + q)%nat with (f * 36 + (p * 6 + q))%nat by lia.
    rewrite (nth_blocks entries 36 sel f (p * 6 + q) m); [|intros m' Hm'; now apply flat_matrix, L|exact Hm|lia].
    pose proof (L m (nth_error_In _ _ Hm)) as Lm. destruct (flat_matrix m Lm) as [_ E4].
    destruct (nth_error (entries m) (p * 6 + q)) as [c|] eqn:Ec; [|apply nth_error_None in Ec; nia]. exists c. split; [reflexivity|]. now apply (entry_nth m p q c Lm Hp Hq).
  Qed.
  Theorem matrix_other typ : ~ In typ [11; 12; 21; 22; 31; 32] -> get_matrix h x typ b b2 = Err ValueError.
  Proof.
    intro HT. destruct (matrix_enter typ) as (rows & HF & ->). cbv zeta. cbn [In] in HT.
    assert (zmem typ [11; 22; 31; 32] = false) as -> by (destruct (zmem typ [11; 22; 31; 32]) eqn:E; [apply zmem_spec in E; cbn [In] in E; tauto|reflexivity]).
    assert (zmem typ [12; 21] = false) as -> by (destruct (zmem typ [12; 21]) eqn:E; [apply zmem_spec in E; cbn [In] in E; tauto|reflexivity]).
    reflexivity.
  Qed.
End Matrices.
Lemma matrix_unknown h x bs typ b b2 ms : d_open (hy_data x) = true -> bodies_in h (d_group (hy_data x)) bs -> matrices_in h (d_group (hy_data x)) ms ->
  ~ In b (map fst bs) -> get_matrix h x typ b b2 = Err ConditionError.
Proof.
  intros Ho HB (rows & H & _) Hn. unfold get_matrix. rewrite (holds_record0 _ _ _ _ _ Ho H). cbn [rbind]. rewrite (ibcond_unknown h x Ho bs b HB Hn). reflexivity.
Qed.
