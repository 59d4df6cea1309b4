(** * Props_ElemComplex: property C85.

    Complex element results at nodes in the arithmetic of the machine. *)
From Coq Require Import Reals Lra Sorted Permutation.
From Verif Require Import Base Flt SeqFile H5 Schema Parsers Data Files Struc Convert SeqSpec StoreSpec ParserSpec LayoutSpec FileSpec ConvertSpec AssemblySpec
  StrucSpec StrucRes StrucExist SaysSpec SaysProofs SaysOpen SaysGives Nd NdProofs Elem ElemSpec ElemProofs ElemResSpec ElemRes ElemMore ElemValuesSpec ElemValuesProofs
  IeeeSpec IeeeFacts IeeeExists IeeeIdem DotSpec CalcFloat ElemFloat ElemFloatNum ElemFloatSpec ElemFloatProofs Props_Elem Props_ElemValues Props_ElemFloat
  Vtu VtuSpec Export ExportSpec ElemExport ElemExportSpec Sample2 Sample SifName SifNameSpec ConvertSample FileSample Props_File Props_Jobs Props_ElemExport Props_ElemFile
  ShellSample ComplexSample ElemComplex.
Open Scope string_scope.
Open Scope Z_scope.
Open Scope list_scope.

(** Products with the zeros of a real matrix change nothing: sums over all terms of
    the real (imaginary) part of an entry are sums over the real (imaginary) parts, in
    some order; and a product with a real number is one of each part. *)
Definition nonzero (p : R * R) : bool := if Req_EM_T (fst p) 0 then false else true.
Section Zeros.
  Variable rnd : R -> R.
  Hypothesis I : forall x, rnd (rnd x) = rnd x.
  Hypothesis Z0 : rnd 0%R = 0%R.
  Lemma computed_fixed l v : computes rnd l v -> rnd v = v.
  Proof using I Z0. induction 1; auto. Qed.
  Lemma filter_perm {A} (g : A -> bool) l l' : Permutation l l' -> Permutation (filter g l) (filter g l').
  Proof. induction 1; cbn [filter]; repeat match goal with |- context [g ?x] => destruct (g x) end; eauto using Permutation. Qed.
  Lemma without_zeros l v : computes rnd l v -> computes rnd (filter nonzero l) v.
  Proof using I Z0.
    induction 1 as [|a b|l1 l2 v1 v2 H1 IH1 H2 IH2|a b l v H IH|l1 l2 v P H IH].
    - constructor.
    - cbn [filter]. unfold nonzero. cbn [fst]. destruct (Req_EM_T a 0) as [->|N]; [rewrite Rmult_0_l, Z0|]; constructor.
    - rewrite filter_app. now apply c_sum.
    - cbn [filter]. unfold nonzero at 1. cbn [fst]. destruct (Req_EM_T a 0) as [->|N]; [|now apply c_fused]. rewrite Rmult_0_l, Rplus_0_l, (computed_fixed _ _ H). exact IH.
    - apply c_order with (1 := filter_perm nonzero _ _ P). exact IH.
  Qed.
  Lemma with_zeros l v : computes rnd (filter nonzero l) v -> computes rnd l v.
  Proof using I Z0.
    intro H. apply (c_order rnd (filter (fun p => negb (nonzero p)) l ++ filter nonzero l)).
    - clear H. induction l as [|p l IH]; [reflexivity|]. cbn [filter]. destruct (nonzero p); cbn [negb app]; [|now constructor]. eapply Permutation_trans; [symmetry; apply Permutation_middle|now constructor].
    - assert (F : Forall (fun p => fst p = 0%R) (filter (fun p => negb (nonzero p)) l)) by (apply Forall_forall; intros p Hp; apply filter_In in Hp as [_ Hp]; unfold nonzero in Hp; destruct (Req_EM_T (fst p) 0) as [E|]; [exact E|discriminate Hp]).
      induction F as [|[a b] z E F IH]; [exact H|]. cbn [fst] in E. subst a. cbn [app]. pose proof (c_fused rnd 0 b _ _ IH) as X. rewrite Rmult_0_l, Rplus_0_l, (computed_fixed _ _ IH) in X. exact X.
  Qed.
  Lemma same_nonzero l l' v : filter nonzero l = filter nonzero l' -> computes rnd l v -> computes rnd l' v.
  Proof using I Z0. intros E H. apply with_zeros. rewrite <- E. now apply without_zeros. Qed.
End Zeros.
Lemma zero_fst b : nonzero (0%R, b) = false.
Proof. unfold nonzero. cbn [fst]. destruct (Req_EM_T 0 0) as [|N]; [reflexivity|now elim N]. Qed.
Theorem C85_parts : forall rnd, (forall x, rnd (rnd x) = rnd x) -> rnd 0%R = 0%R ->
  (forall c z, cmul rnd (creal c) z = (rnd (c * fst z), rnd (c * snd z))%R) /\
  (forall v w x, length v = length w -> computes rnd (real_terms v w) x -> computes rnd (combine v (map fst w)) x) /\
  (forall v w y, length v = length w -> computes rnd (imag_terms v w) y -> computes rnd (combine v (map snd w)) y).
Proof.
  intros rnd I Z0. split; [|split].
  - intros c z. unfold cmul, creal, fsub, fadd, fmul. cbn [fst snd]. rewrite !Rmult_0_l, Z0, Rminus_0_r, Rplus_0_r, !I. reflexivity.
  - intros v w x L. apply (same_nonzero rnd I Z0). clear x. revert w L. induction v as [|a v IH]; intros [|z w] L; try discriminate L; [reflexivity|]. cbn [length] in L. unfold real_terms. cbn [combine map flat_map app filter fst snd]. rewrite zero_fst. fold (real_terms v w). now rewrite (IH w ltac:(congruence)).
  - intros v w x L. apply (same_nonzero rnd I Z0). clear x. revert w L. induction v as [|a v IH]; intros [|z w] L; try discriminate L; [reflexivity|]. cbn [length] in L. unfold imag_terms. cbn [combine map flat_map app filter fst snd]. rewrite zero_fst. fold (imag_terms v w). now rewrite (IH w ltac:(congruence)).
Qed.
Print Assumptions C85_parts.
Example C85_parts_case : cmul (ieee single) (creal 0.1%R) (0.7, -3)%R = (ieee single (0.1 * 0.7), ieee single (0.1 * -3))%R /\
  exists x, computes (ieee double) (real_terms [0.1; 0.2]%R [(1, 5); (3, 7)]%R) x /\ computes (ieee double) (combine [0.1; 0.2]%R [1; 3]%R) x.
Proof.
  destruct (C85_parts (ieee single) (fun x => ieee_twice single x eq_refl) (ieee_zero single)) as (P & _). split; [apply P|].
  destruct (C85_parts (ieee double) (fun x => ieee_twice double x eq_refl) (ieee_zero double)) as (_ & Q & _).
  exists (from_right (ieee double) (real_terms [0.1; 0.2]%R [(1, 5); (3, 7)]%R)). split; [apply from_right_computes|]. apply (Q [0.1; 0.2]%R [(1, 5); (3, 7)]%R); [reflexivity|apply from_right_computes].
Qed.

Lemma process_cfl_sizes rs rd ra dre dim restype t len nn tail d : In (t, (len, nn, tail)) (elem_sizes restype) -> In restype (map fst result_kinds) -> length d = len ->
  exists a, process_cfl rs rd ra dre dim t restype "nodes" d = Ok a /\ n_shape a = nn :: tail /\ wf a.
Proof.
  intros HI HK HL. destruct (process_fl_sizes rs rd ra dre restype t len nn tail (map fst d) HI HK ltac:(now rewrite map_length)) as (a & Ea & Sa & Wa).
  destruct (process_fl_sizes rs rd ra dim restype t len nn tail (map snd d) HI HK ltac:(now rewrite map_length)) as (b & Eb & Sb & Wb).
  unfold process_cfl. rewrite Ea, Eb. cbn [rbind]. eexists. split; [reflexivity|]. split; [exact Sa|]. unfold wf in *. cbn [n_flat n_shape]. rewrite combine_length, Wa, Wb, Sa, Sb. apply Nat.min_id.
Qed.
(** The complex element results of a data set at the nodes. *)
Theorem C85_results : forall rs0 rd ra dre dim M (val : flt -> R) num h d ns es nms ms sets restype rn cn kind idx rs run cs arg sel bs sh,
  numpy rs0 rd ra dre -> numpy rs0 rd ra dim -> (0 <= M <= powerRZ 2 100)%R -> (forall x y, num (CC x y) = (val x, val y)) ->
  d_open d = true -> mesh_in h (d_group d) ns es -> In (restype, (rn, cn, kind)) result_kinds ->
  proper h (d_group d) es nms ms sets kind -> selected es nms ms sets kind idx -> idx <> [] ->
  refs_in h (d_group d) rs -> cases_arg cs arg -> asked_refs run cs rs sel -> sel <> [] -> NoDup (map rf_ires sel) ->
  (forall r, In r sel -> rf_complex r = 1) ->
  elemres_in h (d_group d) rn es bs ->
  filter (fun i => zmem i (map rf_ires sel)) (map fst bs) = map rf_ires sel ->
  (forall b, In b bs -> In (fst b) (map rf_ires sel) -> map fst (filter (fun ev => existsb (Nat.eqb (fst ev)) idx) (snd b)) = idx) ->
  (forall j e, In j idx -> nth_error es j = Some e -> exists len, In (el_typ e, (len, length (el_nodes e), sh)) (elem_sizes restype) /\
     forall b v, In b bs -> In (fst b) (map rf_ires sel) -> In (j, v) (snd b) -> exists ps, v = flat_map (fun p => [CF (fst p); CF (snd p)]) ps /\ length ps = len /\
       Forall (fun p => Rabs (val (fst p)) <= M /\ Rabs (val (snd p)) <= M)%R ps) ->
  exists parts : list (list (list (R * R))),
    get_elementresults_cfl rs0 rd ra dre dim num h d restype "nodes" run arg sets =
      Ok (with_cases (length sel) (length (flat_map el_nodes (pick es idx)) :: sh) (concat (map (@concat _) parts))) /\
    Forall2 (fun r pr => Forall2 (fun j found => exists e b ps re im, nth_error es j = Some e /\ In b bs /\ fst b = rf_ires r /\
      In (j, flat_map (fun p => [CF (fst p); CF (snd p)]) ps) (snd b) /\
      valuesR (el_typ e) restype (map (fun p => val (fst p)) ps) re /\ agree (tolerance (el_typ e) restype M) re (map fst found) /\
      valuesR (el_typ e) restype (map (fun p => val (snd p)) ps) im /\ agree (tolerance (el_typ e) restype M) im (map snd found)) idx pr) sel parts.
Proof.
  intros rs0 rd ra dre dim M val num h d ns es nms ms sets restype rn cn kind idx rs run cs arg sel bs sh HN HN' HM0 Hnum Ho HM HT HP HI Hne HRf HA HS Hsel Hnd Hc HB Hord Heach Hty.
  destruct (elementresults_stated_with (process_cfl rs0 rd ra dre dim) num (process_cfl_sizes rs0 rd ra dre dim) h d ns es nms ms sets restype rn cn kind idx rs run cs arg sel bs 1 sh Ho HM HT HP HI Hne HRf HA HS Hsel Hnd Hc HB Hord Heach) as (parts & E & HF).
  { intros j e Hj He. destruct (Hty j e Hj He) as (len & Hl & Hx). exists len. split; [exact Hl|]. intros b v Hb Hi Hv. destruct (Hx b v Hb Hi Hv) as (ps & -> & L & _). eexists. split; [exists ps; split; reflexivity|now rewrite map_length]. }
  exists (map (map n_flat) parts). split.
  - etransitivity; [exact E|]. do 2 f_equal. rewrite map_map, <- flat_map_concat_map. apply flat_map_ext. intro l. apply flat_map_concat_map.
  - assert (One : forall r j a, In r sel -> In j idx ->
      (exists e b v w, nth_error es j = Some e /\ In b bs /\ fst b = rf_ires r /\ In (j, v) (snd b) /\ numbers 1 v w /\
        process_cfl rs0 rd ra dre dim (el_typ e) restype "nodes" (map num w) = Ok a /\ n_shape a = length (el_nodes e) :: sh /\ wf a) ->
      exists e b ps re im, nth_error es j = Some e /\ In b bs /\ fst b = rf_ires r /\ In (j, flat_map (fun p => [CF (fst p); CF (snd p)]) ps) (snd b) /\
      valuesR (el_typ e) restype (map (fun p => val (fst p)) ps) re /\ agree (tolerance (el_typ e) restype M) re (map fst (n_flat a)) /\
      valuesR (el_typ e) restype (map (fun p => val (snd p)) ps) im /\ agree (tolerance (el_typ e) restype M) im (map snd (n_flat a))).
    { intros r j a Hr Hj (e & b & v & w & He & Hb & Eb & Hv & (ps & -> & ->) & Hp & _). destruct (Hty j e Hj He) as (len & Hl & Hx). destruct (Hx b _ Hb ltac:(rewrite Eb; now apply in_map) Hv) as (ps' & Eps & L & F).
      assert (ps' = ps). { clear - Eps. revert ps Eps. induction ps' as [|[x y] ps' IH]; intros [|[x' y'] ps] Eps; try discriminate Eps; [reflexivity|]. cbn in Eps. injection Eps as <- <- Eps. f_equal. now apply IH. } subst ps'.
      rewrite map_map in Hp. rewrite (map_ext _ (fun p => (val (fst p), val (snd p)))) in Hp by (intro p; apply Hnum). unfold process_cfl in Hp. rewrite !map_map in Hp. cbn [fst snd] in Hp.
      destruct real_numbers as (R1 & R2 & R3 & R4).
      destruct (values_exist 0%R 1%R Rplus Rmult Rminus Ropp Rdiv Rinv (sqrt 3) R1 R2 R3 R4 restype _ _ _ _ (map (fun p => val (fst p)) ps) Hl (in_map fst _ _ HT) ltac:(now rewrite map_length)) as (re & Hre).
      destruct (values_exist 0%R 1%R Rplus Rmult Rminus Ropp Rdiv Rinv (sqrt 3) R1 R2 R3 R4 restype _ _ _ _ (map (fun p => val (snd p)) ps) Hl (in_map fst _ _ HT) ltac:(now rewrite map_length)) as (im & Him).
      destruct (C69_record rs0 rd ra dre _ _ _ _ M HN Hre) as (x & Ex & Ax); [|exact HM0|]. { apply Forall_map. eapply Forall_impl; [|exact F]. intros p Hp'. apply Hp'. }
      destruct (C69_record rs0 rd ra dim _ _ _ _ M HN' Him) as (y & Ey & Ay); [|exact HM0|]. { apply Forall_map. eapply Forall_impl; [|exact F]. intros p Hp'. apply Hp'. }
      destruct (process_fl_sizes rs0 rd ra dre restype _ _ _ _ (map (fun p => val (fst p)) ps) Hl (in_map fst _ _ HT) ltac:(now rewrite map_length)) as (x' & Ex' & Sx & Wx). rewrite Ex in Ex'. injection Ex' as <-.
      destruct (process_fl_sizes rs0 rd ra dim restype _ _ _ _ (map (fun p => val (snd p)) ps) Hl (in_map fst _ _ HT) ltac:(now rewrite map_length)) as (y' & Ey' & Sy & Wy). rewrite Ey in Ey'. injection Ey' as <-.
      rewrite Ex, Ey in Hp. cbn [rbind] in Hp. injection Hp as <-. cbn [n_flat]. assert (LL : length (n_flat x) = length (n_flat y)) by (unfold wf in *; rewrite Wx, Wy, Sx, Sy; reflexivity).
      exists e, b, ps, re, im. repeat (split; [assumption|]). split; [|split; [exact Him|]].
      - replace (map fst (combine (n_flat x) (n_flat y))) with (n_flat x); [exact Ax|]. clear - LL. revert LL. generalize (n_flat y). induction (n_flat x) as [|p l IH]; intros [|q l'] LL; try discriminate LL; [reflexivity|]. cbn in *. f_equal. apply IH. congruence.
      - replace (map snd (combine (n_flat x) (n_flat y))) with (n_flat y); [exact Ay|]. clear - LL. revert LL. generalize (n_flat y). induction (n_flat x) as [|p l IH]; intros [|q l'] LL; try discriminate LL; [reflexivity|]. cbn in *. f_equal. apply IH. congruence. }
    clear - HF One. revert HF. generalize (fun r j a => One r j a). clear One.
    induction sel as [|r sel IH] in parts |- *; intros One HF; inversion HF as [|? ps ? parts' HP HF']; subst; cbn [map]; constructor; [|apply IH; [|exact HF']; intros r' j a Hr; apply One; now right].
    specialize (fun j a => One r j a (or_introl eq_refl)). clear - HP One. induction HP as [|j a idx ps H1 HP IH]; cbn [map]; constructor; [apply One; [now left|exact H1]|apply IH; intros j' a' Hj'; apply One; now right].
Qed.
Print Assumptions C85_results.

(** The same from the text of a file with one level, opened by its name. *)
Definition gives_complex (val : flt -> R) (h : h5) (o : sdata) (segs : list seg) : Prop :=
  forall rs0 rd ra dre dim M num ns es rs nms ms sets restype rn cn kind idx bs run cs arg sel sh,
  numpy rs0 rd ra dre -> numpy rs0 rd ra dim -> (0 <= M <= powerRZ 2 100)%R -> (forall x y, num (CC x y) = (val x, val y)) ->
  mesh_on segs ns es -> refs_on segs rs -> In (restype, (rn, cn, kind)) result_kinds ->
  proper_on segs es nms ms sets kind -> selected es nms ms sets kind idx -> idx <> [] ->
  elemres_on segs rn es bs -> cases_arg cs arg -> asked_refs run cs rs sel -> sel <> [] -> NoDup (map rf_ires sel) ->
  (forall r, In r sel -> rf_complex r = 1) ->
  filter (fun i => zmem i (map rf_ires sel)) (map fst bs) = map rf_ires sel ->
  (forall b, In b bs -> In (fst b) (map rf_ires sel) -> map fst (filter (fun ev => existsb (Nat.eqb (fst ev)) idx) (snd b)) = idx) ->
  (forall j e, In j idx -> nth_error es j = Some e -> exists len, In (el_typ e, (len, length (el_nodes e), sh)) (elem_sizes restype) /\
     forall b v, In b bs -> In (fst b) (map rf_ires sel) -> In (j, v) (snd b) -> exists ps, v = flat_map (fun p => [CF (fst p); CF (snd p)]) ps /\ length ps = len /\
       Forall (fun p => Rabs (val (fst p)) <= M /\ Rabs (val (snd p)) <= M)%R ps) ->
  exists parts : list (list (list (R * R))),
    get_elementresults_cfl rs0 rd ra dre dim num h o restype "nodes" run arg sets =
      Ok (with_cases (length sel) (length (flat_map el_nodes (pick es idx)) :: sh) (concat (map (@concat _) parts))) /\
    Forall2 (fun r pr => Forall2 (fun j found => exists e b ps re im, nth_error es j = Some e /\ In b bs /\ fst b = rf_ires r /\
      In (j, flat_map (fun p => [CF (fst p); CF (snd p)]) ps) (snd b) /\
      valuesR (el_typ e) restype (map (fun p => val (fst p)) ps) re /\ agree (tolerance (el_typ e) restype M) re (map fst found) /\
      valuesR (el_typ e) restype (map (fun p => val (snd p)) ps) im /\ agree (tolerance (el_typ e) restype M) im (map snd found)) idx pr) sel parts.
Lemma gives_complex_ok val h o segs : d_open o = true -> tables h (d_group o) segs -> gives_complex val h o segs.
Proof.
  intros O T rs0 rd ra dre dim M num ns es rs nms ms sets restype rn cn kind idx bs run cs arg sel sh HN HN' HM0 Hnum HM HR Hk HP HS Hne HB HA HX Hsel Hnd Hc Hord Hel Hsz.
  apply (C85_results rs0 rd ra dre dim M val num h o ns es nms ms sets restype rn cn kind idx rs run cs arg sel bs sh HN HN' HM0 Hnum O); try assumption.
  - now apply (mesh_found h _ segs).
  - now apply (proper_found h _ segs).
  - now apply (refs_found h _ segs).
  - apply (elemres_found h _ segs); [|exact T|exact HB]. cbn in Hk. destruct Hk as [K|[K|[K|[]]]]; injection K as <- <- <- <-; cbn; tauto.
Qed.
Theorem C85_file : forall d top letter id segs g val,
  sesam_file d top letter id segs -> first_level letter segs -> 0 < g_batch g ->
  exists g' h o, open_sif d top g = Ok (g', h, KFirst, o) /\ gives_complex val h o segs.
Proof.
  intros d top letter id segs g val HF HL Hb. destruct (open_first d top letter id segs g HF HL Hb) as (g' & h & o & E & O & T).
  exists g', h, o. split; [exact E|]. now apply gives_complex_ok.
Qed.
Print Assumptions C85_file.
Lemma pairs_inj : forall ps ps' : list (flt * flt), flat_map (fun p => [CF (fst p); CF (snd p)]) ps = flat_map (fun p => [CF (fst p); CF (snd p)]) ps' -> ps = ps'.
Proof. induction ps as [|[x y] ps IH]; intros [|[x' y'] ps'] H; try discriminate H; [reflexivity|]. cbn in H. injection H as -> -> H. f_equal. now apply IH. Qed.
Lemma thin_first (d : list R) s re : length d = 24%nat -> process 0%R 1%R Rplus Rmult Rminus Ropp Rdiv (sqrt 3) 25 "generalstress" "nodes" d = Ok (mkNd s re) ->
  exists rest, re = nth 0 d 0%R :: nth 1 d 0%R :: rest /\ length rest = 16%nat.
Proof.
  intros HL E. listed d HL. match type of E with ?l = _ => let v := eval vm_compute in l in change l with v in E end. injection E as <- <-. eexists. split; reflexivity.
Qed.
(** A file with complex stresses of a triangular shell: the first stress is 100 + 101i. *)
Definition c_val (x : flt) : R := e_num (CF x).
Definition c_num (c : cell) : R * R := match c with CC x y => (c_val x, c_val y) | _ => (0, 0)%R end.
Lemma v100 : c_val (FFin false 25 2) = 100%R.
Proof. unfold c_val, e_num. simpl. lra. Qed.
Lemma v101 : c_val (FFin false 101 0) = 101%R.
Proof. unfold c_val, e_num. simpl. lra. Qed.
Lemma v102 : c_val (FFin false 51 1) = 102%R.
Proof. unfold c_val, e_num. simpl. lra. Qed.
Lemma v103 : c_val (FFin false 103 0) = 103%R.
Proof. unfold c_val, e_num. simpl. lra. Qed.
Example C85_case : exists g' h o rest, open_sif c_dir "shipR5.SIF" glob0 = Ok (g', h, KFirst, o) /\
  get_elementresults_cfl (ieee single) (ieee double) (ieee double) machine_dot machine_dot c_num h o "generalstress" "nodes" 1 AllCases [] =
    Ok (mkNd [3; 2; 3]%nat ((100, 101)%R :: (102, 103)%R :: rest)) /\ length rest = 16%nat.
Proof.
  destruct (C85_file c_dir "shipR5.SIF" "R" 5 c_segs glob0 c_val c_sesam c_first eq_refl) as (g' & h & o & E & H).
  destruct (H (ieee single) (ieee double) (ieee double) machine_dot machine_dot (powerRZ 2 100) c_num q_ns t_es c_refs [] [] [] "generalstress" "RVSTRESS" "stress" "shell" [0]%nat c_stresses 1 None AllCases c_refs [2; 3]%nat) as (parts & H1 & H2).
  - apply C69_numpy.
  - apply C69_numpy.
  - split; [apply Rlt_le, powerRZ_lt; lra|apply Rle_refl].
  - reflexivity.
  - exact c_mesh.
  - exact c_has_refs.
  - right. now left.
  - apply proper_on_b; [intro K; congruence|vm_compute; reflexivity|cbn; tauto].
  - q_sel.
  - discriminate.
  - exact c_has_stresses.
  - reflexivity.
  - q_asked.
  - discriminate.
  - repeat constructor; cbn; intuition congruence.
  - intros r [<-|[]]; reflexivity.
  - reflexivity.
  - intros b [<-|[]] _; reflexivity.
  - intros j e [<-|[]] X. injection X as <-. exists 24%nat. split; [cbn; tauto|]. intros b v [<-|[]] _ [K|[]]. injection K as <-. exists c_pairs. split; [vm_compute; reflexivity|]. split; [reflexivity|].
    apply Forall_forall. intros p Hp. assert (SM : (small_cell (CF (fst p)) && small_cell (CF (snd p)))%bool = true) by (revert p Hp; apply forallb_forall; vm_compute; reflexivity). apply andb_prop in SM as [S1 S2]. split; now apply small_cell_le.
  - exists g', h, o. cbn [with_cases length c_refs] in H1.
    inversion H2 as [|? ps ? ? HP HF']; subst. inversion HF'; subst. inversion HP as [|? found ? ? HO HP']; subst. inversion HP'; subst. clear H2 HF' HP HP'.
    destruct HO as (e & b & ps & re & im & He & [<-|[]] & _ & [K|[]] & Hre & Are & Him & Aim). injection He as <-. cbn [el_typ] in *.
    assert (ps = c_pairs) by (apply pairs_inj; transitivity (map fz c_vals); [congruence|vm_compute; reflexivity]). subst ps. clear K.
    destruct real_numbers as (R1 & R2 & R3 & R4). destruct (values_processed 0%R 1%R Rplus Rmult Rminus Ropp Rdiv Rinv (sqrt 3) R1 R2 R3 R4 _ _ _ _ Hre) as (s1 & E1). destruct (values_processed 0%R 1%R Rplus Rmult Rminus Ropp Rdiv Rinv (sqrt 3) R1 R2 R3 R4 _ _ _ _ Him) as (s2 & E2).
    assert (T0 : tolerance 25 "generalstress" (powerRZ 2 100) = 0%R) by reflexivity. rewrite T0 in Are, Aim.
    assert (EQ : forall l l', agree 0 l l' -> l' = l) by (intros l l' A; induction A as [|x y l l' Hxy A IH]; [reflexivity|]; f_equal; [|exact IH]; apply Rminus_diag_uniq; destruct (Req_dec (y - x) 0) as [Z|Z]; [exact Z|]; pose proof (Rabs_pos_lt _ Z); lra).
    apply EQ in Are. apply EQ in Aim.
    assert (L24 : forall g : flt * flt -> R, length (map g c_pairs) = 24%nat) by (intro; now rewrite map_length).
    destruct (thin_first _ _ _ (L24 _) E1) as (r1 & G1 & L1). destruct (thin_first _ _ _ (L24 _) E2) as (r2 & G2 & L2). change (re = c_val (FFin false 25 2) :: c_val (FFin false 51 1) :: r1) in G1. change (im = c_val (FFin false 101 0) :: c_val (FFin false 103 0) :: r2) in G2. rewrite G1 in Are. rewrite G2 in Aim. cbn [concat map] in H1. rewrite !app_nil_r in H1.
    destruct found as [|z1 [|z2 rest]]; try discriminate Are. cbn [map] in Are, Aim. injection Are as A1 A2 A3. injection Aim as B1 B2 B3.
    exists rest. split; [exact E|]. split; [|rewrite <- (map_length fst), A3; exact L1]. etransitivity; [exact H1|]. do 2 f_equal. destruct z1 as [x1 y1], z2 as [x2 y2]. cbn [fst snd] in *. subst x1 y1 x2 y2. now rewrite v100, v101, v102, v103.
Qed.
