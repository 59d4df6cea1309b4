(** * AssemblyOpen: opening the top file of an assembly *)
From Verif Require Import Base Flt SeqFile H5 Schema Parsers Data Hydro Files SifName Convert SeqSpec StoreSpec ParserSpec LayoutSpec FileSpec DataSpec
  ListFacts StoreProofs ParserRun FileProofs DataProofs SifNameSpec SifNameProofs ConvertSpec AssemblySpec ConvertFrame ConvertProofs DecFacts AssemblyProofs HydroStart.
Open Scope string_scope.
Open Scope Z_scope.
Open Scope list_scope.
Open Scope monad_scope.

(* ---- the groups below a group ---- *)
Lemma below_iff p : forall q n, below p q = Some n <-> q = p ++ [n].
Proof.
  induction p as [|a p IH]; intros q n.
  - cbn. destruct q as [|x [|y q]]; split; intros H; try discriminate; now injection H as ->.
  - destruct q as [|x q]; cbn; [split; discriminate|]. destruct (String.eqb_spec a x) as [->|N].
    + rewrite IH. split; [now intros ->|]. intros H. now injection H.
    + split; [discriminate|]. intros H. now injection H as -> _.
Qed.
Lemma str_insert_in x s : forall l, In x (str_insert s l) <-> x = s \/ In x l.
Proof.
  induction l as [|t l IH]; cbn; [intuition congruence|]. destruct (str_leb s t); cbn; [intuition congruence|]. rewrite IH. tauto.
Qed.
Lemma str_insert_nodup s : forall l, ~ In s l -> NoDup l -> NoDup (str_insert s l).
Proof.
  induction l as [|t l IH]; intros N ND; cbn; [constructor; [easy|constructor]|]. destruct (str_leb s t); [now constructor|].
  inversion ND as [|? ? Nt ND']; subst. constructor; [|apply IH; [intros H; apply N; now right|exact ND']].
  rewrite str_insert_in. intros [->|H]; [apply N; now left|contradiction].
Qed.
Lemma str_sort_in l : forall x, In x (str_sort l) <-> In x l.
Proof.
  induction l as [|s l IH]; intros x; [easy|]. cbn [str_sort fold_right]. fold (str_sort l). destruct (str_in s (str_sort l)) eqn:E.
  - apply str_in_spec, IH in E. rewrite IH. cbn. split; [now right|]. intros [<-|H]; assumption.
  - rewrite str_insert_in, IH. cbn. intuition congruence.
Qed.
Lemma str_sort_nodup l : NoDup (str_sort l).
Proof.
  induction l as [|s l IH]; [constructor|]. cbn [str_sort fold_right]. fold (str_sort l). destruct (str_in s (str_sort l)) eqn:E; [exact IH|].
  apply str_insert_nodup; [|exact IH]. rewrite <- str_in_spec. congruence.
Qed.
Lemma h5_find_in p h n : h5_find p h = Some n -> In (p, n) h.
Proof.
  unfold h5_find. induction h as [|[k v] h IH]; cbn; [discriminate|]. destruct (path_eqb p k) eqn:E; [|right; now apply IH].
  apply path_eqb_spec in E. intros H. injection H as ->. left. now subst.
Qed.
Lemma child_groups_in h p n : In n (child_groups h p) <-> exists a, h5_find (p ++ [n]) h = Some (Group a).
Proof.
  unfold child_groups. rewrite str_sort_in, in_flat_map. split.
  - intros ([q nd] & _ & H). cbn [fst] in H. destruct (h5_find q h) as [[a| |]|] eqn:E; try destruct H.
    destruct (below p q) as [m|] eqn:B; [|destruct H]. destruct H as [->|[]]. apply below_iff in B. subst q. now exists a.
  - intros (a & H). exists (p ++ [n], Group a). split; [now apply h5_find_in|]. cbn [fst]. rewrite H.
    replace (below p (p ++ [n])) with (Some n) by (symmetry; now apply below_iff). now left.
Qed.
Lemma only_one {A} (x : A) l : NoDup l -> (forall y, In y l <-> y = x) -> l = [x].
Proof.
  intros ND H. destruct l as [|a [|b l]].
  - destruct (proj2 (H x) eq_refl).
  - f_equal. apply H. now left.
  - exfalso. inversion ND as [|? ? N _]; subst. assert (a = x) by (apply H; now left). assert (b = x) by (apply H; right; now left). subst. apply N. now left.
Qed.
Lemma tables_no_group h w segs q a : tables h w segs -> In q (all_own w) -> h5_find q h <> Some (Group a).
Proof.
  intros T H E. apply in_flat_map in H as (n & Hn & H). specialize (T n Hn). destruct (entries_of n segs) as [|e es].
  - rewrite (T q H) in E. discriminate.
  - destruct T as (con & _ & H1 & H2). destruct H as [<-|H]; [rewrite H1 in E; discriminate|].
    assert (L : length (apaths w n) = length (elts_of n)) by (unfold apaths, arr_names, elts_of; now rewrite !map_length).
    apply In_nth_error in H as (i & Hi).
    destruct (nth_error (elts_of n) i) as [t|] eqn:Ht.
    2:{ apply nth_error_None in Ht. assert (i < length (apaths w n))%nat by (apply nth_error_Some; congruence). lia. }
    assert (HC : In (q, t) (combine (apaths w n) (elts_of n))).
    { clear -Hi Ht. revert i Hi Ht. generalize (elts_of n) as ts. induction (apaths w n) as [|p ps IH]; intros [|x ts] [|i] H1 H2; try discriminate.
      - injection H1 as ->. injection H2 as ->. now left.
      - right. exact (IH ts i H1 H2). }
    apply In_nth_error in HC as (j & Hj). clear -H2 Hj E.
    revert j Hj. induction H2 as [|x y l l' Hxy _ IH]; intros [|j] Hj; try discriminate.
    + injection Hj as ->. cbn in Hxy. congruence.
    + exact (IH j Hj).
Qed.

(* ---- the data objects ---- *)
Lemma labelled_init h w ft id idx pos segs o : labelled h w ft id idx pos segs ->
  exists d, sif_init h w o None = Ok d /\ d_group d = w /\ d_filetype d = ft /\ d_seltyp d = Some id /\ first_seen (seg_names segs) (d_names d) /\
    d_file d = o /\ level_is ft pos (d_level d) /\ type_is ft (d_datatype d) /\ attr_str h w "LEVEL" = Ok (d_level d) /\ attr_str h w "DATATYPE" = Ok (d_datatype d) /\
    (ft = "R" -> d_level d = "FIRSTLEVEL" -> attr_int h w "INDEX" = Ok idx).
Proof.
  intros (a & rs & ty & lev & F & L1 & L2 & L3 & L4 & L5 & L6 & L7 & L8 & L9). unfold sif_init, attr_strs, attr_int, attr_str, attrs_at.
  rewrite F, L1, L2, L3, L5, L7. cbn [rbind]. eexists. split; [reflexivity|]. cbn. repeat (split; [trivial; reflexivity|]). intros X Y. now rewrite L9.
Qed.
Lemma level_is_one f p a b : level_is f p a -> level_is f p b -> a = b.
Proof.
  intros A B. destruct A; inversion B; subst; try reflexivity; try lia; try congruence; exfalso; cbn in *; intuition congruence.
Qed.
Lemma type_struc_one f t : type_is f t -> In f ["R"; "T"; "L"] -> t = "STRUCTURAL".
Proof. intros [g I| |g N] H; [reflexivity| |]; exfalso; cbn in *; intuition congruence. Qed.
Lemma type_hydro_one t : type_is "G" t -> t = "HYDRODYNAMIC".
Proof. intros H. inversion H as [g I| |g N]; [|reflexivity|]; exfalso; cbn in *; intuition congruence. Qed.
Lemma level_cases f p l : level_is f p l -> upper_letter f -> p = Alone \/ (exists x, p = Top x) ->
  (l = "FIRSTLEVEL" /\ opens_as f p KFirst /\ In f ["R"; "T"; "L"]) \/ (l = "TOPLEVEL" /\ opens_as f p KTop /\ In f ["R"; "T"; "L"]) \/ f = "G".
Proof.
  intros H U P. destruct H as [f I|l N| |f l I|l|f l I N|f l I N|f p N].
  - left. split; [reflexivity|]. split; [now constructor|exact I].
  - right. left. split; [reflexivity|]. split; [now constructor|now left].
  - left. split; [reflexivity|]. split; [constructor|now left].
  - right. left. split; [reflexivity|]. split; [now constructor|now right].
  - destruct P as [P|(x & P)]; discriminate.
  - destruct P as [P|(x & P)]; discriminate.
  - destruct P as [P|(x & P)]; discriminate.
  - right. right. unfold upper_letter in U. cbn in *. intuition congruence.
Qed.
Lemma labelled_first h w ft id idx pos segs o : labelled h w ft id idx pos segs -> level_is ft pos "FIRSTLEVEL" ->
  exists d, first_init h w o = Ok d /\ d_group d = w /\ d_filetype d = ft /\ d_seltyp d = Some id /\ first_seen (seg_names segs) (d_names d) /\ d_file d = o /\
    (ft = "R" -> d_index d = idx).
Proof.
  intros L LV. destruct (labelled_init _ _ _ _ _ _ _ o L) as (d & E & D1 & D2 & D3 & D4 & D5 & D6 & D7 & D8 & D9 & D10).
  assert (EL : d_level d = "FIRSTLEVEL").
  { exact (level_is_one _ _ _ _ D6 LV). }
  unfold first_init. rewrite E. cbn [rbind]. rewrite D2. destruct (String.eqb_spec ft "R") as [->|N].
  - rewrite D10 by (trivial; reflexivity). cbn [rbind]. eexists. split; [reflexivity|]. cbn. rewrite D1, D3, D5. repeat (split; [reflexivity || exact D4|]). reflexivity.
  - exists d. repeat (split; [assumption || reflexivity|]). intros X. contradiction.
Qed.
Lemma sub_objects_ok h gr data : forall subs,
  (forall s, In s subs -> exists ft id idx l segs, labelled h [gr; s] ft id idx (Below l) segs) ->
  exists es, sub_objects h gr data subs = Ok es /\ forall e, In e es -> exists s, In s subs /\ key_of e = (gr ++ "/" ++ s)%string.
Proof.
  induction subs as [|s subs IH]; intros H.
  - exists []. now split.
  - destruct IH as (es & E & HE); [intros x Hx; apply H; now right|]. cbn [sub_objects].
    destruct (H s (or_introl eq_refl)) as (ft & id & idx & l & segs & L).
    destruct (labelled_init _ _ _ _ _ _ _ (OData data) L) as (d & E1 & D1 & D2 & D3 & D4 & D5 & D6 & D7 & D8 & D9 & D10).
    rewrite D8. cbn [rbind]. destruct (String.eqb_spec (d_level d) "INTERLEVEL") as [X|X].
    + rewrite E1. cbn [rbind]. rewrite E. cbn [rbind]. eexists. split; [reflexivity|]. cbn [app]. intros e [<-|He].
      * exists s. split; [now left|reflexivity].
      * destruct (HE e He) as (x & Hx & K). exists x. split; [now right|exact K].
    + destruct (String.eqb_spec (d_level d) "FIRSTLEVEL") as [Y|Y].
      * rewrite Y in D6. destruct (labelled_first _ _ _ _ _ _ _ (OData data) L D6) as (d2 & E2 & _). rewrite E2. cbn [rbind]. rewrite E. cbn [rbind].
        eexists. split; [reflexivity|]. cbn [app]. intros e [<-|He].
        -- exists s. split; [now left|reflexivity].
        -- destruct (HE e He) as (x & Hx & K). exists x. split; [now right|exact K].
      * cbn [rbind]. rewrite E. cbn [rbind]. eexists. split; [reflexivity|]. cbn [app]. intros e He.
        destruct (HE e He) as (x & Hx & K). exists x. split; [now right|exact K].
Qed.
(** Data objects are made open. *)
Lemma sif_init_open h p f t d : sif_init h p f t = Ok d -> d_open d = true.
Proof.
  unfold sif_init. destruct (attr_strs h p "RECORDS"); [|discriminate]. cbn [rbind]. destruct (attr_int h p "SELTYP"); [|discriminate]. cbn [rbind].
  destruct (attr_str h p "LEVEL"); [|discriminate]. cbn [rbind]. destruct (attr_str h p "FILETYPE"); [|discriminate]. cbn [rbind].
  destruct (attr_str h p "DATATYPE"); [|discriminate]. cbn [rbind]. intros E. now injection E as <-.
Qed.
Lemma hydro_data_inv h p d : hydro_data h p = Ok d -> sif_init h p OFile None = Ok d /\ exists x, hydro_init h d = Ok x.
Proof. unfold hydro_data. destruct (sif_init h p OFile None) as [y|]; [|discriminate]. cbn [rbind]. destruct (hydro_init h y) as [x|] eqn:E; [|discriminate]. cbn [rbind]. intros [= <-]. split; [reflexivity|now exists x]. Qed.
(** A file with one data set and those below it. *)
Lemma file_one h nm letter id pos segs : upper_letter letter -> pos = Alone \/ (exists l, pos = Top l) ->
  labelled h [nm] letter id None pos segs -> (letter = "G" -> tables h [nm] segs /\ definitions segs) -> (forall q, (exists a, h5_find [q] h = Some (Group a)) -> q = nm) ->
  (forall s a, h5_find [nm; s] h = Some (Group a) -> exists ft i idx l sg, labelled h [nm; s] ft i idx (Below l) sg) ->
  exists kd o es, file_data h = Ok ((nm, kd, o) :: es) /\ opens_as letter pos kd /\ d_group o = [nm] /\ d_filetype o = letter /\ d_seltyp o = Some id /\
    first_seen (seg_names segs) (d_names o) /\ d_file o = OFile /\ forall e, In e es -> exists s, key_of e = (nm ++ "/" ++ s)%string.
Proof.
  intros U P L DF R S. unfold file_data.
  assert (C : child_groups h [] = [nm]).
  { apply only_one; [apply str_sort_nodup|]. intros y. rewrite child_groups_in. cbn [app]. split; [apply R|].
    intros ->. destruct L as (a & _ & _ & _ & L & _). now exists a. }
  rewrite C. cbn [objects].
  destruct (labelled_init _ _ _ _ _ _ _ OFile L) as (d & E1 & D1 & D2 & D3 & D4 & D5 & D6 & D7 & D8 & D9 & D10).
  assert (SUB : forall x, exists es, sub_objects h nm x (child_groups h [nm]) = Ok es /\ forall e, In e es -> exists s, In s (child_groups h [nm]) /\ key_of e = (nm ++ "/" ++ s)%string).
  { intros x. apply sub_objects_ok. intros s Hs. apply child_groups_in in Hs as (a & Hs). exact (S s a Hs). }
  rewrite D9. cbn [rbind].
  assert (Q : exists kd o, opens_as letter pos kd /\ d_group o = [nm] /\ d_filetype o = letter /\ d_seltyp o = Some id /\
    first_seen (seg_names segs) (d_names o) /\ d_file o = OFile /\
    (if String.eqb (d_datatype d) "STRUCTURAL" then
           dor level <- attr_str h [nm] "LEVEL";
           if String.eqb level "TOPLEVEL" then dor d <- sif_init h [nm] OFile None; Ok (Some (KTop, d))
           else if String.eqb level "FIRSTLEVEL" then dor d <- first_init h [nm] OFile; Ok (Some (KFirst, d))
           else Ok None
         else if String.eqb (d_datatype d) "HYDRODYNAMIC" then dor d <- hydro_data h [nm]; Ok (Some (KHydro, d))
         else Ok None) = Ok (Some (kd, o))).
  { rewrite D8. unfold hydro_data. rewrite E1. cbn [rbind].
    assert (FI : d_level d = "FIRSTLEVEL" -> exists o, first_init h [nm] OFile = Ok o /\ d_group o = [nm] /\ d_filetype o = letter /\ d_seltyp o = Some id /\
      first_seen (seg_names segs) (d_names o) /\ d_file o = OFile).
    { intros X. rewrite X in D6. destruct (labelled_first _ _ _ _ _ _ _ OFile L D6) as (o & F & F1 & F2 & F3 & F4 & F5 & _). exists o. now repeat split. }
    assert (TOP : d_level d = "TOPLEVEL" -> opens_as letter pos KTop -> In letter ["R"; "T"; "L"] -> exists kd o, opens_as letter pos kd /\ d_group o = [nm] /\
      d_filetype o = letter /\ d_seltyp o = Some id /\ first_seen (seg_names segs) (d_names o) /\ d_file o = OFile /\
      (if String.eqb (d_datatype d) "STRUCTURAL" then if String.eqb (d_level d) "TOPLEVEL" then Ok (Some (KTop, d)) else if String.eqb (d_level d) "FIRSTLEVEL" then dor d <- first_init h [nm] OFile; Ok (Some (KFirst, d)) else Ok None
       else if String.eqb (d_datatype d) "HYDRODYNAMIC" then dor d <- (dor _ <- hydro_init h d; Ok d); Ok (Some (KHydro, d)) else Ok None) = Ok (Some (kd, o))).
    { intros X OA I. exists KTop, d. repeat (split; [assumption|]). rewrite X.
      rewrite (type_struc_one _ _ D7 I). reflexivity. }
    assert (FST : d_level d = "FIRSTLEVEL" -> opens_as letter pos KFirst -> In letter ["R"; "T"; "L"] -> exists kd o, opens_as letter pos kd /\ d_group o = [nm] /\
      d_filetype o = letter /\ d_seltyp o = Some id /\ first_seen (seg_names segs) (d_names o) /\ d_file o = OFile /\
      (if String.eqb (d_datatype d) "STRUCTURAL" then if String.eqb (d_level d) "TOPLEVEL" then Ok (Some (KTop, d)) else if String.eqb (d_level d) "FIRSTLEVEL" then dor d <- first_init h [nm] OFile; Ok (Some (KFirst, d)) else Ok None
       else if String.eqb (d_datatype d) "HYDRODYNAMIC" then dor d <- (dor _ <- hydro_init h d; Ok d); Ok (Some (KHydro, d)) else Ok None) = Ok (Some (kd, o))).
    { intros X OA I. destruct (FI X) as (o & F & F1 & F2 & F3 & F4 & F5). exists KFirst, o. repeat (split; [assumption|]). rewrite X, F.
      rewrite (type_struc_one _ _ D7 I). reflexivity. }
    assert (G : letter = "G" -> exists kd o, opens_as letter pos kd /\ d_group o = [nm] /\
      d_filetype o = letter /\ d_seltyp o = Some id /\ first_seen (seg_names segs) (d_names o) /\ d_file o = OFile /\
      (if String.eqb (d_datatype d) "STRUCTURAL" then if String.eqb (d_level d) "TOPLEVEL" then Ok (Some (KTop, d)) else if String.eqb (d_level d) "FIRSTLEVEL" then dor d <- first_init h [nm] OFile; Ok (Some (KFirst, d)) else Ok None
       else if String.eqb (d_datatype d) "HYDRODYNAMIC" then dor d <- (dor _ <- hydro_init h d; Ok d); Ok (Some (KHydro, d)) else Ok None) = Ok (Some (kd, o))).
    { intros X. exists KHydro, d. split; [rewrite X; constructor|]. repeat (split; [assumption|]).
      rewrite X in D7. rewrite (type_hydro_one _ D7). destruct (DF X) as (T & DS). destruct (hydro_starts h d segs) as (x & HX); [now rewrite D1|exact (sif_init_open _ _ _ _ _ E1)|exact DS|]. now rewrite HX. }
    destruct (level_cases _ _ _ D6 U P) as [(X1 & X2 & X3)|[(X1 & X2 & X3)|X]]; [exact (FST X1 X2 X3)|exact (TOP X1 X2 X3)|exact (G X)]. }
  destruct Q as (kd & o & Q1 & Q2 & Q3 & Q4 & Q5 & Q6 & Q7). rewrite Q7. cbn [rbind]. destruct (SUB (d_group o)) as (es & ES & HE). rewrite ES. cbn [rbind].
  exists kd, o, (es ++ []). split; [reflexivity|]. repeat (split; [assumption|]). intros e He. rewrite app_nil_r in He. destruct (HE e He) as (s & _ & K). now exists s.
Qed.
Lemma first_init_open h p f d : first_init h p f = Ok d -> d_open d = true.
Proof.
  unfold first_init. destruct (sif_init h p f None) as [x|] eqn:E; [|discriminate]. cbn [rbind]. apply sif_init_open in E.
  destruct (String.eqb _ _); [|now intros X; injection X as <-]. destruct (attr_int h p "INDEX"); [|discriminate]. cbn [rbind]. intros X. now injection X as <-.
Qed.
Lemma sub_objects_open h gr data : forall subs es, sub_objects h gr data subs = Ok es -> forall e, In e es -> d_open (obj_of e) = true.
Proof.
  induction subs as [|s subs IH]; intros es H e He; [injection H as <-; destruct He|]. cbn [sub_objects] in H.
  destruct (attr_str h [gr; s] "LEVEL") as [lev|]; [|discriminate]. cbn [rbind] in H.
  destruct (sub_objects h gr data subs) as [rest|] eqn:R.
  - assert (Q : forall l, (rbind (Ok rest) (fun r => Ok (l ++ r))) = Ok es -> (forall e, In e l -> d_open (obj_of e) = true) -> d_open (obj_of e) = true).
    { intros l X Hl. cbn [rbind] in X. injection X as <-. apply in_app_or in He as [He|He]; [now apply Hl|now apply (IH rest)]. }
    destruct (String.eqb lev "INTERLEVEL"); [|destruct (String.eqb lev "FIRSTLEVEL")].
    + destruct (sif_init h [gr; s] (OData data) None) as [d|] eqn:E; [|discriminate]. cbn [rbind] in H. apply (Q _ H). intros x [<-|[]]. exact (sif_init_open _ _ _ _ _ E).
    + destruct (first_init h [gr; s] (OData data)) as [d|] eqn:E; [|discriminate]. cbn [rbind] in H. apply (Q _ H). intros x [<-|[]]. exact (first_init_open _ _ _ _ E).
    + apply (Q [] H). intros x [].
  - destruct (if String.eqb lev "INTERLEVEL" then _ else _); discriminate.
Qed.
Lemma objects_open h : forall grs data es, (forall k d, data = Some (k, d) -> d_open d = true) -> objects h data grs = Ok es -> forall e, In e es -> d_open (obj_of e) = true.
Proof.
  induction grs as [|gr grs IH]; intros data es HD H e He; [injection H as <-; destruct He|]. cbn [objects] in H.
  destruct (attr_str h [gr] "DATATYPE") as [dt|]; [|discriminate]. cbn [rbind] in H.
  match type of H with rbind ?m _ = _ => destruct m as [data'|] eqn:M; [|discriminate] end. cbn [rbind] in H.
  assert (HD' : forall k d, data' = Some (k, d) -> d_open d = true).
  { destruct (String.eqb dt "STRUCTURAL"); [|destruct (String.eqb dt "HYDRODYNAMIC"); [|injection M as <-; exact HD]].
    - destruct (attr_str h [gr] "LEVEL") as [lev|]; [|discriminate]. cbn [rbind] in M.
      destruct (String.eqb lev "TOPLEVEL"); [|destruct (String.eqb lev "FIRSTLEVEL"); [|injection M as <-; exact HD]].
      + destruct (sif_init h [gr] OFile None) as [d|] eqn:E; [|discriminate]. cbn [rbind] in M. injection M as <-. intros k x X. injection X as <- <-. exact (sif_init_open _ _ _ _ _ E).
      + destruct (first_init h [gr] OFile) as [d|] eqn:E; [|discriminate]. cbn [rbind] in M. injection M as <-. intros k x X. injection X as <- <-. exact (first_init_open _ _ _ _ E).
    - destruct (hydro_data h [gr]) as [d|] eqn:E; [|discriminate]. cbn [rbind] in M. injection M as <-. intros k x X. injection X as <- <-. apply hydro_data_inv in E as (E & _). exact (sif_init_open _ _ _ _ _ E). }
  destruct data' as [[k d]|]; [|discriminate].
  destruct (sub_objects h gr (d_group d) (child_groups h [gr])) as [subs|] eqn:S; [|discriminate]. cbn [rbind] in H.
  destruct (objects h (Some (k, d)) grs) as [rest|] eqn:R; [|discriminate]. cbn [rbind] in H. injection H as <-.
  destruct He as [<-|He]; [exact (HD' k d eq_refl)|]. apply in_app_or in He as [He|He]; [exact (sub_objects_open _ _ _ _ _ S e He)|exact (IH _ _ HD' R e He)].
Qed.
Lemma file_data_open h es : file_data h = Ok es -> forall e, In e es -> d_open (obj_of e) = true.
Proof. apply objects_open. discriminate. Qed.
(** Opening the top file of an assembly. *)
Theorem open_assembly d top fp letter no ext k id b segs ps g :
  sesam_name (s2l top) (s2l fp, s2l letter, no, s2l ext) -> no_extension (s2l fp) -> ~ sin_ext (s2l ext) -> upper_letter letter ->
  no = s2l (dec id) -> assembly d fp letter ext fp k id b segs ps -> file_in d top = Some b -> complete letter segs -> 0 < g_batch g ->
  exists g' h kd o pos, open_sif d top g = Ok (g', h, kd, o) /\ tables h [nm_of fp letter id] segs /\ top_pos segs pos /\ opens_as letter pos kd /\
    d_group o = [nm_of fp letter id] /\ d_filetype o = letter /\ d_seltyp o = Some id /\ first_seen (seg_names segs) (d_names o) /\ d_file o = OFile /\ d_open o = true.
Proof.
  intros HN NE NS U -> HA HF HC Hb. pose proof (proper_parsed _ _ _ _ _ HN NE) as PS.
  destruct (convert_assembly d top fp letter (s2l (dec id)) ext true "" fp k id b segs ps g [] eq_refl U HA HF Hb) as (g' & h' & E & (pos & TP & L) & T & PR & FR).
  { intros q _. reflexivity. }
  set (nm := nm_of fp letter id) in *.
  destruct (file_one h' nm letter id pos segs U) as (kd & o & es & FD & O1 & O2 & O3 & O4 & O5 & O6 & O7).
  { destruct TP; [now left|right; now eexists]. }
  { exact L. }
  { intros X. split; [exact T|now apply HC]. }
  { intros q (a & Hq). destruct (String.eqb_spec q nm) as [|N]; [assumption|exfalso]. rewrite FR in Hq; [discriminate| |].
    - intros [X|X]; [now injection X|]. apply all_own_length in X. discriminate.
    - intros p b' _ _ [X|X]; [discriminate|]. apply all_own_length in X. discriminate. }
  { intros s a Hs. destruct (In_dec (list_eq_dec string_dec) [nm; s] (all_own [nm])) as [I|I]; [now apply (tables_no_group _ _ _ _ a T) in I|].
    assert (X : exists p b', In p (lower_places ext ps) /\ file_in d (lower_file fp ext p) = Some b' /\ [nm; s] = lower_group fp letter id p).
    { destruct (existsb (fun p => match file_in d (lower_file fp ext p) with Some _ => path_eqb [nm; s] (lower_group fp letter id p) | None => false end) (lower_places ext ps)) eqn:X.
      - apply existsb_exists in X as (p & Hp & X). destruct (file_in d (lower_file fp ext p)) as [b'|] eqn:F; [|discriminate]. apply path_eqb_spec in X. exists p, b'. now repeat split.
      - exfalso. rewrite FR in Hs; [discriminate| |].
        + intros [Y|Y]; [discriminate|contradiction].
        + intros p b' Hp F [Y|Y]; [|apply all_own_length in Y; discriminate].
          rewrite <- Bool.not_true_iff_false in X. apply X. apply existsb_exists. exists p. split; [exact Hp|]. rewrite F, Y. apply path_eqb_refl. }
    destruct X as (p & b' & Hp & F & EG). destruct (as_lower _ _ _ _ _ _ _ _ _ _ HA p b' Hp F) as (_ & bs & sg & C1 & C2 & C3). destruct (PR p b' Hp F bs sg C1 C2 C3) as (_ & LL). rewrite <- EG in LL. now exists letter, (pl_type p), (lower_index letter p), (pl_level p), sg. }
  assert (SC : sif_checked (s2l top) = Ok (s2l fp, s2l letter, s2l (dec id), s2l ext)).
  { apply sif_checked_ok. split; [now apply parse_sifname_ok|exact NS]. }
  unfold open_sif. rewrite SC. cbn [rbind].
  match type of E with ?l = _ => match goal with |- context [convert ?a ?b0 ?c ?d0 ?e ?f ?g0 ?h0] => change (convert a b0 c d0 e f g0 h0) with l end end. rewrite E. cbn [rbind snd fst]. rewrite PS. cbn [rbind]. rewrite FD. cbn [rbind get_data].
  assert (EN : l2s (s2l fp ++ s2l letter ++ s2l (dec id)) = nm) by (rewrite <- !s2l_app; apply l2s_s2l).
  rewrite EN. unfold key_of at 1. cbn [fst]. rewrite String.eqb_refl. cbn [rbind kind_of obj_of fst snd].
  exists g', h', kd, o, pos. split; [reflexivity|]. split; [exact T|]. repeat (split; [assumption|]).
  exact (file_data_open h' _ FD (nm, kd, o) (or_introl eq_refl)).
Qed.

(** A hydrodynamic file without one of the records every such file has is not
    opened. *)
Theorem open_refused d top fp no ext k id b segs ps g :
  sesam_name (s2l top) (s2l fp, s2l "G", no, s2l ext) -> no_extension (s2l fp) -> ~ sin_ext (s2l ext) ->
  no = s2l (dec id) -> assembly d fp "G" ext fp k id b segs ps -> file_in d top = Some b -> ~ definitions segs -> 0 < g_batch g ->
  open_sif d top g = Err NoSuchRecordError.
Proof.
  intros HN NE NS -> HA HF HC Hb. pose proof (proper_parsed _ _ _ _ _ HN NE) as PS.
  assert (U : upper_letter "G") by (do 3 right; now left).
  destruct (convert_assembly d top fp "G" (s2l (dec id)) ext true "" fp k id b segs ps g [] eq_refl U HA HF Hb) as (g' & h' & E & (pos & TP & L) & T & PR & FR).
  { intros q _. reflexivity. }
  set (nm := nm_of fp "G" id) in *.
  assert (C : child_groups h' [] = [nm]).
  { apply only_one; [apply str_sort_nodup|]. intros y. rewrite child_groups_in. cbn [app]. split.
    - intros (a & Hq). destruct (String.eqb_spec y nm) as [|N]; [assumption|exfalso]. rewrite FR in Hq; [discriminate| |].
      + intros [X|X]; [now injection X|]. apply all_own_length in X. discriminate.
      + intros p b' _ _ [X|X]; [discriminate|]. apply all_own_length in X. discriminate.
    - intros ->. destruct L as (a & _ & _ & _ & L & _). now exists a. }
  destruct (labelled_init _ _ _ _ _ _ _ OFile L) as (o & E1 & D1 & D2 & D3 & D4 & D5 & D6 & D7 & D8 & D9 & D10).
  assert (FD : file_data h' = Err NoSuchRecordError).
  { unfold file_data. rewrite C. cbn [objects]. rewrite D9. cbn [rbind]. rewrite (type_hydro_one _ D7).
    change (String.eqb "HYDRODYNAMIC" "STRUCTURAL") with false. change (String.eqb "HYDRODYNAMIC" "HYDRODYNAMIC") with true. cbv iota. unfold hydro_data. rewrite E1. cbn [rbind].
    rewrite (hydro_refused h' o segs); [reflexivity|now rewrite D1|exact (sif_init_open _ _ _ _ _ E1)|exact HC]. }
  assert (SC : sif_checked (s2l top) = Ok (s2l fp, s2l "G", s2l (dec id), s2l ext)).
  { apply sif_checked_ok. split; [now apply parse_sifname_ok|exact NS]. }
  unfold open_sif. rewrite SC. cbn [rbind].
  match type of E with ?l = _ => match goal with |- context [convert ?a ?b0 ?c ?d0 ?e ?f ?g0 ?h0] => change (convert a b0 c d0 e f g0 h0) with l end end. rewrite E. cbn [rbind snd fst].
  rewrite PS. cbn [rbind]. now rewrite FD.
Qed.

(** Whatever is in the files, a data set is only found under a name stored. *)
Definition slashed (k : string) : Prop := exists a b, k = (a ++ "/" ++ b)%string.
Lemma sub_keys h gr data : forall subs es, sub_objects h gr data subs = Ok es -> forall e, In e es -> slashed (key_of e).
Proof.
  induction subs as [|s subs IH]; intros es H e I; cbn [sub_objects] in H; [injection H as <-; destruct I|].
  destruct (attr_str h [gr; s] "LEVEL") as [lv|]; [|discriminate]. cbn [rbind] in H.
  match type of H with rbind ?m _ = _ => destruct m as [e1|] eqn:E1; [|discriminate] end. cbn [rbind] in H.
  destruct (sub_objects h gr data subs) as [e2|] eqn:E2; [|discriminate]. cbn [rbind] in H. injection H as <-.
  apply in_app_or in I as [I|I]; [|exact (IH _ eq_refl _ I)]. exists gr, s.
  destruct (String.eqb lv "INTERLEVEL").
  - destruct (sif_init h [gr; s] (OData data) None); [|discriminate]. injection E1 as <-. destruct I as [<-|[]]. reflexivity.
  - destruct (String.eqb lv "FIRSTLEVEL"); [|injection E1 as <-; destruct I].
    destruct (first_init h [gr; s] (OData data)); [|discriminate]. injection E1 as <-. destruct I as [<-|[]]. reflexivity.
Qed.
Lemma object_keys h : forall grs data es, objects h data grs = Ok es -> forall e, In e es -> In (key_of e) grs \/ slashed (key_of e).
Proof.
  induction grs as [|gr grs IH]; intros data es H e I; cbn [objects] in H; [injection H as <-; destruct I|].
  destruct (attr_str h [gr] "DATATYPE") as [ty|]; [|discriminate]. cbn [rbind] in H.
  match type of H with rbind ?m _ = _ => destruct m as [[[k d]|]|]; cbn [rbind] in H; try discriminate end.
  destruct (sub_objects h gr (d_group d) (child_groups h [gr])) as [e1|] eqn:E1; [|discriminate]. cbn [rbind] in H.
  destruct (objects h (Some (k, d)) grs) as [e2|] eqn:E2; [|discriminate]. cbn [rbind] in H. injection H as <-.
  destruct I as [<-|I]; [left; now left|]. apply in_app_or in I as [I|I]; [right; exact (sub_keys _ _ _ _ _ E1 _ I)|].
  destruct (IH _ _ E2 _ I) as [X|X]; [left; now right|now right].
Qed.
Lemma get_data_in k : forall es x, get_data k es = Ok x -> exists e, In e es /\ key_of e = k.
Proof.
  induction es as [|e es IH]; intros x H; cbn [get_data] in H; [discriminate|]. destruct (String.eqb_spec k (key_of e)) as [->|N].
  - exists e. split; [now left|reflexivity].
  - destruct (IH _ H) as (y & I & E). exists y. split; [now right|exact E].
Qed.
Lemma slash_not_word : ~ word_char "/"%char. Proof. unfold word_char, any_of. intros H. cbn in H. intuition discriminate. Qed.
Lemma slash_not_type : ~ type_letter "/"%char. Proof. unfold type_letter, any_of. intros H. cbn in H. intuition discriminate. Qed.
Lemma slash_not_digit : ~ digit_char "/"%char. Proof. unfold digit_char, any_of. intros H. cbn in H. intuition discriminate. Qed.
Lemma name_no_slash s p l n e : reading s (p, l, n, e) -> ~ slashed (l2s (p ++ l ++ n)).
Proof.
  intros (c & h & d & r & -> & Hc & Hp & Hn & _) (a & b & E).
  assert (I : In "/"%char (s2l (l2s (p ++ [c] ++ n)))) by (rewrite E, !s2l_app; apply in_or_app; right; now left).
  rewrite s2l_l2s in I. apply in_app_or in I as [I|I]; [rewrite Forall_forall in Hp; exact (slash_not_word (Hp _ I))|].
  apply in_app_or in I as [[->|[]]|I]; [exact (slash_not_type Hc)|].
  apply number_digits in Hn. rewrite Forall_forall in Hn. exact (slash_not_digit (Hn _ I)).
Qed.
Theorem open_found d top g g' h kd o : open_sif d top g = Ok (g', h, kd, o) ->
  exists p l n e evs a, first_reading (s2l top) (p, l, n, e) /\ convert d top (p, l, n, e) true "" [] g [] = Ok (g', h, evs) /\
    h5_find [l2s (p ++ l ++ n)] h = Some (Group a).
Proof.
  intros H. unfold open_sif in H. destruct (sif_checked (s2l top)) as [x|] eqn:C; [|discriminate]. cbn [rbind] in H.
  apply sif_checked_ok in C as (FR & _). rewrite (proj2 (parse_sifname_ok _ _) FR) in H.
  destruct (convert d top x true "" [] g []) as [[[g1 h1] evs]|] eqn:CV; [|discriminate]. cbn [rbind fst snd] in H.
  destruct (file_data h1) as [es|] eqn:FD; [|discriminate]. cbn [rbind] in H. destruct x as [[[p l] n] e].
  destruct (get_data (l2s (p ++ l ++ n)) es) as [[k1 o1]|] eqn:GD; [|discriminate]. cbn [rbind] in H. injection H as <- <- <- <-.
  apply get_data_in in GD as (en & I & EK). apply object_keys with (1 := FD) in I. rewrite EK in I.
  destruct I as [I|I]; [|exfalso; exact (name_no_slash _ _ _ _ _ (proj1 FR) I)].
  apply child_groups_in in I as (a & I). exists p, l, n, e, evs, a. split; [exact FR|]. split; [exact CV|exact I].
Qed.
