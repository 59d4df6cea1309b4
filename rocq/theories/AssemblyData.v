(** * AssemblyData: the data objects of a converted assembly. *)
From Coq Require Import Sorted.
From Verif Require Import Base Flt SeqFile H5 Schema Parsers Data Files SifName Convert SeqSpec StoreSpec ParserSpec LayoutSpec FileSpec DataSpec
  ListFacts StoreProofs SifNameSpec SifNameProofs ConvertSpec AssemblySpec ConvertProofs AssemblyProofs AssemblyOpen.
Open Scope string_scope.
Open Scope Z_scope.
Open Scope list_scope.

(* ---- order of names ---- *)
Lemma ascii_cmp a b : Ascii.compare a b = N.compare (N_of_ascii a) (N_of_ascii b). Proof. reflexivity. Qed.
Lemma ascii_lt a b : Nat.ltb (nat_of_ascii a) (nat_of_ascii b) = true <-> Ascii.compare a b = Lt.
Proof. rewrite ascii_cmp, N.compare_lt_iff, Nat.ltb_lt. unfold nat_of_ascii. lia. Qed.
Lemma ascii_refl a : Ascii.compare a a = Eq. Proof. rewrite ascii_cmp. apply N.compare_refl. Qed.
Lemma ascii_total a b : a <> b -> Nat.ltb (nat_of_ascii a) (nat_of_ascii b) = false -> Ascii.compare b a = Lt.
Proof.
  intros N H. rewrite ascii_cmp, N.compare_lt_iff. apply Nat.ltb_ge in H. unfold nat_of_ascii in H.
  assert (N_of_ascii a <> N_of_ascii b) by (intro E; apply N; rewrite <- (ascii_N_embedding a), <- (ascii_N_embedding b); now rewrite E). lia.
Qed.
Lemma str_leb_true s : forall t, str_leb s t = true -> s <> t -> str_lt s t.
Proof.
  unfold str_lt. induction s as [|a s IH]; intros [|b t] H N; cbn [str_leb String.compare] in *; try congruence; try reflexivity.
  destruct (Ascii.eqb_spec a b) as [->|D].
  - rewrite ascii_refl. apply IH; [exact H|congruence].
  - apply ascii_lt in H. now rewrite H.
Qed.
Lemma str_leb_false s : forall t, str_leb s t = false -> str_lt t s.
Proof.
  unfold str_lt. induction s as [|a s IH]; intros [|b t] H; cbn [str_leb String.compare] in *; try congruence; try reflexivity.
  destruct (Ascii.eqb_spec a b) as [->|D].
  - rewrite ascii_refl. now apply IH.
  - now rewrite (ascii_total a b D H).
Qed.
Lemma str_lt_trans a : forall b c, str_lt a b -> str_lt b c -> str_lt a c.
Proof.
  unfold str_lt. induction a as [|x a IH]; intros [|y b] [|z c] H1 H2; cbn [String.compare] in *; try discriminate; try reflexivity.
  rewrite ascii_cmp in *. destruct (N.compare_spec (N_of_ascii x) (N_of_ascii y)) as [E1|E1|E1]; [| |discriminate];
    destruct (N.compare_spec (N_of_ascii y) (N_of_ascii z)) as [E2|E2|E2]; try discriminate.
  - rewrite E1, E2, N.compare_refl. now apply (IH b).
  - rewrite (proj2 (N.compare_lt_iff _ _)) by lia. reflexivity.
  - rewrite (proj2 (N.compare_lt_iff _ _)) by lia. reflexivity.
  - rewrite (proj2 (N.compare_lt_iff _ _)) by lia. reflexivity.
Qed.
Lemma str_insert_sorted s : forall l, ~ In s l -> StronglySorted str_lt l -> StronglySorted str_lt (str_insert s l).
Proof.
  induction l as [|t l IH]; intros N S; cbn [str_insert]; [now constructor; constructor|]. inversion S as [|x xs S1 S2]; subst.
  destruct (str_leb s t) eqn:E.
  - apply str_leb_true in E; [|intros ->; apply N; now left]. constructor; [exact S|]. constructor; [exact E|].
    eapply Forall_impl; [|exact S2]. intros c Hc. exact (str_lt_trans _ _ _ E Hc).
  - apply str_leb_false in E. constructor.
    + apply IH; [|exact S1]. intro I. apply N. now right.
    + apply Forall_forall. intros x Hx. apply str_insert_in in Hx as [->|Hx]; [exact E|]. rewrite Forall_forall in S2. now apply S2.
Qed.
Lemma str_sort_sorted l : StronglySorted str_lt (str_sort l).
Proof.
  induction l as [|s l IH]; [constructor|]. change (str_sort (s :: l)) with (if str_in s (str_sort l) then str_sort l else str_insert s (str_sort l)).
  destruct (str_in s (str_sort l)) eqn:E; [exact IH|]. apply str_insert_sorted; [|exact IH]. intros I. apply str_in_spec in I. congruence.
Qed.

(* ---- the data objects below a group ---- *)
Lemma below_level ft l lev : In ft ["R"; "T"; "L"] -> level_is ft (Below l) lev ->
  (lev = "INTERLEVEL" /\ below_as ft l KInter) \/ (lev = "FIRSTLEVEL" /\ below_as ft l KFirst).
Proof.
  intros I H. inversion H as [| | | |l' E|f l' I' L E|f l' I' L E|f p N E]; subst.
  - right. split; [reflexivity|constructor].
  - left. split; [reflexivity|now constructor].
  - right. split; [reflexivity|now constructor].
  - contradiction.
Qed.
Definition sub_made (h : h5) (gr ft : string) (data : path) (s : string) (e : Files.entry) : Prop :=
  key_of e = under gr s /\ d_group (obj_of e) = [gr; s] /\ d_filetype (obj_of e) = ft /\ d_file (obj_of e) = OData data /\
  forall id idx l segs, labelled h [gr; s] ft id idx (Below l) segs ->
    below_as ft l (kind_of e) /\ d_seltyp (obj_of e) = Some id /\ first_seen (seg_names segs) (d_names (obj_of e)) /\ (ft = "R" -> d_index (obj_of e) = idx).
Lemma sif_init_det h w o d d' : sif_init h w o None = Ok d -> sif_init h w o None = Ok d' -> d = d'.
Proof. congruence. Qed.
Lemma sub_objects_all h gr data ft : In ft ["R"; "T"; "L"] -> forall subs,
  (forall s, In s subs -> exists id idx l segs, labelled h [gr; s] ft id idx (Below l) segs) ->
  exists es, sub_objects h gr data subs = Ok es /\ Forall2 (sub_made h gr ft data) subs es.
Proof.
  intros I. induction subs as [|s subs IH]; intros H.
  - exists []. now split.
  - destruct IH as (es & E & HE); [intros x Hx; apply H; now right|]. cbn [sub_objects].
    destruct (H s (or_introl eq_refl)) as (id & idx & l & segs & L).
    destruct (labelled_init _ _ _ _ _ _ _ (OData data) L) as (d & E1 & D1 & D2 & D3 & D4 & D5 & D6 & D7 & D8 & D9 & D10).
    rewrite D8. cbn [rbind]. destruct (below_level _ _ _ I D6) as [(X & B)|(X & B)]; rewrite X.
    + change (String.eqb "INTERLEVEL" "INTERLEVEL") with true. cbv iota. rewrite E1. cbn [rbind]. rewrite E. cbn [rbind app]. eexists. split; [reflexivity|].
      constructor; [|exact HE]. split; [reflexivity|]. cbn [obj_of kind_of snd fst]. split; [exact D1|]. split; [exact D2|]. split; [exact D5|]. intros id' idx' l' segs' L'.
      destruct (labelled_init _ _ _ _ _ _ _ (OData data) L') as (d' & F1 & F2 & F3 & F4 & F5 & F6 & F7 & F8 & F9 & F10 & F11). rewrite E1 in F1. injection F1 as <-.
      destruct (below_level _ _ _ I F7) as [(Y & B')|(Y & B')]; [|congruence]. split; [exact B'|]. split; [exact F4|]. split; [exact F5|].
      intros ->. inversion B' as [|f l0 J|]; subst; cbn in J; intuition discriminate.
    + change (String.eqb "FIRSTLEVEL" "INTERLEVEL") with false. change (String.eqb "FIRSTLEVEL" "FIRSTLEVEL") with true. cbv iota.
      rewrite X in D6. destruct (labelled_first _ _ _ _ _ _ _ (OData data) L D6) as (d2 & E2 & G1 & G2 & G3 & G4 & G5 & G6). rewrite E2. cbn [rbind]. rewrite E. cbn [rbind app].
      eexists. split; [reflexivity|]. constructor; [|exact HE]. split; [reflexivity|]. cbn [obj_of kind_of snd fst]. split; [exact G1|]. split; [exact G2|]. split; [exact G5|].
      intros id' idx' l' segs' L'.
      destruct (labelled_init _ _ _ _ _ _ _ (OData data) L') as (d' & F1 & F2 & F3 & F4 & F5 & F6 & F7 & F8 & F9 & F10 & F11). rewrite E1 in F1. injection F1 as <-.
      destruct (below_level _ _ _ I F7) as [(Y & B')|(Y & B')]; [congruence|]. rewrite X in F7.
      destruct (labelled_first _ _ _ _ _ _ _ (OData data) L' F7) as (d3 & E3 & K1 & K2 & K3 & K4 & K5 & K6). rewrite E2 in E3. injection E3 as <-. now repeat split.
Qed.
Lemma get_data_nodup es : NoDup (map key_of es) -> forall e, In e es -> get_data (key_of e) es = Ok (kind_of e, obj_of e).
Proof.
  induction es as [|x es IH]; intros ND e []; cbn [get_data].
  - subst x. now rewrite String.eqb_refl.
  - inversion ND as [|y ys N ND']; subst. destruct (String.eqb_spec (key_of e) (key_of x)) as [E|_]; [|now apply IH].
    exfalso. apply N. rewrite <- E. now apply in_map.
Qed.
Lemma append_length a b : String.length (a ++ b)%string = (String.length a + String.length b)%nat.
Proof. induction a; cbn; congruence. Qed.
Lemma under_inj a b c : under a b = under a c -> b = c.
Proof. unfold under. induction a as [|x a IH]; cbn; intros H; [now injection H|]. injection H as H. now apply IH. Qed.
Lemma under_not a b : under a b <> a.
Proof. intros H. apply (f_equal String.length) in H. unfold under in H. rewrite append_length in H. cbn in H. lia. Qed.

(** A file with one data set and those below it. *)
Lemma file_all h nm letter id pos segs : In letter ["R"; "T"; "L"] -> pos = Alone \/ (exists l, pos = Top l) ->
  labelled h [nm] letter id None pos segs -> (forall q, (exists a, h5_find [q] h = Some (Group a)) -> q = nm) ->
  (forall s a, h5_find [nm; s] h = Some (Group a) -> exists i idx l sg, labelled h [nm; s] letter i idx (Below l) sg) ->
  exists kd o es, file_data h = Ok ((nm, kd, o) :: es) /\ opens_as letter pos kd /\ d_group o = [nm] /\ d_filetype o = letter /\ d_seltyp o = Some id /\
    first_seen (seg_names segs) (d_names o) /\ d_file o = OFile /\ Forall2 (sub_made h nm letter [nm]) (child_groups h [nm]) es.
Proof.
  intros U P L R S.
  destruct (file_one h nm letter id pos segs) as (kd & o & es & FD & O1 & O2 & O3 & O4 & O5 & O6 & _).
  { unfold upper_letter. cbn in *. intuition. }
  { exact P. } { exact L. } { intros ->. exfalso. cbn in U. intuition discriminate. } { exact R. }
  { intros s a Hs. destruct (S s a Hs) as (i & idx & l & sg & X). now exists letter, i, idx, l, sg. }
  exists kd, o, es. repeat (split; [assumption|]).
  assert (SUB : exists es', sub_objects h nm [nm] (child_groups h [nm]) = Ok es' /\ Forall2 (sub_made h nm letter [nm]) (child_groups h [nm]) es').
  { apply sub_objects_all; [exact U|]. intros s Hs. apply child_groups_in in Hs as (a & Hs). exact (S s a Hs). }
  destruct SUB as (es' & E' & F). assert (es = es') as ->; [|exact F].
  unfold file_data in FD.
  assert (C : child_groups h [] = [nm]).
  { apply only_one; [apply str_sort_nodup|]. intros y. rewrite child_groups_in. cbn [app]. split; [apply R|].
    intros ->. destruct L as (a & _ & _ & _ & L & _). now exists a. }
  rewrite C in FD. cbn [objects] in FD. destruct (attr_str h [nm] "DATATYPE"); [|discriminate]. cbn [rbind] in FD.
  match type of FD with rbind ?m _ = _ => destruct m as [[[k' d']|]|]; [|discriminate|discriminate] end. cbn [rbind] in FD.
  destruct (sub_objects h nm (d_group d') (child_groups h [nm])) as [x|] eqn:EX; [|discriminate]. cbn [rbind] in FD. rewrite app_nil_r in FD.
  injection FD as -> -> ->. rewrite O2 in EX. congruence.
Qed.

(** A converted assembly, opened: which data sets it has, and what they hold. *)
Definition sub_of (p : path) : string := match p with [_; s] => s | _ => "" end.
Lemma lower_group_sub pre letter t p : lower_group pre letter t p = [nm_of pre letter t; sub_of (lower_group pre letter t p)].
Proof. unfold lower_group. destruct (sub_group_shape pre letter t (pl_type p) (lower_index letter p)) as (r & E). rewrite E. reflexivity. Qed.
Theorem assembly_data d top fp letter no ext (usefp : bool) prefix pre k id b segs ps g :
  pre = (if usefp then prefix ++ fp else prefix)%string -> In letter ["R"; "T"; "L"] ->
  assembly d fp letter ext pre k id b segs ps -> file_in d top = Some b -> 0 < g_batch g ->
  exists g' h evs es, convert d top (s2l fp, s2l letter, no, s2l ext) usefp prefix [] g [] = Ok (g', h, evs) /\ file_data h = Ok es /\
    let nm := nm_of pre letter id in
    (exists subs, map key_of es = nm :: map (under nm) subs /\ StronglySorted str_lt subs /\
       forall s, In s subs <-> exists p b', In p (lower_places ext ps) /\ file_in d (lower_file fp ext p) = Some b' /\ lower_group pre letter id p = [nm; s]) /\
    (exists pos kd o, get_data nm es = Ok (kd, o) /\ top_pos segs pos /\ opens_as letter pos kd /\ d_open o = true /\ d_group o = [nm] /\
       d_filetype o = letter /\ d_seltyp o = Some id /\ first_seen (seg_names segs) (d_names o) /\ tables h (d_group o) segs) /\
    forall p b', In p (lower_places ext ps) -> file_in d (lower_file fp ext p) = Some b' ->
      exists kd o, get_data (under nm (sub_of (lower_group pre letter id p))) es = Ok (kd, o) /\ below_as letter (pl_level p) kd /\ d_open o = true /\
        d_group o = lower_group pre letter id p /\ d_filetype o = letter /\ d_seltyp o = Some (pl_type p) /\ (letter = "R" -> d_index o = Some (pl_rep p)) /\
        d_file o = OData [nm] /\
        forall bs segs', contents k b' bs -> file_of [] k (pl_type p) true bs segs' -> some_record segs' ->
          first_seen (seg_names segs') (d_names o) /\ tables h (d_group o) segs'.
Proof.
  intros Hpre I HA HF Hb. assert (U : upper_letter letter) by (unfold upper_letter; cbn in *; intuition).
  destruct (convert_assembly d top fp letter no ext usefp prefix pre k id b segs ps g [] Hpre U HA HF Hb) as (g' & h & E & (pos & TP & L) & T & PR & FR).
  { intros q _. reflexivity. }
  set (nm := nm_of pre letter id) in *.
  assert (LG : forall p, lower_group pre letter id p = [nm; sub_of (lower_group pre letter id p)]) by (intro p; apply lower_group_sub).
  assert (SP : forall s a, h5_find [nm; s] h = Some (Group a) -> exists p b', In p (lower_places ext ps) /\ file_in d (lower_file fp ext p) = Some b' /\ lower_group pre letter id p = [nm; s]).
  { intros s a Hs. destruct (In_dec (list_eq_dec string_dec) [nm; s] (all_own [nm])) as [J|J]; [now apply (tables_no_group _ _ _ _ a T) in J|].
    destruct (existsb (fun p => match file_in d (lower_file fp ext p) with Some _ => path_eqb [nm; s] (lower_group pre letter id p) | None => false end) (lower_places ext ps)) eqn:X.
    - apply existsb_exists in X as (p & Hp & X). destruct (file_in d (lower_file fp ext p)) as [b'|] eqn:F; [|discriminate]. apply path_eqb_spec in X. exists p, b'. now repeat split.
    - exfalso. rewrite FR in Hs; [discriminate| |].
      + intros [Y|Y]; [discriminate|contradiction].
      + intros p b' Hp F [Y|Y]; [|apply all_own_length in Y; rewrite LG in Y; discriminate].
        rewrite <- Bool.not_true_iff_false in X. apply X. apply existsb_exists. exists p. split; [exact Hp|]. rewrite F, Y. apply path_eqb_refl. }
  assert (LB : forall p b', In p (lower_places ext ps) -> file_in d (lower_file fp ext p) = Some b' -> exists sg, labelled h (lower_group pre letter id p) letter (pl_type p) (lower_index letter p) (Below (pl_level p)) sg).
  { intros p b' Hp F. destruct (as_lower _ _ _ _ _ _ _ _ _ _ HA p b' Hp F) as (_ & bs & sg & C1 & C2 & C3). exists sg. now apply (PR p b' Hp F bs sg). }
  destruct (file_all h nm letter id pos segs I) as (kd & o & es & FD & O1 & O2 & O3 & O4 & O5 & O6 & O7).
  { destruct TP; [now left|right; now eexists]. }
  { exact L. }
  { intros q (a & Hq). destruct (String.eqb_spec q nm) as [|N]; [assumption|exfalso]. rewrite FR in Hq; [discriminate| |].
    - intros [X|X]; [now injection X|]. apply all_own_length in X. discriminate.
    - intros p b' _ _ [X|X]; [rewrite LG in X; discriminate|]. apply all_own_length in X. rewrite LG in X. discriminate. }
  { intros s a Hs. destruct (SP s a Hs) as (p & b' & Hp & F & EG). destruct (LB p b' Hp F) as (sg & LL). rewrite EG in LL. now exists (pl_type p), (lower_index letter p), (pl_level p), sg. }
  exists g', h. eexists. exists ((nm, kd, o) :: es). split; [exact E|]. split; [exact FD|]. cbv zeta.
  assert (KE : map key_of es = map (under nm) (child_groups h [nm])).
  { clear -O7. induction O7 as [|s e l l' (K & _) _ IH]; [reflexivity|]. cbn [map]. now rewrite K, IH. }
  assert (ND : NoDup (map key_of ((nm, kd, o) :: es))).
  { cbn [map]. rewrite KE. constructor.
    - intros J. apply in_map_iff in J as (s & J & _). now apply under_not in J.
    - apply FinFun.Injective_map_NoDup; [intros x y; apply under_inj|apply str_sort_nodup]. }
  split; [|split].
  - exists (child_groups h [nm]). split; [cbn [map]; now rewrite KE|]. split; [apply str_sort_sorted|]. intros s. rewrite child_groups_in. cbn [app]. split.
    + intros (a & Hs). exact (SP s a Hs).
    + intros (p & b' & Hp & F & EG). destruct (LB p b' Hp F) as (sg & LL). rewrite EG in LL. destruct LL as (a & _ & _ & _ & LL & _). now exists a.
  - exists pos, kd, o. split; [exact (get_data_nodup _ ND (nm, kd, o) (or_introl eq_refl))|]. split; [exact TP|]. split; [exact O1|].
    split; [exact (file_data_open h _ FD (nm, kd, o) (or_introl eq_refl))|]. repeat (split; [assumption|]). now rewrite O2.
  - intros p b' Hp F. destruct (LB p b' Hp F) as (sg0 & LL0).
    assert (IS : In (sub_of (lower_group pre letter id p)) (child_groups h [nm])).
    { apply child_groups_in. cbn [app]. rewrite <- LG. destruct LL0 as (a & _ & _ & _ & X & _). now exists a. }
    apply In_nth_error in IS as (i & Hi).
    assert (X : exists e, nth_error es i = Some e /\ sub_made h nm letter [nm] (sub_of (lower_group pre letter id p)) e).
    { clear -O7 Hi. revert i Hi. induction O7 as [|s e l l' H _ IH]; intros [|i] Hi; try discriminate; [injection Hi as ->; now exists e|exact (IH i Hi)]. }
    destruct X as (e & He & (S1 & S2 & S3 & S4 & S5)). apply nth_error_In in He. rewrite <- LG in S2, S5. destruct (S5 _ _ _ _ LL0) as (M1 & M2 & _ & M4).
    exists (kind_of e), (obj_of e). split; [rewrite <- S1; apply (get_data_nodup _ ND); now right|]. split; [exact M1|].
    split; [exact (file_data_open h _ FD e (or_intror He))|]. split; [exact S2|]. split; [exact S3|]. split; [exact M2|].
    split; [intros R; rewrite (M4 R); unfold lower_index; now rewrite R|]. split; [exact S4|].
    intros bs segs' C1 C2 C3. destruct (PR p b' Hp F bs segs' C1 C2 C3) as (T1 & L1). destruct (S5 _ _ _ _ L1) as (_ & _ & M3 & _). split; [exact M3|]. now rewrite S2.
Qed.
