(** * ConvertProofs: the files read by a conversion, and what it keeps *)
From Verif Require Import Base Flt SeqFile H5 Schema Parsers Data Files SifName Convert SeqSpec StoreSpec ParserSpec LayoutSpec FileSpec ListFacts StoreProofs ParserRun ParserTerm FileProofs ConvertFrame ConvertSpec DecFacts.
Open Scope string_scope.
Open Scope Z_scope.
Open Scope list_scope.
Open Scope monad_scope.

(* ---- one file ---- *)
Lemma kept_but_refl ws h : kept_but ws h h. Proof. intros q n H. now left. Qed.
Lemma kept_but_trans ws1 ws2 a b c : kept_but ws1 a b -> kept_but ws2 b c -> kept_but (ws1 ++ ws2) a c.
Proof.
  intros H1 H2 q n H. destruct (H1 q n H) as [E|(I1 & l & l' & -> & E)].
  - destruct (H2 q n E) as [F|(I2 & l & l' & -> & F)]; [now left|]. right. split; [apply in_or_app; now right|]. now exists l, l'.
  - destruct (H2 q _ E) as [F|(I2 & m & m' & X & F)].
    + right. split; [apply in_or_app; now left|]. now exists l, l'.
    + right. split; [apply in_or_app; now left|]. now exists l, m'.
Qed.
Lemma put_attr_group k v n : match n with Group _ => exists l, put_attr k v n = Group l | _ => put_attr k v n = n end.
Proof. destruct n; cbn; [now eexists|reflexivity|reflexivity]. Qed.
Lemma attributes_group g lev idx n : match n with Group _ => exists l, attributes g lev idx n = Group l | _ => attributes g lev idx n = n end.
Proof. destruct n; unfold attributes; destruct idx; cbn; try reflexivity; now eexists. Qed.
Lemma kept_attributes h h1 w g lev idx : kept h h1 -> kept_but [w] h (h5_upd w (attributes g lev idx) h1).
Proof.
  intros K q n H. apply K in H. destruct (path_eqb w q) eqn:E.
  - apply path_eqb_spec in E. subst q. rewrite find_upd_same, H. cbn [option_map]. pose proof (attributes_group g lev idx n) as A.
    destruct n as [l| |]; [|left; now rewrite A|left; now rewrite A]. right. split; [now left|]. destruct A as [l' ->]. now exists l, l'.
  - left. rewrite find_upd_other; [exact H|]. intros ->. rewrite path_eqb_refl in E. discriminate.
Qed.
Lemma rows_attributes p w g lev idx h : tab_rows p (h5_upd w (attributes g lev idx) h) = tab_rows p h.
Proof.
  unfold tab_rows. destruct (path_eqb w p) eqn:E.
  - apply path_eqb_spec in E. subst w. rewrite find_upd_same. destruct (h5_find p h) as [n|]; [|reflexivity]. cbn [option_map].
    pose proof (attributes_group g lev idx n) as A. destruct n; [destruct A as [l ->]; reflexivity|now rewrite A|now rewrite A].
  - rewrite find_upd_other; [reflexivity|]. intros ->. rewrite path_eqb_refl in E. discriminate.
Qed.
(** rows of a table that was there before *)
Lemma rows_kept ws h h' p row rows : kept_but ws h h' -> tab_rows p h = row :: rows -> tab_rows p h' = row :: rows.
Proof.
  unfold tab_rows. intros K. destruct (h5_find p h) as [[|d rs|]|] eqn:E; try discriminate. intros ->.
  destruct (K p _ E) as [->|(_ & l & l' & X & _)]; [reflexivity|discriminate].
Qed.
Lemma find_kept ws h h' p : kept_but ws h h' -> h5_find p h' = None -> h5_find p h = None.
Proof.
  intros K H. destruct (h5_find p h) as [n|] eqn:E; [|reflexivity]. destruct (K p n E) as [X|(_ & l & l' & _ & X)]; congruence.
Qed.
(** One file read into [h]: the group of the file and the names of its records. *)
Definition one_file (h h' : h5) (w : path) (names : list string) : Prop :=
  kept_but [w] h h' /\ h5_find w h' <> None /\ (regular names -> h5_find (w ++ ["ident"]) h = None) /\
  (forall l, h5_find w h' = Some (Group l) -> exists rs, sget "RECORDS" l = Some (AStrs rs) /\ first_seen names rs).
Lemma parse_into_spec k bs only pre g h g' h' :
  parse_into k bs only pre (g, h) = Ok (g', h') -> g_tables g = [] -> g_names g = [] ->
  (forall s u s', pre s = Ok (u, s') -> p_out s' = p_out s /\ g_tables (p_g s') = g_tables (p_g s) /\ g_names (p_g s') = g_names (p_g s) /\
     g_hashier (p_g s') = g_hashier (p_g s) /\ g_prefix (p_g s') = g_prefix (p_g s) /\ g_ftid (p_g s') = g_ftid (p_g s)) ->
  exists w, one_file h h' w (g_names g') /\ get_path g' h' = Ok w /\ g_prefix g' = g_prefix g /\ g_ftid g' = g_ftid g /\
    (exists nd lev idx h1, h5_find w h' = Some (attributes g' lev idx nd) /\ level_of g' h1 = Ok (lev, idx) /\ h5_find w h1 = Some nd /\ kept h h1) /\
    (g_hashier g = false -> g_hashier g' = true -> exists t, let p := [(g_prefix g ++ g_ftid g ++ t)%string; "hierarch"] in
       g_htab g' = Some p /\ h5_find p h = None).
Proof.
  unfold parse_into. cbn [fst snd]. intros H T N Hp.
  match type of H with (rbind (sbind ?m ?k ?s) _) = _ => set (s0 := s) in H; unfold sbind in H end.
  destruct (pre s0) as [[u s1]|] eqn:E1; [|discriminate]. destruct (parse_file only s1) as [[v s2]|] eqn:E2; [|discriminate].
  cbn [rbind] in H. injection H as <- <-. apply Hp in E1. destruct E1 as (O1 & T1 & N1 & H1 & P1 & F1). cbn [s0 p_out p_g] in *.
  rewrite T in T1. rewrite N in N1. destruct (parse_file_frame only s1 v s2 E2 T1 N1) as (h1 & w & lev & idx & K & W & FW & L & O & I & P & F & X).
  exists w. rewrite O1 in *. split; [|split; [|split; [|split; [|split]]]].
  - rewrite O. split; [now apply kept_attributes|]. split; [|split; [exact I|]].
    + rewrite find_upd_same. destruct (h5_find w h1); [discriminate|congruence].
    + rewrite find_upd_same. intros l. destruct (h5_find w h1) as [nd|]; [|discriminate]. cbn [option_map]. intros E. injection E as E.
      exists (dedup [] (g_names (p_g s2))). split; [|apply dedup_first_seen].
      destruct nd as [a| |]; [|unfold attributes in E; destruct idx; cbn in E; discriminate|unfold attributes in E; destruct idx; cbn in E; discriminate].
      unfold attributes in E. destruct idx; cbn [put_attr] in E; injection E as <-; repeat (rewrite sget_set_same || (rewrite sget_set_other by reflexivity)); reflexivity.
  - rewrite O. apply (get_path_grows (p_g s2) _ h1); [apply gsame_refl| |exact W]. intros q n Hq.
    destruct (path_eqb w q) eqn:E.
    + apply path_eqb_spec in E. subst q. rewrite find_upd_same, Hq. cbn [option_map]. exists (attributes (p_g s2) lev idx n). split; [reflexivity|].
      pose proof (attributes_group (p_g s2) lev idx n) as A. destruct n; [destruct A as [l ->]; exact Logic.I|rewrite A; apply extends_refl|rewrite A; apply extends_refl].
    + exists n. rewrite find_upd_other; [split; [exact Hq|apply extends_refl]|]. intros ->. rewrite path_eqb_refl in E. discriminate.
  - congruence.
  - congruence.
  - destruct (h5_find w h1) as [nd|] eqn:E; [|congruence]. exists nd, lev, idx, h1. rewrite O, find_upd_same, E. now repeat split.
  - intros X1 X2. rewrite P1, F1 in X. apply X; congruence.
Qed.
Lemma set_ihref_keeps i s u s' : set_current_ihref i s = Ok (u, s') ->
  p_out s' = p_out s /\ g_tables (p_g s') = g_tables (p_g s) /\ g_names (p_g s') = g_names (p_g s) /\
  g_hashier (p_g s') = g_hashier (p_g s) /\ g_prefix (p_g s') = g_prefix (p_g s) /\ g_ftid (p_g s') = g_ftid (p_g s).
Proof.
  unfold set_current_ihref, sbind, modg, getg, geth, liftR, slift, sret, sraise. cbn [p_g p_out p_in set_ihref g_hashier g_htab g_ftid]. intros H.
  destruct (g_hashier (p_g s)) eqn:E.
  - destruct (g_htab (p_g s)) as [p|]; cbn beta iota in H; [|discriminate H]. cbn [p_out] in H.
    destruct (pygetZ (tab_rows p (p_out s)) (i - 1)) as [row|]; [|discriminate H].
    cbn [p_g p_out p_in set_ihref set_hrec g_hashier g_htab g_ftid] in H.
    destruct (String.eqb (g_ftid (p_g s)) "R"); [destruct (col_int 3 row) as [j|]; [|discriminate]|]; injection H as _ <-; cbn; now repeat split.
  - injection H as _ <-. cbn. now repeat split.
Qed.

(* ---- the files below ---- *)
Definition records := list (path * list string).
(** files read one after the other *)
Inductive files_read : h5 -> records -> h5 -> Prop :=
| fr_nil h : files_read h [] h
| fr_cons h w names h1 fs h2 : one_file h h1 w names -> files_read h1 fs h2 -> files_read h ((w, names) :: fs) h2.
Lemma files_kept h fs h' : files_read h fs h' -> kept_but (map fst fs) h h'.
Proof.
  induction 1 as [h|h w names h1 fs h2 O _ IH]; [apply kept_but_refl|]. cbn. apply (kept_but_trans [w] (map fst fs) h h1 h2); [apply O|exact IH].
Qed.
Lemma files_found h fs h' w : files_read h fs h' -> In w (map fst fs) -> h5_find w h' <> None.
Proof.
  induction 1 as [h|h w0 names h1 fs h2 O F IH]; [easy|]. cbn. intros [<-|H]; [|now apply IH]. destruct O as (_ & O & _ & _).
  intros X. apply O. apply (find_kept (map fst fs) h1 h2); [now apply files_kept|exact X].
Qed.
Lemma files_new h fs h' w names : files_read h fs h' -> In (w, names) fs -> regular names -> h5_find (w ++ ["ident"]) h = None.
Proof.
  induction 1 as [h|h w0 names0 h1 fs h2 O F IH]; [easy|]. intros [E|H] R.
  - injection E as -> ->. now apply O.
  - apply (find_kept [w0] h h1); [apply O|]. now apply IH.
Qed.
Lemma read_lower_spec d k only : forall l g h g' h' evs, read_lower d k only l (g, h) = Ok (g', h', evs) ->
  evs = map (fun ni => seen d (fst ni)) l /\ g_prefix g' = g_prefix g /\ g_ftid g' = g_ftid g /\
  exists fs, files_read h fs h' /\ length fs = length (filter (fun ni => match file_in d (fst ni) with Some _ => true | None => false end) l).
Proof.
  induction l as [|[n i] l IH]; intros g h g' h' evs H; cbn [read_lower] in H.
  - injection H as <- <- <-. split; [reflexivity|]. split; [reflexivity|]. split; [reflexivity|]. exists []. split; [constructor|reflexivity].
  - cbn [map fst filter]. unfold seen at 1. destruct (file_in d n) as [bs|] eqn:E; cbn [fst snd] in H.
    + destruct (parse_into k bs only (set_current_ihref i) (reset false g, h)) as [[g1 h1]|] eqn:P; [|discriminate]. cbn [rbind] in H.
      destruct (read_lower d k only l (g1, h1)) as [[[g2 h2] evs2]|] eqn:R; [|discriminate]. cbn [rbind] in H. injection H as <- <- <-.
      apply IH in R. destruct R as (-> & P1 & P2 & fs & F & Lf). cbn [length].
      apply parse_into_spec in P; [|reflexivity|reflexivity|intros s u s'; apply set_ihref_keeps].
      destruct P as (w & O & _ & X1 & X2 & _). split; [reflexivity|]. cbn in X1, X2. split; [congruence|]. split; [congruence|].
      exists ((w, g_names g1) :: fs). split; [econstructor; eassumption|]. cbn. now rewrite Lf.
    + destruct (read_lower d k only l (g, h)) as [[[g2 h2] evs2]|] eqn:R; [|discriminate]. cbn [rbind] in H. injection H as <- <- <-.
      apply IH in R. destruct R as (-> & P1 & P2 & fs & F & Lf). split; [reflexivity|]. split; [exact P1|]. split; [exact P2|]. exists fs. now split.
Qed.
(** What a conversion of one file does. *)
Lemma convert_spec d top x usefp prefix only g h0 g' h' evs : convert d top x usefp prefix only g h0 = Ok (g', h', evs) ->
  let '(fp, letter, _, ext) := x in
  let pre := (if usefp then prefix ++ l2s fp else prefix)%string in
  exists w names fs, files_read h0 ((w, names) :: fs) h' /\
  ((evs = [Read top] /\ fs = []) \/
   exists t cs, let p := [(pre ++ l2s letter ++ t)%string; "hierarch"] in
     h5_find p h0 = None /\ candidates (l2s fp) (l2s ext) (tab_rows p h') = Ok cs /\ evs = Read top :: map (fun ni => seen d (fst ni)) cs /\
     length fs = length (filter (fun ni => match file_in d (fst ni) with Some _ => true | None => false end) cs)).
Proof.
  destruct x as [[[fp letter] no] ext]. unfold convert. set (pre := (if usefp then prefix ++ l2s fp else prefix)%string). intros H.
  destruct (file_in d top) as [bs|] eqn:E; [|discriminate].
  destruct (parse_into _ bs only (sret tt) _) as [[g1 h1]|] eqn:P; [|discriminate]. cbn [rbind fst snd] in H.
  apply parse_into_spec in P; [|reflexivity|reflexivity|intros s u s' X; injection X as _ <-; now repeat split].
  destruct P as (w & O & _ & _ & _ & _ & X). cbn [set_ftid set_prefix reset g_hashier g_prefix g_ftid] in X.
  destruct (g_hashier g1) eqn:Hh.
  - destruct (X eq_refl eq_refl) as (t & Ht & Hn). cbv zeta in Ht, Hn. rewrite Ht in H. cbn [rbind] in H.
    set (p := [(pre ++ l2s letter ++ t)%string; "hierarch"]) in *.
    destruct (candidates (l2s fp) (l2s ext) (tab_rows p h1)) as [cs|] eqn:C; [|discriminate]. cbn [rbind] in H.
    destruct (read_lower d _ only cs (g1, h1)) as [[[g2 h2] evs2]|] eqn:R; [|discriminate]. cbn [rbind] in H. injection H as <- <- <-.
    apply read_lower_spec in R. destruct R as (-> & _ & _ & fs & F & Lf).
    exists w, (g_names g1), fs. split; [econstructor; eassumption|]. right. exists t, cs. cbv zeta. fold p. split; [exact Hn|]. split; [|now split].
    destruct (tab_rows p h1) as [|row rows] eqn:R.
    + (* no rows: nothing below *)
      assert (cs = []) as ->.
      { unfold candidates in C. cbn in C. destruct (_ || _)%bool; now injection C as <-. }
      inversion F as [|? ? ? ? ? ? ? ?]; subst; [|discriminate Lf]. now rewrite R.
    + rewrite (rows_kept (map fst fs) h1 h2 p row rows); [exact C|now apply files_kept|exact R].
  - injection H as <- <- <-. exists w, (g_names g1), []. split; [econstructor; [exact O|constructor]|]. left. now split.
Qed.

(* ---- C23 ---- *)
Lemma places_ints r p : nth_error r 1 = Some (CI (pl_ref p)) /\ nth_error r 2 = Some (CI (pl_type p)) /\
  nth_error r 3 = Some (CI (pl_rep p)) /\ nth_error r 4 = Some (CI (pl_level p)) ->
  h_ihref r = Ok (pl_ref p) /\ h_iselty r = Ok (pl_type p) /\ h_indsel r = Ok (pl_rep p) /\ h_islevl r = Ok (pl_level p).
Proof. unfold h_ihref, h_iselty, h_indsel, h_islevl, col_int. intros (-> & -> & -> & ->). now repeat split. Qed.
Lemma result_names_spec pre ext : forall rows ps, places rows ps ->
  result_names pre ext rows = Ok (map (fun p => (results_name pre ext p, pl_ref p)) (filter (fun p => pl_level p =? 1) ps)).
Proof.
  induction 1 as [|r p rows ps Hp _ IH]; [reflexivity|]. apply places_ints in Hp. destruct Hp as (E1 & E2 & E3 & E4).
  cbn [result_names filter]. rewrite E4. cbn [rbind]. rewrite IH. destruct (pl_level p =? 1); [|reflexivity]. rewrite E1, E2. reflexivity.
Qed.
Lemma input_names_spec pre ext : forall rows ps, places rows ps ->
  input_names pre ext rows = Ok (map (fun p => (model_name pre ext (pl_type p), pl_ref p)) (filter (fun p => pl_rep p =? 1) ps)).
Proof.
  induction 1 as [|r p rows ps Hp _ IH]; [reflexivity|]. apply places_ints in Hp. destruct Hp as (E1 & E2 & E3 & E4).
  cbn [input_names filter]. rewrite E3. cbn [rbind]. rewrite IH. destruct (pl_rep p =? 1); [|reflexivity]. rewrite E1, E2. reflexivity.
Qed.
Lemma places_tl rows ps : places rows ps -> places (tl rows) (tl ps).
Proof. intros H. inversion H; subst; [constructor|assumption]. Qed.
Lemma candidates_spec pre ext rows ps : places rows ps -> candidates pre ext rows =
  Ok (if String.eqb ext "SIF" || String.eqb ext "SIU"
      then map (fun p => (results_name pre ext p, pl_ref p)) (filter (fun p => pl_level p =? 1) (tl ps))
      else map (fun p => (model_name pre ext (pl_type p), pl_ref p)) (filter (fun p => pl_rep p =? 1) (tl ps))).
Proof.
  intros H. apply places_tl in H. unfold candidates. destruct (_ || _)%bool; [now apply result_names_spec|now apply input_names_spec].
Qed.
Lemma s2l_app a b : s2l (a ++ b)%string = s2l a ++ s2l b.
Proof. induction a as [|x a IH]; cbn; [reflexivity|]. unfold s2l in *. now rewrite IH. Qed.
(** Whatever is in the files. *)
Theorem files_looked_for d top fp letter no ext usefp prefix only g h0 g' h' evs :
  convert d top (s2l fp, s2l letter, no, s2l ext) usefp prefix only g h0 = Ok (g', h', evs) ->
  evs = [Read top] \/ exists t, let p := [((if usefp then prefix ++ fp else prefix) ++ letter ++ t)%string; "hierarch"] in
    h5_find p h0 = None /\ forall ps, places (tab_rows p h') ps -> exists l, evs = Read top :: map (seen d) l /\
      (In ext ["SIF"; "SIU"] -> forall n, In n l <-> lower_results fp ext ps n) /\
      (~ In ext ["SIF"; "SIU"] -> numbered ps -> forall n, In n l <-> lower_models fp ext ps n).
Proof.
  intros C. apply convert_spec in C. cbn [fst snd] in C. rewrite !l2s_s2l in C.
  destruct C as (w & names & fs & F & [(-> & _)|(t & cs & Hn & Hc & -> & _)]); [now left|right]. exists t. cbv zeta in *. split; [exact Hn|].
  intros ps HP. rewrite (candidates_spec _ _ _ _ HP) in Hc. injection Hc as <-.
  exists (if (String.eqb ext "SIF" || String.eqb ext "SIU")%bool then map (results_name fp ext) (filter (fun p => pl_level p =? 1) (tl ps))
          else map (fun p => model_name fp ext (pl_type p)) (filter (fun p => pl_rep p =? 1) (tl ps))).
  split; [f_equal; destruct (_ || _)%bool; rewrite !map_map; reflexivity|].
  assert (E : (String.eqb ext "SIF" || String.eqb ext "SIU")%bool = true <-> In ext ["SIF"; "SIU"]).
  { rewrite orb_true_iff, !String.eqb_eq. cbn. intuition congruence. }
  split.
  - intros I n. apply E in I. rewrite I. rewrite in_map_iff. unfold lower_results. split.
    + intros (p & <- & H). apply filter_In in H as (H & L). exists p. split; [exact H|]. split; [lia|reflexivity].
    + intros (p & H & L & ->). exists p. split; [reflexivity|]. apply filter_In. split; [exact H|lia].
  - intros I (N1 & N2) n. assert (X : (String.eqb ext "SIF" || String.eqb ext "SIU")%bool = false) by (destruct (_ || _)%bool; [exfalso; apply I, E; reflexivity|reflexivity]).
    rewrite X, in_map_iff. unfold lower_models. split.
    + intros (p & <- & H). apply filter_In in H as (H & _). now exists p.
    + intros (p & H & ->). destruct (N1 p H) as (q & Hq & T & R). exists q. split; [now rewrite T|]. apply filter_In. split; [exact Hq|lia].
Qed.

(* ---- C24 ---- *)
Lemma store_dset n h st : store_in (dset n h st) n = h.
Proof. unfold store_in, dset. cbn. now rewrite String.eqb_refl. Qed.
Lemma store_other n m h st : n <> m -> store_in (dset n h st) m = store_in st m.
Proof. intros H. unfold store_in, dset. cbn. destruct (String.eqb_spec m n); [congruence|reflexivity]. Qed.
Theorem append_keeps d n out usefp prefix only g st g' st' evs : out <> "" ->
  sif2hdf5 d n (Some out) true usefp prefix only g st = Ok (g', st', evs) ->
  (forall m, m <> out -> store_in st' m = store_in st m) /\
  exists fs, files_read (store_in st out) fs (store_in st' out) /\ fs <> [].
Proof.
  intros Ho H. unfold sif2hdf5, given in H. destruct (String.eqb_spec out ""); [contradiction|].
  destruct (sif_checked (s2l n)) as [x|]; [|discriminate]. cbn [rbind] in H.
  destruct (convert d n x usefp prefix only g (store_in st out)) as [[[g1 h1] evs1]|] eqn:C; [|discriminate]. cbn [rbind fst snd] in H. injection H as <- <- <-.
  split; [intros m Hm; apply store_other; congruence|]. rewrite store_dset.
  apply convert_spec in C. destruct x as [[[fp letter] no] ext]. cbv zeta in C. destruct C as (w & names & fs & F & _).
  exists ((w, names) :: fs). split; [exact F|discriminate].
Qed.
Theorem append_kept_but d n out usefp prefix only g st g' st' evs : out <> "" ->
  sif2hdf5 d n (Some out) true usefp prefix only g st = Ok (g', st', evs) ->
  (forall m, m <> out -> store_in st' m = store_in st m) /\
  exists ws, ws <> [] /\ kept_but ws (store_in st out) (store_in st' out) /\ forall w, In w ws -> h5_find w (store_in st' out) <> None.
Proof.
  intros Ho H. destruct (append_keeps _ _ _ _ _ _ _ _ _ _ _ Ho H) as (H1 & fs & F & N). split; [exact H1|].
  exists (map fst fs). split; [now destruct fs|]. split; [now apply files_kept|]. intros w. now apply files_found with (1 := F).
Qed.
(** One file: its group is new if its records are regular. *)
Theorem append_one d n out usefp prefix only g st g' st' ms : out <> "" ->
  sif2hdf5 d n (Some out) true usefp prefix only g st = Ok (g', st', Read n :: map Missing ms) ->
  exists w names, kept_but [w] (store_in st out) (store_in st' out) /\
    h5_find w (store_in st' out) <> None /\
    (forall l, h5_find w (store_in st' out) = Some (Group l) -> exists rs, sget "RECORDS" l = Some (AStrs rs) /\ first_seen names rs) /\
    (regular names -> h5_find (w ++ ["ident"]) (store_in st out) = None).
Proof.
  intros Ho H. unfold sif2hdf5, given in H. destruct (String.eqb_spec out ""); [contradiction|].
  destruct (sif_checked (s2l n)) as [x|]; [|discriminate]. cbn [rbind] in H.
  destruct (convert d n x usefp prefix only g (store_in st out)) as [[[g1 h1] evs1]|] eqn:C; [|discriminate]. cbn [rbind fst snd] in H. injection H as <- <- ->.
  rewrite store_dset. apply convert_spec in C. destruct x as [[[fp letter] no] ext]. cbv zeta in C. destruct C as (w & names & fs & F & C).
  assert (fs = []) as ->.
  { destruct C as [(_ & ->)|(t & cs & _ & _ & E & L)]; [reflexivity|]. injection E as E.
    assert (Z : filter (fun ni : string * Z => match file_in d (fst ni) with Some _ => true | None => false end) cs = []).
    { clear -E. revert ms E. induction cs as [|c cs IH]; intros [|m ms] E; try discriminate; [reflexivity|]. injection E as E1 E2. cbn [filter].
      unfold seen in E1. destruct (file_in d (fst c)); [discriminate|]. now apply IH with ms. }
    rewrite Z in L. now destruct fs. }
  inversion F as [|? ? ? h2 ? ? (O1 & O2 & O3 & O4) F']; subst. inversion F'; subst. exists w, names. now repeat split.
Qed.
Theorem fresh_as_empty d n out usefp prefix only g st st2 g' st' evs : out <> "" -> store_in st2 out = [] ->
  sif2hdf5 d n (Some out) false usefp prefix only g st = Ok (g', st', evs) ->
  exists st3, sif2hdf5 d n (Some out) true usefp prefix only g st2 = Ok (g', st3, evs) /\ store_in st' out = store_in st3 out.
Proof.
  intros Ho H2 H. unfold sif2hdf5, given in *. destruct (String.eqb_spec out ""); [contradiction|].
  destruct (sif_checked (s2l n)) as [x|]; [|discriminate]. cbn [rbind] in *. rewrite H2.
  destruct (convert d n x usefp prefix only g []) as [[[g1 h1] evs1]|]; [|discriminate]. cbn [rbind fst snd] in *. injection H as <- <- <-.
  eexists. split; [reflexivity|]. now rewrite !store_dset.
Qed.
Theorem append_needs_name d n o usefp prefix only g st : o = None \/ o = Some "" -> sif2hdf5 d n o true usefp prefix only g st = Err ValueError.
Proof. now intros [->| ->]. Qed.
