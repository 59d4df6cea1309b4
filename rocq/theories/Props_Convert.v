(** * Properties of conversion and opening: C22-C25 *)
From Verif Require Import Base Flt SeqFile H5 Schema Parsers Data Files SifName Convert SeqSpec StoreSpec ParserSpec LayoutSpec FileSpec DataSpec
  ParseMore Sample Sample2 SifNameSpec SifNameProofs ConvertSpec AssemblySpec ConvertProofs AssemblyProofs AssemblyOpen ConvertSample.
Open Scope string_scope.
Open Scope Z_scope.
Open Scope list_scope.

(** C22.  A name by the rule, with no extension within its prefix, is accepted and
    split. *)
Theorem C22_accepted : forall s p l n e, sesam_name s (p, l, n, e) -> no_extension p -> ~ sin_ext e -> sif_checked s = Ok (p, l, n, e).
Proof. intros s p l n e H N S. apply sif_checked_ok. split; [now apply parse_sifname_ok, proper_parsed|exact S]. Qed.
Print Assumptions C22_accepted.
Theorem C22_sin_rejected : forall s p l n e, sesam_name s (p, l, n, e) -> no_extension p -> sin_ext e -> sif_checked s = Err ValueError.
Proof. intros s p l n e H N S. apply sif_checked_err. right. exists (p, l, n, e). split; [now apply parse_sifname_ok, proper_parsed|exact S]. Qed.
Print Assumptions C22_sin_rejected.
(** Exactly which names are accepted, with which parts. *)
Theorem C22_accepts_exactly : forall s x, sif_checked s = Ok x <-> first_reading s x /\ ~ sin_ext (snd x).
Proof. exact sif_checked_ok. Qed.
Print Assumptions C22_accepts_exactly.
Theorem C22_rejects_exactly : forall s, sif_checked s = Err ValueError <-> (forall x, ~ reading s x) \/ exists x, first_reading s x /\ sin_ext (snd x).
Proof. exact sif_checked_err. Qed.
Print Assumptions C22_rejects_exactly.
(** The prefix looks like the type part. *)
Example C22_case : sesam_name (s2l "trt1T10H2.Fem") (s2l "trt1", s2l "T", s2l "10", s2l "Fem") /\ no_extension (s2l "trt1") /\
  sif_checked (s2l "trt1T10H2.Fem") = Ok (s2l "trt1", s2l "T", s2l "10", s2l "Fem").
Proof.
  split; [|split; [now apply has_ext_none|vm_compute; reflexivity]].
  sesam "T"%char (s2l "H2").
  - right. exists "H"%char, (s2l "2"). split; [reflexivity|]. split; [now left|]. now apply number_text.
  - right. right. right. apply spelled3. exists "F"%char, "e"%char, "m"%char. tauto.
  - reflexivity.
Qed.
Example C22_sin_case : sif_checked (s2l "R1.SIN") = Err ValueError /\ sif_checked (s2l "xR10H2.sin") = Err ValueError /\
  sif_checked (s2l "R01.SIF") = Err ValueError /\ sif_checked (s2l "X1.SIF") = Err ValueError /\ sif_checked (s2l "R1H02.SIF") = Err ValueError.
Proof. vm_compute. auto. Qed.
(** Without these provisos the claim is false: an extension in the prefix is taken
    for the extension of the name, the dot may be any character, and anything may
    follow the extension. *)
Theorem C22_prefix_refuted : exists s x, sesam_name s x /\ ~ sin_ext (snd x) /\ exists y, sif_checked s = Ok y /\ y <> x.
Proof.
  exists (s2l "R1_SIFT2.FEM"), (s2l "R1_SIF", s2l "T", s2l "2", s2l "FEM"). split; [|split].
  - sesam "T"%char (@nil ascii); [now left| |reflexivity]. right. right. right. apply spelled3. exists "F"%char, "E"%char, "M"%char. tauto.
  - intros H. apply spelled3 in H as (x & y & z & E & H). injection E as <- <- <-. intuition discriminate.
  - exists (s2l "", s2l "R", s2l "1", s2l "SIF"). split; [vm_compute; reflexivity|discriminate].
Qed.
Print Assumptions C22_prefix_refuted.
Theorem C22_structure_refuted : exists s, (forall x, ~ sesam_name s x) /\ sif_checked s = Ok (s2l "", s2l "R", s2l "1", s2l "SIF").
Proof.
  exists (s2l "R12SIF"). split; [|vm_compute; reflexivity]. intros [[[p l] n] e] (c & h & _ & _ & _ & _ & _ & _ & E).
  assert (I : In "."%char (s2l "R12SIF")) by (rewrite E; rewrite !in_app_iff; cbn; tauto). cbn in I. intuition discriminate.
Qed.
Print Assumptions C22_structure_refuted.
Example C22_tail_case : sif_checked (s2l "R1.SIFX") = Ok (s2l "", s2l "R", s2l "1", s2l "SIF").
Proof. vm_compute. reflexivity. Qed.

(** C23.  The files of an assembly are read into their groups, those missing are
    skipped, and nothing else is read or changed. *)
Theorem C23_assembly : forall d top fp letter no ext (usefp : bool) prefix pre k id b segs ps g h0,
  pre = (if usefp then prefix ++ fp else prefix)%string -> upper_letter letter -> assembly d fp letter ext pre k id b segs ps ->
  file_in d top = Some b -> 0 < g_batch g -> unused (nm_of pre letter id) h0 ->
  exists g' h', convert d top (s2l fp, s2l letter, no, s2l ext) usefp prefix [] g h0 =
    Ok (g', h', Read top :: map (fun p => seen d (lower_file fp ext p)) (lower_places ext ps)) /\
    (exists pos, top_pos segs pos /\ labelled h' [nm_of pre letter id] letter id None pos segs) /\ tables h' [nm_of pre letter id] segs /\
    (forall p b', In p (lower_places ext ps) -> file_in d (lower_file fp ext p) = Some b' -> place_read h' pre letter id k p b') /\
    (forall q, ~ nodes_of [nm_of pre letter id] q ->
       (forall p b', In p (lower_places ext ps) -> file_in d (lower_file fp ext p) = Some b' -> ~ nodes_of (lower_group pre letter id p) q) ->
       h5_find q h' = h5_find q h0).
Proof. exact convert_assembly. Qed.
Print Assumptions C23_assembly.
(** The files looked for are those of the first level, or one for each type. *)
Theorem C23_files : forall fp ext ps n,
  (results_ext ext = true -> ((exists p, In p (lower_places ext ps) /\ n = lower_file fp ext p) <-> lower_results fp ext ps n)) /\
  (results_ext ext = false -> numbered ps ->
     ((exists p, In p (lower_places ext ps) /\ n = lower_file fp ext p) <-> lower_models fp ext ps n) /\ NoDup (map pl_type (lower_places ext ps))).
Proof. exact lower_files. Qed.
Print Assumptions C23_files.
(** Whatever the files contain, nothing else is looked for. *)
Theorem C23_nothing_else : forall d top fp letter no ext (usefp : bool) prefix only g h0 g' h' evs,
  convert d top (s2l fp, s2l letter, no, s2l ext) usefp prefix only g h0 = Ok (g', h', evs) ->
  evs = [Read top] \/ exists t, let p := [((if usefp then prefix ++ fp else prefix) ++ letter ++ t)%string; "hierarch"] in
    h5_find p h0 = None /\ forall ps, places (tab_rows p h') ps -> exists l, evs = Read top :: map (seen d) l /\
      (In ext ["SIF"; "SIU"] -> forall n, In n l <-> lower_results fp ext ps n) /\
      (~ In ext ["SIF"; "SIU"] -> numbered ps -> forall n, In n l <-> lower_models fp ext ps n).
Proof. exact files_looked_for. Qed.
Print Assumptions C23_nothing_else.
Definition events_of {A} (r : Res (A * list event)) : Res (list event) := match r with Ok (_, e) => Ok e | Err x => Err x end.
Example C23_case : assembly x_dir "x" "R" "SIF" "x" Fmt 1 s_text s_segs x_places /\ numbered x_places /\
  events_of (sif2hdf5 x_dir "xR1.SIF" (Some "a.h5") false true "" [] glob0 []) = Ok [Read "xR1.SIF"; Read "xR2H2.SIF"] /\
  events_of (sif2hdf5 x_models "T1.FEM" None false true "" [] glob0 []) = Ok [Read "T1.FEM"; Read "T2.FEM"] /\
  events_of (sif2hdf5 [("xR1.SIF", s_text)] "xR1.SIF" None false true "" [] glob0 []) = Ok [Read "xR1.SIF"; Missing "xR2H2.SIF"].
Proof.
  split; [exact x_assembly|]. split; [|vm_compute; auto]. split.
  - intros p [<-|[]]. exists (mkPlace 2 2 1 1). repeat split. now left.
  - intros [|[|i]] [|[|j]] p q H1 H2; try discriminate H1; try discriminate H2; reflexivity.
Qed.
(** A results file whose extension is in small letters: the model files of the
    superelements are read and not their results. *)
Theorem C23_small_letters_refuted : exists d top fp ext, sif_checked (s2l top) = Ok (s2l fp, s2l "R", s2l "1", s2l ext) /\ sif_ext (s2l ext) /\
  events_of (sif2hdf5 d top None false true "" [] glob0 []) = Ok [Read top; Read (model_name fp ext 2)] /\
  file_in d (results_name fp ext (mkPlace 2 2 1 1)) <> None.
Proof.
  exists [("R1.sif", s_text); ("R2H2.sif", b_text); ("T2.sif", b_text)], "R1.sif", "", "sif".
  split; [vm_compute; reflexivity|]. split; [apply spelled3; exists "s"%char, "i"%char, "f"%char; tauto|]. split; [vm_compute; reflexivity|discriminate].
Qed.
Print Assumptions C23_small_letters_refuted.

(** C24.  Nodes stored before stay, but for the attributes of groups read anew. *)
Theorem C24_kept : forall d n out usefp prefix only g st g' st' evs, out <> "" ->
  sif2hdf5 d n (Some out) true usefp prefix only g st = Ok (g', st', evs) ->
  (forall m, m <> out -> store_in st' m = store_in st m) /\
  exists ws, ws <> [] /\ kept_but ws (store_in st out) (store_in st' out) /\ forall w, In w ws -> h5_find w (store_in st' out) <> None.
Proof. exact append_kept_but. Qed.
Print Assumptions C24_kept.
(** If one file is read, and its records are regular, the data set is new. *)
Theorem C24_new : forall d n out usefp prefix only g st g' st' ms, out <> "" ->
  sif2hdf5 d n (Some out) true usefp prefix only g st = Ok (g', st', Read n :: map Missing ms) ->
  exists w names, kept_but [w] (store_in st out) (store_in st' out) /\ h5_find w (store_in st' out) <> None /\
    (forall l, h5_find w (store_in st' out) = Some (Group l) -> exists rs, sget "RECORDS" l = Some (AStrs rs) /\ first_seen names rs) /\
    (regular names -> h5_find (w ++ ["ident"]) (store_in st out) = None).
Proof. exact append_one. Qed.
Print Assumptions C24_new.
(** For an assembly whose name is not in use, everything is kept. *)
Theorem C24_assembly : forall d top fp letter no ext (usefp : bool) prefix pre k id b segs ps g h0,
  pre = (if usefp then prefix ++ fp else prefix)%string -> upper_letter letter -> assembly d fp letter ext pre k id b segs ps ->
  file_in d top = Some b -> 0 < g_batch g -> unused (nm_of pre letter id) h0 ->
  exists g' h' evs, convert d top (s2l fp, s2l letter, no, s2l ext) usefp prefix [] g h0 = Ok (g', h', evs) /\
    forall q, hd_error q <> Some (nm_of pre letter id) -> h5_find q h' = h5_find q h0.
Proof. exact assembly_keeps. Qed.
Print Assumptions C24_assembly.
(** Without append, the file holds what appending to an empty file would give. *)
Theorem C24_fresh : forall d n out usefp prefix only g st st2 g' st' evs, out <> "" -> store_in st2 out = [] ->
  sif2hdf5 d n (Some out) false usefp prefix only g st = Ok (g', st', evs) ->
  exists st3, sif2hdf5 d n (Some out) true usefp prefix only g st2 = Ok (g', st3, evs) /\ store_in st' out = store_in st3 out.
Proof. exact fresh_as_empty. Qed.
Print Assumptions C24_fresh.
Theorem C24_name_needed : forall d n o usefp prefix only g st, o = None \/ o = Some "" -> sif2hdf5 d n o true usefp prefix only g st = Err ValueError.
Proof. exact append_needs_name. Qed.
Print Assumptions C24_name_needed.
(** Converted, appended under another name, appended again. *)
Example C24_case : exists g1 st1 g2 st2, sif2hdf5 x_dir "xR1.SIF" (Some "a.h5") false true "" [] glob0 [] = Ok (g1, st1, [Read "xR1.SIF"; Read "xR2H2.SIF"]) /\
  sif2hdf5 x_dir "xR1.SIF" (Some "a.h5") true true "y" [] g1 st1 = Ok (g2, st2, [Read "xR1.SIF"; Read "xR2H2.SIF"]) /\
  child_groups (store_in st1 "a.h5") [] = ["xR1"] /\ child_groups (store_in st2 "a.h5") [] = ["xR1"; "yxR1"] /\
  sif2hdf5 x_dir "xR1.SIF" (Some "a.h5") true true "" [] g2 st2 = Err NodeError.
Proof. do 4 eexists. split; [vm_compute; reflexivity|]. split; [vm_compute; reflexivity|]. vm_compute. auto. Qed.
(** With a selection of records, a group already there is merged and its list of
    records replaced. *)
Theorem C24_merged_refuted : exists d n out only only2 g1 st1 g2 st2 evs evs2, sif2hdf5 d n (Some out) false true "" only glob0 [] = Ok (g1, st1, evs) /\
  sif2hdf5 d n (Some out) true true "" only2 g1 st1 = Ok (g2, st2, evs2) /\
  child_groups (store_in st1 out) [] = child_groups (store_in st2 out) [] /\
  exists q l l', h5_find q (store_in st1 out) = Some (Group l) /\ h5_find q (store_in st2 out) = Some (Group l') /\
    sget "RECORDS" l = Some (AStrs ["IDENT"; "GNODE"]) /\ sget "RECORDS" l' = Some (AStrs ["HIERARCH"; "GCOORD"]).
Proof.
  exists [("xR1.SIF", s_text)], "xR1.SIF", "a.h5", ["IDENT"; "GNODE"], ["HIERARCH"; "GCOORD"]. do 6 eexists.
  split; [vm_compute; reflexivity|]. split; [vm_compute; reflexivity|]. split; [vm_compute; reflexivity|].
  exists ["xR1"]. do 2 eexists. vm_compute. auto.
Qed.
Print Assumptions C24_merged_refuted.

(** C25.  A well-formed file named after the superelement it holds. *)
Theorem C25_opened : forall d top fp letter no ext k id b segs ps g,
  sesam_name (s2l top) (s2l fp, s2l letter, no, s2l ext) -> no_extension (s2l fp) -> ~ sin_ext (s2l ext) -> upper_letter letter ->
  no = s2l (dec id) -> assembly d fp letter ext fp k id b segs ps -> file_in d top = Some b -> complete letter segs -> 0 < g_batch g ->
  exists g' h kd o pos, open_sif d top g = Ok (g', h, kd, o) /\ tables h [nm_of fp letter id] segs /\ top_pos segs pos /\ opens_as letter pos kd /\
    d_group o = [nm_of fp letter id] /\ d_filetype o = letter /\ d_seltyp o = Some id /\ first_seen (seg_names segs) (d_names o) /\ d_file o = OFile /\ d_open o = true.
Proof. exact open_assembly. Qed.
Print Assumptions C25_opened.
(** Whatever the file contains, opening succeeds only if a group of that name was
    stored. *)
Theorem C25_only_if_stored : forall d top g g' h kd o, open_sif d top g = Ok (g', h, kd, o) ->
  exists p l n e evs a, first_reading (s2l top) (p, l, n, e) /\ convert d top (p, l, n, e) true "" [] g [] = Ok (g', h, evs) /\
    h5_find [l2s (p ++ l ++ n)] h = Some (Group a).
Proof. exact open_found. Qed.
Print Assumptions C25_only_if_stored.
Definition opened (d : dir) (n : string) : Res (Files.kind * path) := match open_sif d n glob0 with Ok (_, _, k, o) => Ok (k, d_group o) | Err e => Err e end.
Example C25_case : sesam_name (s2l "xR1.SIF") (s2l "x", s2l "R", s2l (dec 1), s2l "SIF") /\ assembly x_dir "x" "R" "SIF" "x" Fmt 1 s_text s_segs x_places /\
  opened x_dir "xR1.SIF" = Ok (KTop, ["xR1"]) /\ opened x_dir "yR1.SIF" = Err KeyError.
Proof.
  split; [|split; [exact x_assembly|vm_compute; auto]]. sesam "R"%char (@nil ascii); [now left| |reflexivity].
  left. apply spelled3. exists "S"%char, "I"%char, "F"%char. tauto.
Qed.
(** A well-formed file of superelement 2 named after 1; a name in small letters. *)
Theorem C25_number_refuted : exists d top b segs, file_in d top = Some b /\ file_of [] Fmt 2 true b segs /\
  sif_checked (s2l top) = Ok (s2l "", s2l "T", s2l "1", s2l "FEM") /\ opened d top = Err KeyError.
Proof. exists [("T1.FEM", b_text)], "T1.FEM", b_text, b_segs. split; [reflexivity|]. split; [exact b_file|]. vm_compute. auto. Qed.
Print Assumptions C25_number_refuted.
Theorem C25_small_letters_refuted : exists d top b segs, file_in d top = Some b /\ file_of [] Fmt 2 true b segs /\
  sif_checked (s2l top) = Ok (s2l "", s2l "t", s2l "2", s2l "fem") /\ opened d top = Err UnboundLocalError.
Proof. exists [("t2.fem", b_text)], "t2.fem", b_text, b_segs. split; [reflexivity|]. split; [exact b_file|]. vm_compute. auto. Qed.
Print Assumptions C25_small_letters_refuted.

(** A hydrodynamic file that lacks the records the constructor of the data object
    reads is stored, but not opened, whatever else is in it. *)
Theorem C25_incomplete_refuted : forall d top fp no ext k id b segs ps g,
  sesam_name (s2l top) (s2l fp, s2l "G", no, s2l ext) -> no_extension (s2l fp) -> ~ sin_ext (s2l ext) ->
  no = s2l (dec id) -> assembly d fp "G" ext fp k id b segs ps -> file_in d top = Some b -> ~ definitions segs -> 0 < g_batch g ->
  open_sif d top g = Err NoSuchRecordError.
Proof. exact open_refused. Qed.
Print Assumptions C25_incomplete_refuted.
Example C25_case_incomplete : sesam_name (s2l "wG2.SIF") (s2l "w", s2l "G", s2l (dec 2), s2l "SIF") /\ assembly [("wG2.SIF", b_text)] "w" "G" "SIF" "w" Fmt 2 b_text b_segs [] /\
  ~ definitions b_segs /\ (exists st, sif2hdf5 [("wG2.SIF", b_text)] "wG2.SIF" (Some "a.h5") false true "" [] glob0 [] = Ok st) /\ opened [("wG2.SIF", b_text)] "wG2.SIF" = Err NoSuchRecordError.
Proof.
  split; [|split; [|split; [|split]]].
  - sesam "G"%char (@nil ascii); [now left| |reflexivity]. left. apply spelled3. exists "S"%char, "I"%char, "F"%char. tauto.
  - constructor.
    + discriminate.
    + exists b_text. split; [|exact (b_file_any false)]. constructor; [vm_compute; discriminate|apply plain_text; vm_compute; reflexivity].
    + do 2 eexists. left. reflexivity.
    + constructor.
    + intros [|i] p H; discriminate.
    + intros p b [].
    + constructor.
  - intros [N _]. apply N. reflexivity.
  - eexists. vm_compute. reflexivity.
  - vm_compute. reflexivity.
Qed.
