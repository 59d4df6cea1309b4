(** * Properties of the data sets of a converted assembly: C60 *)
From Coq Require Import Sorting.Sorted.
From Verif Require Import Base Flt SeqFile H5 Schema Parsers Data Files Struc SifName Convert SeqSpec StoreSpec ParserSpec LayoutSpec FileSpec DataSpec
  SifNameSpec SifNameProofs ConvertSpec AssemblySpec ConvertProofs AssemblyProofs AssemblyOpen AssemblyData ConvertSample AssemblySample
  StrucSpec StrucRes ElemResSpec StrucExist SaysSpec Nd NdProofs Elem ElemMore SaysGives FileSample Sample Sample2.
Open Scope string_scope.
Open Scope Z_scope.
Open Scope list_scope.

(** C60.  A file converted together with those of its superelements and opened:
    the keys are the name of the top and, below it in alphabetical order, one for
    each superelement whose file was there.  Under each key is the object of that
    file's records. *)
Theorem C60_data_sets : forall d top fp letter no ext (usefp : bool) prefix pre k id b segs ps g st out,
  sesam_name (s2l top) (s2l fp, s2l letter, no, s2l ext) -> no_extension (s2l fp) -> ~ sin_ext (s2l ext) -> In letter ["R"; "T"; "L"] -> out <> "" ->
  pre = (if usefp then prefix ++ fp else prefix)%string -> assembly d fp letter ext pre k id b segs ps -> file_in d top = Some b -> 0 < g_batch g ->
  exists g' st' evs es, sif2hdf5 d top (Some out) false usefp prefix [] g st = Ok (g', st', evs) /\ file_data (store_in st' out) = Ok es /\
    let nm := nm_of pre letter id in
    (exists subs, map key_of es = nm :: map (under nm) subs /\ StronglySorted str_lt subs /\
       forall s, In s subs <-> exists p b', In p (lower_places ext ps) /\ file_in d (lower_file fp ext p) = Some b' /\ lower_group pre letter id p = [nm; s]) /\
    (exists pos kd o, get_data nm es = Ok (kd, o) /\ top_pos segs pos /\ opens_as letter pos kd /\ d_open o = true /\ d_group o = [nm] /\
       d_filetype o = letter /\ d_seltyp o = Some id /\ first_seen (seg_names segs) (d_names o) /\ tables (store_in st' out) (d_group o) segs) /\
    forall p s b', In p (lower_places ext ps) -> file_in d (lower_file fp ext p) = Some b' -> lower_group pre letter id p = [nm; s] ->
      exists kd o, get_data (under nm s) es = Ok (kd, o) /\ below_as letter (pl_level p) kd /\ d_open o = true /\
        d_group o = [nm; s] /\ d_filetype o = letter /\ d_seltyp o = Some (pl_type p) /\ (letter = "R" -> d_index o = Some (pl_rep p)) /\
        d_file o = OData [nm] /\
        forall bs segs', contents k b' bs -> file_of [] k (pl_type p) true bs segs' -> some_record segs' ->
          first_seen (seg_names segs') (d_names o) /\ tables (store_in st' out) (d_group o) segs'.
Proof.
  intros d top fp letter no ext usefp prefix pre k id b segs ps g st out N X S L O P A F G.
  destruct (assembly_data d top fp letter no ext usefp prefix pre k id b segs ps g P L A F G) as (g' & h & evs & es & C & D & K & T & B).
  assert (Q : sif_checked (s2l top) = Ok (s2l fp, s2l letter, no, s2l ext)) by (apply sif_checked_ok; split; [now apply parse_sifname_ok, proper_parsed|exact S]).
  exists g', (dset out h st), evs, es. rewrite (store_dset out h st). split.
  - unfold sif2hdf5, given. destruct out as [|c out]; [now elim O|]. rewrite Q. cbn beta iota zeta. unfold rbind.
    exact (f_equal (fun r => match r with Ok (gh, evs0) => Ok (fst gh, dset (String c out) (snd gh) st, evs0) | Err e => Err e end) C).
  - split; [exact D|]. split; [exact K|]. split; [exact T|]. intros p s b' I H E. destruct (B p b' I H) as (kd & o & B1). rewrite E in B1. cbn [sub_of] in B1.
    exists kd, o. exact B1.
Qed.
Print Assumptions C60_data_sets.

(** For a superelement of the first level, and for any results, the object has the
    methods of C55; they give what that file says. *)
Theorem C60_getters : forall d top fp letter no ext (usefp : bool) prefix pre k id b segs ps g st out p s b' bs segs',
  sesam_name (s2l top) (s2l fp, s2l letter, no, s2l ext) -> no_extension (s2l fp) -> ~ sin_ext (s2l ext) -> In letter ["R"; "T"; "L"] -> out <> "" ->
  pre = (if usefp then prefix ++ fp else prefix)%string -> assembly d fp letter ext pre k id b segs ps -> file_in d top = Some b -> 0 < g_batch g ->
  In p (lower_places ext ps) -> file_in d (lower_file fp ext p) = Some b' -> lower_group pre letter id p = [nm_of pre letter id; s] ->
  contents k b' bs -> file_of [] k (pl_type p) true bs segs' -> some_record segs' -> letter = "R" \/ pl_level p <= 1 ->
  exists g' st' evs es o, sif2hdf5 d top (Some out) false usefp prefix [] g st = Ok (g', st', evs) /\ file_data (store_in st' out) = Ok es /\
    get_data (under (nm_of pre letter id) s) es = Ok (KFirst, o) /\
    let h := store_in st' out in
    gives_mesh h o segs' /\ gives_properties h o segs' /\ gives_cases h o segs' /\ gives_node_results h o segs' /\
    forall F zero one add mul sub opp div s3 num, gives_element_results F zero one add mul sub opp div s3 num h o segs'.
Proof.
  intros d top fp letter no ext usefp prefix pre k id b segs ps g st out p s b' bs segs' N X S L O P A F G I E W C1 C2 C3 V.
  destruct (C60_data_sets d top fp letter no ext usefp prefix pre k id b segs ps g st out N X S L O P A F G) as (g' & st' & evs & es & H1 & H2 & _ & _ & H3).
  destruct (H3 p s b' I E W) as (kd & o & B1 & B2 & B3 & B4 & _ & _ & _ & _ & B5). destruct (B5 bs segs' C1 C2 C3) as [_ T].
  assert (kd = KFirst) as ->. { destruct B2 as [?|? ? J1 J2|? ? ? ?]; [reflexivity| |reflexivity]. destruct V as [->|V]; [|lia]. cbn in J1. intuition discriminate. }
  exists g', st', evs, es, o. split; [exact H1|]. split; [exact H2|]. split; [exact B1|]. cbv zeta.
  split; [now apply gives_mesh_ok|]. split; [now apply gives_properties_ok|]. split; [now apply gives_cases_ok|]. split; [now apply gives_node_results_ok|].
  intros. now apply gives_element_results_ok.
Qed.
Print Assumptions C60_getters.

Definition w_run {A} (d : dir) (f : h5 -> list (Files.entry) -> Res A) : Res A :=
  dor (gst, _) <- sif2hdf5 d "wR9.SIF" (Some "w.h5") false true "" [] glob0 [];
  dor es <- file_data (store_in (snd gst) "w.h5"); f (store_in (snd gst) "w.h5") es.
Definition w_at {A} (key : string) (f : h5 -> sdata -> Res A) : Res A := w_run w_dir (fun h es => dor ko <- get_data key es; f h (snd ko)).
(** A superelement used twice: two data sets, each with the records of its file;
    with one of the files missing, one. *)
Example C60_case : sesam_name (s2l "wR9.SIF") (s2l "w", s2l "R", s2l (dec 9), s2l "SIF") /\ assembly w_dir "w" "R" "SIF" "w" Fmt 9 w_text w_segs w_places /\
  lower_places "SIF" w_places = [mkPlace 2 5 1 1; mkPlace 3 5 2 1] /\ file_in w_dir "wR5H3.SIF" = Some q_text /\ file_of [] Fmt 5 true q_text q_segs /\
  w_run w_dir (fun _ es => Ok (map key_of es)) = Ok ["wR9"; "wR9/R5_1"; "wR9/R5_2"] /\
  w_run (removelast w_dir) (fun _ es => Ok (map key_of es)) = Ok ["wR9"; "wR9/R5_1"] /\
  w_at "wR9/R5_2" (fun h o => get_elementnumbers h o [s2l "DECK1"] "" "external") = Ok [12] /\
  w_at "wR9/R5_1" (fun h o => get_resultcase_names h o AllCases) = Ok [(3, CS (s2l "DEAD")); (4, CS (s2l "LIVE"))].
Proof.
  split; [|split; [exact w_assembly|]].
  - sesam "R"%char (@nil ascii); [now left| |reflexivity]. left. apply spelled3. exists "S"%char, "I"%char, "F"%char. tauto.
  - split; [reflexivity|]. split; [reflexivity|]. split; [exact q_below|]. split; [vm_compute; reflexivity|]. split; [vm_compute; reflexivity|]. split; vm_compute; reflexivity.
Qed.
