(** * Properties of several files converted into one: C64 *)
From Coq Require Import Sorting.Sorted.
From Verif Require Import Base Flt SeqFile H5 Schema Parsers Data Files Struc SifName Convert SeqSpec StoreSpec ParserSpec LayoutSpec FileSpec DataSpec
  SifNameSpec SifNameProofs ConvertSpec AssemblySpec ConvertProofs AssemblyProofs AssemblyOpen AssemblyData ConvertSample AssemblySample
  StrucSpec StrucRes ElemResSpec StrucExist SaysSpec Nd NdProofs Elem ElemMore SaysGives FileSample Sample Sample2 HydroFileSample JobsSpec JobsProofs.
Open Scope string_scope.
Open Scope Z_scope.
Open Scope list_scope.
Open Scope monad_scope.

Lemma nodup_front {A} (a b : list A) : NoDup (a ++ b) -> NoDup a.
Proof.
  induction a as [|x a IH]; intros H; [constructor|]. cbn in H. inversion H as [|y ys N H']; subst. constructor; [|now apply IH].
  intros I. apply N. apply in_or_app. now left.
Qed.
(** C64.  A list of files converted into one HDF5 file, the names of their data
    sets being different: all of them are read, in order, and the file opened has
    the data sets of each and no other.  Other HDF5 files are left as they were. *)
Theorem C64_one_file : forall d usefp out l g st,
  out <> "" -> l <> [] -> (forall j, In j l -> job_ok d usefp j) -> NoDup (map (j_top usefp) l) -> 0 < g_batch g ->
  exists g' st' es, sif2hdf5_seq d (job_args l) (Some out) false usefp [] g st = Ok (g', st', flat_map (j_events d) l) /\
    jobs_opened d usefp (store_in st' out) l es /\ forall n, n <> out -> store_in st' n = store_in st n.
Proof.
  intros d usefp out l g st O NL JO ND B. destruct (seq_converted d usefp out l g st O NL JO ND B) as (g' & st' & E & H & _ & F).
  destruct (holds_opened _ _ _ _ H JO ND) as (es & R). now exists g', st', es.
Qed.
Print Assumptions C64_one_file.
(** More files appended to it later. *)
Theorem C64_appended : forall d usefp out l l2 g g1 st st1 evs,
  out <> "" -> l <> [] -> (forall j, In j (l ++ l2) -> job_ok d usefp j) -> NoDup (map (j_top usefp) (l ++ l2)) -> 0 < g_batch g ->
  sif2hdf5_seq d (job_args l) (Some out) false usefp [] g st = Ok (g1, st1, evs) ->
  exists g2 st2 es, sif2hdf5_each d (job_args l2) (Some out) true usefp [] g1 st1 = Ok (g2, st2, flat_map (j_events d) l2) /\
    jobs_opened d usefp (store_in st2 out) (l ++ l2) es /\ forall n, n <> out -> store_in st2 n = store_in st1 n.
Proof.
  intros d usefp out l l2 g g1 st st1 evs O NL JO ND B E1.
  destruct (seq_converted d usefp out l g st O NL) as (g' & st' & E & H & B1 & _).
  { intros j I. apply JO. apply in_or_app. now left. } { rewrite map_app in ND. exact (nodup_front _ _ ND). } { exact B. }
  rewrite E in E1. injection E1 as <- <- _.
  destruct (each_appended d usefp out O l2 l g' st' H) as (g2 & st2 & E2 & H2 & _ & F).
  { intros j I. apply JO. apply in_or_app. now right. } { exact ND. } { exact B1. }
  destruct (holds_opened _ _ _ _ H2 JO ND) as (es & R). now exists g2, st2, es.
Qed.
Print Assumptions C64_appended.
(** Appending to a file which does not exist makes it. *)
Theorem C64_appended_new : forall d usefp out l g st,
  out <> "" -> store_in st out = [] -> (forall j, In j l -> job_ok d usefp j) -> NoDup (map (j_top usefp) l) -> 0 < g_batch g ->
  exists g' st' es, sif2hdf5_each d (job_args l) (Some out) true usefp [] g st = Ok (g', st', flat_map (j_events d) l) /\
    jobs_opened d usefp (store_in st' out) l es /\ forall n, n <> out -> store_in st' n = store_in st n.
Proof.
  intros d usefp out l g st O E0 JO ND B. destruct (each_appended d usefp out O l [] g st) as (g' & st' & E & H & _ & F); try assumption.
  { rewrite E0. apply holds_empty. }
  destruct (holds_opened _ _ _ _ H JO ND) as (es & R). now exists g', st', es.
Qed.
Print Assumptions C64_appended_new.
(** With no name given, each file is converted into one named after it; the names
    being different, each of these has the data sets of that file. *)
Theorem C64_separate : forall d usefp l g st,
  (forall j, In j l -> job_ok d usefp j) -> NoDup (map (fun j => default_name (j_name j)) l) -> 0 < g_batch g ->
  exists g' st', sif2hdf5_seq d (job_args l) None false usefp [] g st = Ok (g', st', flat_map (j_events d) l) /\
    forall j, In j l -> exists es, jobs_opened d usefp (store_in st' (default_name (j_name j))) [j] es.
Proof.
  intros d usefp l g st JO ND B. destruct (each_alone d usefp l g st JO ND B) as (g' & st' & E & H & _). exists g', st'. split; [exact E|].
  intros j I. apply holds_opened; [now apply H|intros x [<-|[]]; now apply JO|]. cbn. constructor; [intros []|constructor].
Qed.
Print Assumptions C64_separate.
(** The methods of any data set of the first level then give what its file says. *)
Theorem C64_getters : forall d usefp h l es, jobs_opened d usefp h l es -> forall j, In j l ->
  (forall kd o, get_data (j_top usefp j) es = Ok (kd, o) ->
     (kd = KFirst -> gives_mesh h o (j_segs j) /\ gives_properties h o (j_segs j) /\ gives_cases h o (j_segs j) /\ gives_node_results h o (j_segs j) /\
        forall F zero one add mul sub opp div s3 num, gives_element_results F zero one add mul sub opp div s3 num h o (j_segs j))) /\
  forall p b s kd o bs segs, has_sub d usefp j p b s -> get_data (under (j_top usefp j) s) es = Ok (kd, o) -> kd = KFirst ->
    contents (j_kind j) b bs -> file_of [] (j_kind j) (pl_type p) true bs segs -> some_record segs ->
    gives_mesh h o segs /\ gives_properties h o segs /\ gives_cases h o segs /\ gives_node_results h o segs /\
    forall F zero one add mul sub opp div s3 num, gives_element_results F zero one add mul sub opp div s3 num h o segs.
Proof.
  intros d usefp h l es (_ & _ & J) j I. destruct (J j I) as ((pos & kd0 & o0 & G & _ & _ & OP & _ & _ & _ & _ & T) & S). split.
  - intros kd o G' _. rewrite G in G'. injection G' as <- <-.
    split; [now apply gives_mesh_ok|]. split; [now apply gives_properties_ok|]. split; [now apply gives_cases_ok|]. split; [now apply gives_node_results_ok|].
    intros. now apply gives_element_results_ok.
  - intros p b s kd o bs segs HS G' _ C1 C2 C3. destruct (S p b s HS) as (kd1 & o1 & G1 & _ & OP1 & _ & _ & _ & _ & _ & X).
    rewrite G1 in G'. injection G' as <- <-. destruct (X bs segs C1 C2 C3) as (_ & T1).
    split; [now apply gives_mesh_ok|]. split; [now apply gives_properties_ok|]. split; [now apply gives_cases_ok|]. split; [now apply gives_node_results_ok|].
    intros. now apply gives_element_results_ok.
Qed.
Print Assumptions C64_getters.

(** An assembly, a hydrodynamic file and a structure, in that order. *)
Definition ws_dir : dir := w_dir ++ v_dir ++ q_dir.
Definition w_job := mkJob "wR9.SIF" "w" "R" (s2l "9") "SIF" "" Fmt 9 w_text w_segs w_places.
Definition v_job := mkJob "shipG1.SIF" "ship" "G" (s2l "1") "SIF" "" Fmt 1 v_text v_segs [].
Definition q_job := mkJob "barR5.SIF" "bar" "R" (s2l "5") "SIF" "" Fmt 5 q_text q_segs [].
Lemma sif_not_sin : ~ sin_ext (s2l "SIF").
Proof. intros X. apply spelled3 in X as (x & y & z & E & A & B & C). injection E as <- <- <-. destruct C; discriminate. Qed.
Lemma w_job_ok : job_ok ws_dir true w_job.
Proof.
  constructor.
  - cbn [j_name j_fp j_letter j_no j_ext w_job]. sesam "R"%char (@nil ascii); [now left| |reflexivity]. left. apply spelled3. exists "S"%char, "I"%char, "F"%char. tauto.
  - apply has_ext_none. reflexivity.
  - exact sif_not_sin.
  - left. cbn. tauto.
  - discriminate.
  - intros [].
  - reflexivity.
  - destruct w_assembly as [A1 A2 A3 A4 A5 A6 A7]. constructor; try assumption.
Qed.
Lemma v_job_ok : job_ok ws_dir true v_job.
Proof.
  constructor.
  - cbn [j_name j_fp j_letter j_no j_ext v_job]. sesam "G"%char (@nil ascii); [now left| |reflexivity]. left. apply spelled3. exists "S"%char, "I"%char, "F"%char. tauto.
  - apply has_ext_none. reflexivity.
  - exact sif_not_sin.
  - right. split; reflexivity.
  - intros _. split; vm_compute; discriminate.
  - intros [].
  - reflexivity.
  - constructor.
    + discriminate.
    + exists v_text. split; [|exact v_file]. constructor; [vm_compute; discriminate|apply plain_text; vm_compute; reflexivity].
    + do 2 eexists. left. reflexivity.
    + unfold hierarchy_of. cbn [j_segs v_job]. replace (entries_of "HIERARCH" v_segs) with (@nil StoreSpec.entry) by (vm_compute; reflexivity). constructor.
    + intros [|i] p H; discriminate.
    + intros p b [].
    + constructor.
Qed.
Lemma q_job_ok : job_ok ws_dir true q_job.
Proof.
  constructor.
  - cbn [j_name j_fp j_letter j_no j_ext q_job]. sesam "R"%char (@nil ascii); [now left| |reflexivity]. left. apply spelled3. exists "S"%char, "I"%char, "F"%char. tauto.
  - apply has_ext_none. reflexivity.
  - exact sif_not_sin.
  - left. cbn. tauto.
  - discriminate.
  - intros [].
  - reflexivity.
  - constructor.
    + discriminate.
    + exists q_text. split; [exact q_contents|exact q_file].
    + exact q_some.
    + unfold hierarchy_of. cbn [j_segs q_job]. replace (entries_of "HIERARCH" q_segs) with (@nil StoreSpec.entry) by (vm_compute; reflexivity). constructor.
    + intros [|i] p H; discriminate.
    + intros p b [].
    + constructor.
Qed.
Definition ws_run {A} (l : list job) (out : option string) (f : stores -> Res A) : Res A :=
  dor (gst, _) <- sif2hdf5_seq ws_dir (job_args l) out false true [] glob0 []; f (snd gst).
Definition ws_keys (n : string) (st : stores) : Res (list string) := dor es <- file_data (store_in st n); Ok (map key_of es).
Example C64_case : (forall j, In j [w_job; v_job; q_job] -> job_ok ws_dir true j) /\ map (j_top true) [w_job; v_job; q_job] = ["wR9"; "shipG1"; "barR5"] /\
  0 < g_batch glob0 /\
  map (fun j => default_name (j_name j)) [w_job; v_job; q_job] = ["wR9.h5"; "shipG1.h5"; "barR5.h5"] /\
  ws_run [w_job; v_job; q_job] (Some "all.h5") (fun st => let h := store_in st "all.h5" in dor es <- file_data h; dor ko <- get_data "wR9/R5_2" es;
     dor ns <- get_elementnumbers h (snd ko) [s2l "DECK1"] "" "external"; Ok (map key_of es, ns)) =
    Ok (["barR5"; "shipG1"; "wR9"; "wR9/R5_1"; "wR9/R5_2"], [12]) /\
  ws_run [w_job; q_job] None (fun st => dor a <- ws_keys "barR5.h5" st; dor b <- ws_keys "wR9.h5" st; Ok (a, b)) =
    Ok (["barR5"], ["wR9"; "wR9/R5_1"; "wR9/R5_2"]).
Proof.
  split; [intros j [<-|[<-|[<-|[]]]]; [exact w_job_ok|exact v_job_ok|exact q_job_ok]|].
  repeat split; vm_compute; reflexivity.
Qed.
(** Two files whose HDF5 files would have the same name: the second replaces the
    first. *)
Definition same_dir : dir := [("barR5.SIF", q_text); ("barR5.SIU", q_text); ("zR5.SIF", q_text)].
Theorem C64_names_needed :
  default_name "barR5.SIF" = default_name "barR5.SIU" /\
  (dor (gst, evs) <- sif2hdf5_seq same_dir [("barR5.SIF", "a"); ("barR5.SIU", "b")] None false true [] glob0 [];
   dor ks <- ws_keys "barR5.h5" (snd gst); Ok (evs, ks)) = Ok ([Read "barR5.SIF"; Read "barR5.SIU"], ["bbarR5"]).
Proof. split; vm_compute; reflexivity. Qed.
Print Assumptions C64_names_needed.
(** A hydrodynamic file without the records its constructor reads (ParseMore.b_text): one
    such file among the others, and none of the data sets can be reached. *)
Definition part_dir : dir := [("barR5.SIF", q_text); ("wG2.SIF", ParseMore.b_text)].
Theorem C64_complete_needed :
  file_of [] Fmt 2 false ParseMore.b_text ParseMore.b_segs /\ ~ complete "G" ParseMore.b_segs /\
  (dor (gst, evs) <- sif2hdf5_seq part_dir [("barR5.SIF", ""); ("wG2.SIF", "")] (Some "all.h5") false true [] glob0 []; Ok (evs, child_groups (store_in (snd gst) "all.h5") [])) =
    Ok ([Read "barR5.SIF"; Read "wG2.SIF"], ["barR5"; "wG2"]) /\
  (dor (gst, evs) <- sif2hdf5_seq part_dir [("barR5.SIF", ""); ("wG2.SIF", "")] (Some "all.h5") false true [] glob0 []; ws_keys "all.h5" (snd gst)) = Err NoSuchRecordError /\
  (dor (gst, evs) <- sif2hdf5_seq part_dir [("barR5.SIF", "")] (Some "all.h5") false true [] glob0 []; ws_keys "all.h5" (snd gst)) = Ok ["barR5"].
Proof.
  split; [exact (ParseMore.b_file_any false)|]. split; [intros N; destruct (N eq_refl) as (N' & _); apply N'; reflexivity|].
  repeat split; vm_compute; reflexivity.
Qed.
Print Assumptions C64_complete_needed.
