(** * C79-C83 from HDF5 files that several files were converted into. *)
From Coq Require Import Reals Lra Ring_theory Sorting.Sorted.
From Verif Require Import Base Flt SeqFile H5 Schema Parsers Data Files FilesProofs Struc SifName Convert SeqSpec StoreSpec ParserSpec LayoutSpec FileSpec DataSpec
  SifNameSpec SifNameProofs ConvertSpec AssemblySpec AssemblyOpen CoordsProofs ConvertSample StrucSpec SaysSpec FileSample JobsSpec JobsProofs Survey SurveyProofs Props_Survey
  Nd Hydro HydroSpec HydroSays HydroFound HydroFloat HydroNum HydroFileSample IeeeSpec IeeeExists FltValue Trans TransSpec TransSample
  Props_Jobs Props_HydroFile Props_HydroFloat Props_Converted Props_Coords Props_CoordsFloat Props_Hier Props_HierFloat.
Open Scope string_scope.
Open Scope Z_scope.
Open Scope list_scope.
Open Scope monad_scope.

(** An object of a file has no top level object of its own until the file is asked for one. *)
Lemma entry_no_top h es n kd o : file_data h = Ok es -> get_data n es = Ok (kd, o) -> d_top o = None.
Proof.
  intros FD E. destruct (get_data_obj _ _ _ E) as (en & I & X). pose proof (file_no_top _ _ FD) as NT. rewrite Forall_forall in NT. destruct (NT en I) as [NT1 _]. injection X as _ X. now rewrite X in NT1.
Qed.
Lemma data_object d usefp h l es j o segs : jobs_opened d usefp h l es -> In j l -> data_of d usefp es j o segs -> plain_object h o segs.
Proof.
  intros (FD & _ & J) I D. destruct (J j I) as ((pos & kd0 & o0 & G & _ & _ & OP & _ & _ & _ & F & T) & S). destruct D as [o G'|p b s o bs segs HS G' C1 C2 C3].
  - rewrite G in G'. injection G' as _ <-. repeat (split; [assumption|]). split; [exact (entry_no_top _ _ _ _ _ FD G)|exact F].
  - destruct (S p b s HS) as (kd1 & o1 & G1 & _ & OP1 & _ & _ & _ & _ & _ & X). rewrite G1 in G'. injection G' as _ <-. destruct (X bs segs C1 C2 C3) as (F1 & T1).
    repeat (split; [assumption|]). split; [exact (entry_no_top _ _ _ _ _ FD G1)|exact F1].
Qed.

Theorem C79_converted : forall d usefp h l es j o segs, jobs_opened d usefp h l es -> In j l -> data_of d usefp es j o segs -> gives_moved h o segs.
Proof. intros d usefp h l es j o segs J I D. destruct (data_object _ _ _ _ _ _ _ _ J I D) as (O & T & N & F). now apply gives_moved_ok. Qed.
Print Assumptions C79_converted.
Theorem C80_converted : forall rs rd, rounds single rs -> rounds double rd ->
  forall d usefp h l es j o segs, jobs_opened d usefp h l es -> In j l -> data_of d usefp es j o segs -> gives_near rs rd h o segs.
Proof. intros rs rd RS RD d usefp h l es j o segs J I D. destruct (data_object _ _ _ _ _ _ _ _ J I D) as (O & T & N & F). now apply gives_near_ok. Qed.
Print Assumptions C80_converted.

(** The transformations are those of the top superelement of each file. *)
Theorem C82_jobs : forall d usefp h l es j, jobs_opened d usefp h l es -> In j l -> top_level (j_letter j) (j_segs j) ->
  exists o, get_data (j_top usefp j) es = Ok (KTop, o) /\ gives_transformations h o (j_segs j).
Proof.
  intros d usefp h l es j (_ & _ & J) I TL. destruct (J j I) as ((pos & kd & o & G & TP & OA & O & _ & _ & _ & _ & T) & _).
  rewrite (top_kind _ _ pos kd TL TP OA) in G. exists o. split; [exact G|]. now apply gives_transformations_ok.
Qed.
Print Assumptions C82_jobs.
Theorem C83_jobs : forall rs, rounds single rs -> forall d usefp h l es j, jobs_opened d usefp h l es -> In j l -> top_level (j_letter j) (j_segs j) ->
  exists o, get_data (j_top usefp j) es = Ok (KTop, o) /\ gives_near_products rs h o (j_segs j).
Proof.
  intros rs RS d usefp h l es j J I TL. destruct (C82_jobs d usefp h l es j J I TL) as (o & E & G). exists o. split; [exact E|]. now apply gives_near_products_ok.
Qed.
Print Assumptions C83_jobs.

(** Periods and headings. *)
Theorem C81_converted : forall d usefp h l es j dirs freqs times nsec npts gr ro depth,
  jobs_opened d usefp h l es -> In j l -> j_letter j = "G" ->
  headings_on (j_segs j) dirs freqs times -> counted_on (j_segs j) "WSECTION" nsec -> counted_on (j_segs j) "WFKPOINT" npts -> global_on (j_segs j) gr ro depth ->
  freqs <> [] -> Forall (sized 100) freqs -> Forall (at_most 100) dirs ->
  exists o x ds fs degs ps, get_data (j_top usefp j) es = Ok (KHydro, o) /\ hydro_init h o = Ok x /\ opens d (j_name j) (j_segs j) h x /\ firsts dirs ds /\ firsts freqs fs /\
    get_angular_freqs x = Ok fs /\ get_periods period32 x = Ok ps /\ Forall2 (fun w => accurate (3 / 2)%R 0%R (2 * Rtrigo1.PI / value w)%R) fs ps /\
    get_directions degrees32 x "radians" = Ok ds /\ get_directions degrees32 x "degrees" = Ok degs /\
    Forall2 (fun d => accurate (5 / 2)%R (powerRZ 2 (-149)) (value d * 180 / Rtrigo1.PI)%R) ds degs.
Proof.
  intros d usefp h l es j dirs freqs times nsec npts gr ro depth J I L HH HN HP HG HF SF SD.
  destruct (C57_converted d usefp h l es j period32 degrees32 dirs freqs times nsec npts gr ro depth J I L HH HN HP HG) as (o & x & ds & fs & ts & E1 & E2 & E3 & F1 & F2 & F3 & D1 & D2 & P1 & _).
  assert (NF : fs <> []).
  { destruct freqs as [|w freqs]; [contradiction|]. intros ->. destruct F2 as (idx & _ & F & C). inversion F. subst.
    destruct (C 0%nat w eq_refl) as (_ & K). destruct K. intros i y K. lia. }
  destruct (P1 NF) as (A1 & A2 & _). exists o, x, ds, fs, (map degrees32 ds), (map period32 fs). repeat (split; [assumption|]).
  split; [apply (map_each (sized 100)); [exact (firsts_all _ _ _ F2 SF)|intros w W; now apply C81_period]|]. split; [assumption|]. split; [assumption|].
  apply (map_each (at_most 100)); [exact (firsts_all _ _ _ F1 SD)|intros w W; now apply C81_degrees].
Qed.
Print Assumptions C81_converted.

(** Three files converted together: the bar of C79 with its own transformation, the
    hierarchy of C82 and the hydrodynamic file of C57. *)
Definition m_dir : dir := Props_Coords.v_dir ++ t_dir ++ HydroFileSample.v_dir.
Definition m_bar := mkJob "barR5.SIF" "bar" "R" (s2l "5") "SIF" "" Fmt 5 Props_Coords.v_text Props_Coords.v_segs [].
Definition m_ship := mkJob "shipT3.FEM" "ship" "T" (s2l "3") "FEM" "" Fmt 3 t_text t_segs t_places.
Definition m_wave := mkJob "shipG1.SIF" "ship" "G" (s2l "1") "SIF" "" Fmt 1 HydroFileSample.v_text HydroFileSample.v_segs [].
Lemma m_bar_ok : job_ok m_dir true m_bar.
Proof.
  constructor.
  - cbn [j_name j_fp j_letter j_no j_ext m_bar]. sesam "R"%char (@nil ascii); [now left| |reflexivity]. left. apply spelled3. exists "S"%char, "I"%char, "F"%char. tauto.
  - apply has_ext_none. reflexivity.
  - exact sif_not_sin.
  - left. cbn. tauto.
  - discriminate.
  - intros [].
  - reflexivity.
  - apply (survey_ok m_dir "bar" "R" "SIF" "bar" 5 Props_Coords.v_text Props_Coords.v_segs []). vm_compute. reflexivity.
Qed.
Lemma m_ship_ok : job_ok m_dir true m_ship.
Proof.
  constructor.
  - cbn [j_name j_fp j_letter j_no j_ext m_ship]. sesam "T"%char (@nil ascii); [now left| |reflexivity]. right. right. right. apply spelled3. exists "F"%char, "E"%char, "M"%char. tauto.
  - apply has_ext_none. reflexivity.
  - intros X. apply spelled3 in X as (x & y & z & E & A & B & C). injection E as <- <- <-. destruct A; discriminate.
  - left. cbn. tauto.
  - discriminate.
  - intros [].
  - reflexivity.
  - apply (survey_ok m_dir "ship" "T" "FEM" "ship" 3 t_text t_segs t_places). vm_compute. reflexivity.
Qed.
Lemma m_wave_ok : job_ok m_dir true m_wave.
Proof.
  constructor.
  - cbn [j_name j_fp j_letter j_no j_ext m_wave]. sesam "G"%char (@nil ascii); [now left| |reflexivity]. left. apply spelled3. exists "S"%char, "I"%char, "F"%char. tauto.
  - apply has_ext_none. reflexivity.
  - exact sif_not_sin.
  - right. split; reflexivity.
  - intros _. split; vm_compute; discriminate.
  - intros [].
  - reflexivity.
  - destruct (jo_parts _ _ _ v_job_ok) as [A1 A2 A3 A4 A5 A6 A7]. constructor; try assumption.
Qed.
(** What is asked of them: the coordinates of the bar moved by its own
    transformation, a transformation of the hierarchy, periods and headings. *)
Definition m_run {A} (n : string) (f : h5 -> sdata -> Res A) : Res A :=
  dor (gst, _) <- sif2hdf5_seq m_dir (job_args [m_bar; m_ship; m_wave]) (Some "all.h5") false true [] glob0 [];
  let h := store_in (snd gst) "all.h5" in
  dor es <- file_data h; dor ko <- get_data n es; f h (snd ko).
Example C79_converted_case : (forall j, In j [m_bar; m_ship; m_wave] -> job_ok m_dir true j) /\ map (j_top true) [m_bar; m_ship; m_wave] = ["barR5"; "shipT3"; "shipG1"] /\
  (exists st es, jobs_opened m_dir true (store_in st "all.h5") [m_bar; m_ship; m_wave] es) /\ top_level (j_letter m_ship) (j_segs m_ship) /\
  m_run "barR5" (fun h o => get_nodes 0 1 Z.add Z.mul zn h o (fun _ => o) [] "" false (Some (TText "top")) 1) = Ok [[105; 200; 300]; [100; 210; 307]] /\
  m_run "shipT3" (fun h o => get_transformation 0 1 Z.add Z.mul zn h o 1 1 Trans.Top) = Ok [[0; 1; 0; 0]; [1; 0; 0; 0]; [0; 0; 1; 0]; [5; 0; 2; 1]] /\
  m_run "shipG1" (fun h o => dor x <- hydro_init h o; get_periods period32 x) = Ok [FFin false 13176795 (-22); FFin false 13176795 (-21)] /\
  m_run "shipG1" (fun h o => dor x <- hydro_init h o; get_directions degrees32 x "degrees") = Ok [FFin false 1408101 (-13); FZero false].
Proof.
  assert (JO : forall j, In j [m_bar; m_ship; m_wave] -> job_ok m_dir true j) by (intros j [<-|[<-|[<-|[]]]]; [exact m_bar_ok|exact m_ship_ok|exact m_wave_ok]).
  split; [exact JO|]. split; [vm_compute; reflexivity|]. split.
  { destruct (C64_one_file m_dir true "all.h5" [m_bar; m_ship; m_wave] glob0 []) as (g' & st' & es & _ & J & _).
    - discriminate.
    - discriminate.
    - exact JO.
    - repeat constructor; vm_compute; intuition discriminate.
    - reflexivity.
    - exists st', es. exact J. }
  split. { eexists. eexists. exists 3. split; [vm_compute; reflexivity|]. split; [int_at_|]. left. now left. }
  repeat (split; [vm_compute; reflexivity|]). vm_compute. reflexivity.
Qed.
