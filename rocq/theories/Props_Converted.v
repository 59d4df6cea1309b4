(** * C69, C84, C85 from HDF5 files that several files were converted into. *)
From Coq Require Import Reals Lra Sorted.
From Verif Require Import Base Flt SeqFile H5 Schema Parsers Data Files Struc Convert SeqSpec StoreSpec ParserSpec LayoutSpec FileSpec ConvertSpec AssemblySpec
  StrucSpec StrucRes StrucExist SaysSpec SaysProofs SaysOpen SaysGives JobsSpec JobsProofs Nd NdProofs Calc CalcSpec Elem ElemSpec ElemResSpec ElemMore ElemValuesSpec
  IeeeSpec IeeeFacts IeeeExists DotSpec CalcFloat ElemFloat ElemFloatNum ElemFloatSpec ElemFloatProofs ListFacts Props_Elem Props_ElemValues Props_ElemFloat
  Vtu VtuSpec Export ExportSpec ElemExport ElemExportSpec Sample2 Sample SifName SifNameSpec ConvertSample FileSample Props_File Props_Jobs Props_ElemExport Props_ElemFile
  ShellSample ComplexSample Props_Stress Props_StressFile ElemComplex Props_ElemComplex.
Open Scope string_scope.
Open Scope Z_scope.
Open Scope list_scope.

(** The data set of the top file of a job, or of a superelement below it, as an
    object [o] of the first level, and the records [segs] of its own file. *)
Inductive data_of (d : dir) (usefp : bool) (es : list Files.entry) (j : job) : sdata -> list seg -> Prop :=
| top_data o : get_data (j_top usefp j) es = Ok (KFirst, o) -> data_of d usefp es j o (j_segs j)
| sub_data p b s o bs segs : has_sub d usefp j p b s -> get_data (under (j_top usefp j) s) es = Ok (KFirst, o) ->
    contents (j_kind j) b bs -> file_of [] (j_kind j) (pl_type p) true bs segs -> some_record segs -> data_of d usefp es j o segs.
Lemma data_tables d usefp h l es j o segs : jobs_opened d usefp h l es -> In j l -> data_of d usefp es j o segs ->
  d_open o = true /\ tables h (d_group o) segs.
Proof.
  intros (_ & _ & J) I D. destruct (J j I) as ((pos & kd0 & o0 & G & _ & _ & OP & _ & _ & _ & _ & T) & S). destruct D as [o G'|p b s o bs segs HS G' C1 C2 C3].
  - rewrite G in G'. injection G' as _ <-. now split.
  - destruct (S p b s HS) as (kd1 & o1 & G1 & _ & OP1 & _ & _ & _ & _ & _ & X). rewrite G1 in G'. injection G' as _ <-. destruct (X bs segs C1 C2 C3) as (_ & T1). now split.
Qed.

Theorem C69_converted : forall num d usefp h l es j o segs, jobs_opened d usefp h l es -> In j l -> data_of d usefp es j o segs -> gives_rounded num h o segs.
Proof. intros num d usefp h l es j o segs J I D. destruct (data_tables _ _ _ _ _ _ _ _ J I D). now apply gives_rounded_ok. Qed.
Print Assumptions C69_converted.
Theorem C84_converted : forall num d usefp h l es j o segs, jobs_opened d usefp h l es -> In j l -> data_of d usefp es j o segs -> gives_stresses num h o segs.
Proof. intros num d usefp h l es j o segs J I D. destruct (data_tables _ _ _ _ _ _ _ _ J I D). now apply gives_stresses_ok. Qed.
Print Assumptions C84_converted.
Theorem C85_converted : forall val d usefp h l es j o segs, jobs_opened d usefp h l es -> In j l -> data_of d usefp es j o segs -> gives_complex val h o segs.
Proof. intros val d usefp h l es j o segs J I D. destruct (data_tables _ _ _ _ _ _ _ _ J I D). now apply gives_complex_ok. Qed.
Print Assumptions C85_converted.

(** The forces of the beam, its file converted together with an assembly. *)
Example C69_converted_case : exists g' st' evs es o parts,
  sif2hdf5_seq ws_dir (job_args [w_job; q_job]) (Some "all.h5") false true [] glob0 [] = Ok (g', st', evs) /\
  file_data (store_in st' "all.h5") = Ok es /\ data_of ws_dir true es q_job o q_segs /\
  get_elementresults_fl (ieee single) (ieee double) (ieee double) machine_dot e_num (store_in st' "all.h5") o "beamforce" "nodes" 1 AllCases [] = Ok (with_cases 2 [2; 6]%nat parts).
Proof.
  destruct (C64_one_file ws_dir true "all.h5" [w_job; q_job] glob0 []) as (g' & st' & es & E & J & _).
  - discriminate.
  - discriminate.
  - intros j [<-|[<-|[]]]; [exact w_job_ok|exact q_job_ok].
  - repeat constructor; vm_compute; intuition discriminate.
  - reflexivity.
  - pose proof J as (FD & _ & T). destruct (T q_job ltac:(cbn; tauto)) as ((pos & kd & o & G & TP & OA & _) & _).
    assert (K : kd = KFirst).
    { inversion OA as [ | f l L X Y| l N X Y| | p X Y]; subst; try reflexivity; exfalso; [cbn in L; intuition discriminate|]. inversion TP as [|e0 es0 f0 l0 H0]; subst. vm_compute in H0. discriminate H0. }
    subst kd. assert (D : data_of ws_dir true es q_job o q_segs) by exact (top_data _ _ _ q_job o G).
    destruct (C69_converted e_num _ _ _ _ _ q_job o q_segs J ltac:(cbn; tauto) D (ieee single) (ieee double) (ieee double) machine_dot (powerRZ 2 100) q_ns q_es q_refs [] [] [] "beamforce" "RVFORCES" "force" "beam" [0]%nat q_forces 1 None AllCases q_refs [6]%nat) as (parts & H1 & _).
    + apply C69_numpy.
    + split; [apply Rlt_le, powerRZ_lt; lra|apply Rle_refl].
    + exact q_mesh.
    + exact q_has_refs.
    + left. reflexivity.
    + apply proper_on_b; [intro K; congruence|vm_compute; reflexivity|cbn; tauto].
    + q_sel.
    + discriminate.
    + exact q_has_forces.
    + reflexivity.
    + q_asked.
    + discriminate.
    + repeat constructor; cbn; intuition congruence.
    + intros r [<-|[<-|[]]]; reflexivity.
    + reflexivity.
    + intros b [<-|[<-|[]]] _; reflexivity.
    + intros j e [<-|[]] X. injection X as <-. exists 18%nat. split; [now left|]. intros b v [<-|[<-|[]]] _ [K|[]]; injection K as <-; reflexivity.
    + intros b j v c [<-|[<-|[]]] [K|[]] Hc; injection K as <- <-; apply small_cell_le; revert c Hc; apply forallb_forall; vm_compute; reflexivity.
    + do 5 eexists. eexists. split; [exact E|]. split; [exact FD|]. split; [exact D|exact H1].
Qed.
