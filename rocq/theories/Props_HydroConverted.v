(** * A case of C57 for a hydrodynamic file converted together with others. *)
From Coq Require Import Sorting.Sorted.
From Verif Require Import Base Flt SeqFile H5 Schema Parsers Data Files Struc SifName Convert SeqSpec StoreSpec ParserSpec LayoutSpec FileSpec DataSpec
  SifNameSpec ConvertSpec AssemblySpec ConvertSample AssemblySample StrucSpec SaysSpec FileSample JobsSpec JobsProofs
  Nd Hydro HydroSpec HydroSays HydroFound Props_Hydro HydroFileSample Props_Jobs Props_HydroFile.
Open Scope string_scope.
Open Scope Z_scope.
Open Scope list_scope.

(** The motions of the second body, heading v_ds[1] and frequency v_fs[0]. *)
Example C57_converted_case : exists g' st' evs es o x a,
  sif2hdf5_seq ws_dir (job_args [w_job; v_job; q_job]) (Some "all.h5") false true [] glob0 [] = Ok (g', st', evs) /\
  file_data (store_in st' "all.h5") = Ok es /\ get_data "shipG1" es = Ok (KHydro, o) /\ hydro_init (store_in st' "all.h5") o = Ok x /\
  get_motion_raos (store_in st' "all.h5") x 2 = Ok a /\ n_shape a = [6; 2; 2]%nat /\ at_ a [4; 1; 0]%nat <> None.
Proof.
  destruct (C64_one_file ws_dir true "all.h5" [w_job; v_job; q_job] glob0 []) as (g' & st' & es & E & J & _).
  - discriminate.
  - discriminate.
  - intros j [<-|[<-|[<-|[]]]]; [exact w_job_ok|exact v_job_ok|exact q_job_ok].
  - repeat constructor; vm_compute; intuition discriminate.
  - reflexivity.
  - pose proof J as (FD & _ & _).
    destruct (C57_converted ws_dir true _ _ es v_job (fun z => z) (fun z => z) (map w_dir v_refs) (map w_freq v_refs) [] 2 2 (CF (rf 10)) (CF (rf 1025)) (CF (rf 300)) J ltac:(cbn; tauto) eq_refl
      (wrefs_headings _ _ v_has_refs) eq_refl eq_refl v_has_global) as (o & x & ds & fs & ts & G & EI & OP & F1 & F2 & _ & GD & _).
    destruct (C57_named ws_dir _ _ _ x v_refs v_ds v_fs v_bodies 2 9 get_motion_raos "W1MOTION" 6 v_motions v_mine OP v_has_refs v_grid) as (a & Ea & Sa & Va).
    + discriminate.
    + discriminate.
    + exact v_has_bodies.
    + exact v_cond.
    + discriminate.
    + now left.
    + exact v_has_motions.
    + unfold v_motions, v_mine; cbn [flat_map app map]; sub_.
    + reflexivity.
    + destruct (Va 4%nat 1%nat 0%nat _ _ ltac:(lia) eq_refl eq_refl) as (ref & r & _ & _ & _ & Hr & _ & _ & V).
      do 7 eexists. split; [exact E|]. split; [exact FD|]. split; [exact G|]. split; [exact EI|]. split; [exact Ea|]. split; [exact Sa|].
      rewrite V. apply nth_error_Some. assert (K : forallb (fun r => Nat.eqb (length (r_comps r)) 6) v_motions = true) by (vm_compute; reflexivity).
      rewrite forallb_forall in K. specialize (K r Hr). apply Nat.eqb_eq in K. rewrite K. lia.
Qed.
