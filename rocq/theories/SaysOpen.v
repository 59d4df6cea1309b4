(** * SaysOpen: opening a file and finding its records. *)
From Verif Require Import Base Flt SeqFile H5 Schema Parsers Data Files SifName Convert SeqSpec StoreSpec ParserSpec LayoutSpec FileSpec DataSpec
  RecordProofs StrucSpec SifNameSpec ConvertSpec AssemblySpec AssemblyOpen SaysSpec.
Open Scope string_scope.
Open Scope Z_scope.
Open Scope list_scope.

Theorem open_first d top letter id segs g : sesam_file d top letter id segs -> first_level letter segs -> 0 < g_batch g ->
  exists g' h o, open_sif d top g = Ok (g', h, KFirst, o) /\ d_open o = true /\ tables h (d_group o) segs.
Proof.
  intros (fp & no & ext & k & b & ps & H1 & H2 & H3 & H4 & H5 & H6 & H7) HF Hb.
  assert (HC : complete letter segs).
  { intros ->. exfalso. destruct HF as [[L _]|[L _]]; [cbn in L; intuition discriminate|discriminate]. }
  destruct (open_assembly d top fp letter no ext k id b segs ps g H1 H2 H3 H4 H5 H7 H6 HC Hb) as (g' & h & kd & o & pos & E & T & P & K & G & _ & _ & _ & _ & O).
  exists g', h, o. split; [|split; [exact O|now rewrite G]]. rewrite E. repeat f_equal.
  destruct HF as [[L N]|[-> (e & es & N & (f & A & B))]].
  - inversion P; [subst pos|congruence]. inversion K; [reflexivity|]. subst. cbn in L. intuition discriminate.
  - inversion P as [M|e' es' f' l M A' B']; [congruence|subst pos]. assert (l = 1) as -> by (rewrite N in M; injection M as <- <-; rewrite A in A'; injection A' as <-; eapply trunc_unique; eauto).
    inversion K; subst; try congruence. match goal with H : In "R" _ |- _ => cbn in H; intuition discriminate end.
Qed.
Theorem open_hydro d top id segs g : sesam_file d top "G" id segs -> definitions segs -> 0 < g_batch g ->
  exists g' h o, open_sif d top g = Ok (g', h, KHydro, o) /\ d_open o = true /\ tables h (d_group o) segs.
Proof.
  intros (fp & no & ext & k & b & ps & H1 & H2 & H3 & H4 & H5 & H6 & H7) HC Hb.
  destruct (open_assembly d top fp "G" no ext k id b segs ps g H1 H2 H3 H4 H5 H7 H6 (fun _ => HC) Hb) as (g' & h & kd & o & pos & E & T & P & K & G & _ & _ & _ & _ & O).
  exists g', h, o. split; [|split; [exact O|now rewrite G]]. rewrite E. repeat f_equal.
  inversion K; subst; try reflexivity; match goal with H : In "G" _ |- _ => cbn in H; intuition discriminate end.
Qed.
Theorem refused_hydro d top id segs g : sesam_file d top "G" id segs -> ~ definitions segs -> 0 < g_batch g -> open_sif d top g = Err NoSuchRecordError.
Proof. intros (fp & no & ext & k & b & ps & H1 & H2 & H3 & H4 & H5 & H6 & H7) HC Hb. exact (open_refused d top fp no ext k id b segs ps g H1 H2 H3 H5 H7 H6 HC Hb). Qed.
Lemma opened_definitions d top id segs g r : sesam_file d top "G" id segs -> 0 < g_batch g -> open_sif d top g = Ok r -> definitions segs.
Proof.
  intros HS Hb E. destruct (entries_of "WDRESREF" segs) eqn:E1; [|destruct (entries_of "WGLOBDEF" segs) eqn:E2].
  - rewrite (refused_hydro _ _ _ _ _ HS) in E; [discriminate| |exact Hb]. intros (N & _). congruence.
  - rewrite (refused_hydro _ _ _ _ _ HS) in E; [discriminate| |exact Hb]. intros (_ & N). congruence.
  - unfold definitions. rewrite E1, E2. split; discriminate.
Qed.
