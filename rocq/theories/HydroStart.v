(** * HydroStart: when a hydrodynamic data set can be opened. *)
From Verif Require Import Base Flt SeqFile H5 Schema Data Nd Hydro SeqSpec StoreSpec ParserSpec LayoutSpec FileSpec DataSpec RecordSpec StrucSpec AssemblySpec SaysSpec
  ListFacts StoreProofs DataProofs DataFacts RecordProofs ParserRun SaysProofs HydroSpec HydroSays HydroFound HydroProofs.
Open Scope string_scope.
Open Scope Z_scope.
Open Scope list_scope.
Open Scope monad_scope.

Lemma pairs_seconds cs : Forall (fun c => exists a b, c = CV [CF a; CF b]) cs -> exists xs, Forall2 (fun x c => exists a, c = CV [CF a; CF x]) xs cs.
Proof. induction 1 as [|c cs (a & b & ->) _ (xs & IH)]; [exists []; constructor|]. exists (b :: xs). constructor; [now exists a|exact IH]. Qed.
Lemma headings_any h w segs : tables h w segs -> entries_of "WDRESREF" segs <> [] -> exists dirs freqs times, headings_in h w dirs freqs times.
Proof.
  intros T N. destruct (wdresref_arrays h w segs T N) as (rows & ds & fs & ts & H & _ & A0 & A1 & A2).
  destruct (pairs_seconds ds (pairs_found _ _ A0)) as (xs & X). destruct (pairs_seconds fs (pairs_found _ _ A1)) as (ys & Y). destruct (pairs_seconds ts (pairs_found _ _ A2)) as (zs & Z).
  exists xs, ys, zs, rows, ds, fs, ts. auto.
Qed.
Lemma global_any h w segs : tables h w segs -> entries_of "WGLOBDEF" segs <> [] -> exists g ro depth, global_in h w g ro depth.
Proof.
  intros T N. specialize (T "WGLOBDEF" ltac:(stored_)). destruct (entries_of "WGLOBDEF" segs) as [|e es]; [congruence|]. destruct T as ([rows arrs] & P & H).
  apply put_laid_out in P. pose proof P as (L1 & L2 & R & _). cbn [c_rows c_arrs] in *. destruct arrs; [|discriminate L2].
  destruct (R 0%nat e eq_refl) as (_ & cs & O & Hrow). destruct rows as [|row more]; [discriminate|]. cbn [nth_error] in Hrow. injection Hrow as ->.
  change (seq 0 (length (elts_of "WGLOBDEF"))) with (@nil nat) in H. cbn [map range_cells flat_map] in H. rewrite app_nil_r in H.
  cells_ O cs. any_ O 0%nat z0. any_ O 3%nat z3. do 5 eexists. exists more. exact H.
Qed.
Theorem hydro_starts h d segs : tables h (d_group d) segs -> d_open d = true -> definitions segs -> exists x, hydro_init h d = Ok x.
Proof.
  intros T O (N1 & N2). destruct (headings_any _ _ _ T N1) as (ds & fs & ts & HH). destruct (global_any _ _ _ T N2) as (g & ro & dp & HG).
  destruct (init_ok h d ds fs ts (length (entries_of "WSECTION" segs)) (length (entries_of "WFKPOINT" segs)) g ro dp O HH
    (counted_found _ _ _ "WSECTION" _ T ltac:(stored_) eq_refl eq_refl) (counted_found _ _ _ "WFKPOINT" _ T ltac:(stored_) eq_refl eq_refl) HG) as (x & E & _).
  now exists x.
Qed.
Lemma record_absent h d segs n : tables h (d_group d) segs -> d_open d = true -> In n stored_types -> entries_of n segs = [] -> get_record h d n = Err NoSuchRecordError.
Proof.
  intros T O Hn E. pose proof (no_records _ _ _ _ T Hn E) as F. unfold get_record, check_isopen. rewrite O. cbn [rbind]. unfold get_child_table. unfold tpath in F. now rewrite F.
Qed.
Theorem hydro_refused h d segs : tables h (d_group d) segs -> d_open d = true -> ~ definitions segs -> hydro_init h d = Err NoSuchRecordError.
Proof.
  intros T O N. destruct (entries_of "WDRESREF" segs) as [|e es] eqn:E.
  - unfold hydro_init. now rewrite (record_absent _ _ _ "WDRESREF" T O ltac:(stored_) E).
  - assert (N1 : entries_of "WDRESREF" segs <> []) by (rewrite E; discriminate).
    assert (N2 : entries_of "WGLOBDEF" segs = []). { destruct (entries_of "WGLOBDEF" segs) eqn:E2; [reflexivity|]. exfalso. apply N. split; [exact N1|]. rewrite E2. discriminate. }
    destruct (headings_any _ _ _ T N1) as (ds & fs & ts & (rows & dd & ff & tt_ & H & HD & HF & HT)). unfold hydro_init.
    rewrite (holds_table _ _ _ _ O H). cbn [rbind c_arrs]. rewrite (seconds_ok _ _ HF). cbn [rbind].
    destruct (HydroUnique.firsts_ok fs) as (of & -> & _). cbn [rbind]. rewrite (seconds_ok _ _ HD). cbn [rbind].
    destruct (HydroUnique.firsts_ok ds) as (od & -> & _). cbn [rbind]. rewrite (seconds_ok _ _ HT). cbn [rbind].
    rewrite (counted_ok _ _ _ _ O (counted_found _ _ _ "WSECTION" _ T ltac:(stored_) eq_refl eq_refl)), (counted_ok _ _ _ _ O (counted_found _ _ _ "WFKPOINT" _ T ltac:(stored_) eq_refl eq_refl)).
    cbn [rbind]. unfold record0. now rewrite (record_absent _ _ _ "WGLOBDEF" T O ltac:(stored_) N2).
Qed.
