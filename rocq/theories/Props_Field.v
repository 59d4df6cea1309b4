(** * Properties of names and kinds of fields: C08, C11, C56 *)
From Verif Require Import Base Flt SeqFile H5 Schema Parsers SeqSpec StoreSpec ParserSpec LayoutSpec FileSpec DataSpec
  FltProofs NumProofs SeqMore FileProofs ReadFile Sample Sample2 ParseMore FieldSpec FieldProofs.
Open Scope string_scope.
Open Scope Z_scope.
Open Scope list_scope.

(** C08, C11: for all record types, every number of a record is in the column of
    its name, every list in the array of its name. *)
Theorem C08_named : forall only k bs segs h w h' n fs ls j it,
  read_file only k bs segs h w h' -> In (n, fs, ls) record_fields -> nth_error (items_of n segs) j = Some it ->
  stored_by_name h' w n fs ls j (i_entry it).
Proof. exact read_by_name. Qed.
Print Assumptions C08_named.
(** No record type is left out. *)
Theorem C08_named_all : forall n, In n stored_types <-> exists fs ls, In (n, fs, ls) record_fields.
Proof.
  intro n. split.
  - intros H. assert (A : forallb (fun n => existsb (fun x => String.eqb (fst (fst x)) n) record_fields) stored_types = true) by (vm_compute; reflexivity).
    pose proof (proj1 (forallb_forall _ _) A n H) as E. apply existsb_exists in E. destruct E as ([[n' fs] ls] & I1 & E).
    apply String.eqb_eq in E. cbn [fst] in E. subst n'. exists fs, ls. exact I1.
  - intros (fs & ls & H). exact (proj2 (proj2 (proj2 (proj2 (field_facts n fs ls H))))).
Qed.
Print Assumptions C08_named_all.
(* the element of s_text: its type in the column eltyp, its nodes in gelmnt1_nodin *)
Example C08_named_case : exists h', read_file [] Fmt s_text s_segs [] ["R1"] h' /\
  named h' ["R1"] "GELMNT1" 0 "eltyp" (CI 15) /\ listed_as h' ["R1"] "GELMNT1" 0 "nodin" [CI 1; CI 2] /\
  named h' ["R1"] "GCOORD" 0 "ycoord" (CF (f_of_Z (-5))).
Proof.
  destruct s_reads as (h' & H). exists h'. split; [exact H|].
  assert (E : stored_by_name h' ["R1"] "GELMNT1" (FieldSpec.I "elnox elno eltyp eltyad") (FieldSpec.I "nodin") 0 (i_entry s_elem)).
  { eapply C08_named; [exact H| |reflexivity]. do 17 right. left. reflexivity. }
  assert (C : stored_by_name h' ["R1"] "GCOORD" (FieldSpec.I "nodeno" ++ FieldSpec.R "xcoord ycoord zcoord") [] 0 (i_entry s_coord1)).
  { eapply C08_named; [exact H| |reflexivity]. do 16 right. left. reflexivity. }
  split; [|split].
  - destruct E as (_ & _ & E & _). destruct (E 2%nat "eltyp" TI (PF (f_of_Z 15)) eq_refl eq_refl) as (c & S & N).
    destruct c as [z| | | |]; try contradiction. destruct S as [S _]. cbn in S. destruct S as (a & _ & Ez & S & _). rewrite S in Ez by lia.
    cbn in Ez. subst z. exact N.
  - destruct E as (_ & _ & _ & E). destruct (E 0%nat "nodin" TI (nums (fl [1; 2])) eq_refl eq_refl) as (cs & S & N).
    inversion S as [|x1 c1 l1 m1 S1 T1]; subst. inversion T1 as [|x2 c2 l2 m2 S2 T2]; subst. inversion T2; subst.
    destruct c1 as [z1| | | |]; try contradiction. destruct c2 as [z2| | | |]; try contradiction.
    destruct S1 as [S1 _], S2 as [S2 _]. cbn in S1, S2.
    destruct S1 as (a1 & _ & E1 & S1 & _). rewrite S1 in E1 by lia. destruct S2 as (a2 & _ & E2 & S2 & _). rewrite S2 in E2 by lia.
    cbn in E1, E2. subst z1 z2. exact N.
  - destruct C as (_ & _ & C & _). destruct (C 2%nat "ycoord" TF (PF (f_of_Z (-5))) eq_refl eq_refl) as (c & S & N).
    destruct c as [|g| | |]; try contradiction. cbn [stored] in S. subst g. exact N.
Qed.

(** C56.  The real numbers of cross sections are kept, in single precision: all
    but those listed in [section_cut]. *)
Theorem C56_partial : forall only k bs segs h w h' n x j it,
  read_file only k bs segs h w h' -> In (n, x) section_reals -> ~ In (n, x) section_cut -> nth_error (items_of n segs) j = Some it ->
  exists fs ls i t, In (n, fs, ls) record_fields /\ nth_error fs i = Some (x, t) /\
    forall f, nth_error (e_row (i_entry it)) i = Some (PF f) -> named h' w n j x (CF (round32 f)).
Proof.
  intros only k bs segs h w h' n x j it HR Hx Hc Hj.
  assert (A : forallb (fun nx => existsb (fun y => String.eqb (fst y) (fst nx) && String.eqb (snd y) (snd nx)) section_cut ||
      existsb (fun r => String.eqb (fst (fst r)) (fst nx) && existsb (fun f => field_eqb f (snd nx, TF)) (snd (fst r))) record_fields)%bool section_reals = true)
    by (vm_compute; reflexivity).
  pose proof (proj1 (forallb_forall _ _) A _ Hx) as E. cbn [fst snd] in E. apply orb_prop in E. destruct E as [E|E].
  - exfalso. apply existsb_exists in E. destruct E as ([a b] & I1 & E). apply andb_prop in E. cbn [fst snd] in E. destruct E as [E1 E2].
    apply String.eqb_eq in E1, E2. subst a b. exact (Hc I1).
  - apply existsb_exists in E. destruct E as ([[n' fs] ls] & I1 & E). apply andb_prop in E. cbn [fst snd] in E. destruct E as [E1 E2].
    apply String.eqb_eq in E1. subst n'. apply existsb_exists in E2. destruct E2 as ([y t] & I2 & E2). unfold field_eqb in E2. cbn [fst snd] in E2.
    apply andb_prop in E2. destruct E2 as [E2 E3]. apply String.eqb_eq in E2. apply ctype_eqb_eq in E3. subst y t.
    destruct (In_nth_error _ _ I2) as (i & Hi). exists fs, ls, i, TF. split; [exact I1|]. split; [exact Hi|]. intros f Hf.
    destruct (C08_named _ _ _ _ _ _ _ _ _ _ _ _ HR I1 Hj) as (_ & _ & N & _). destruct (N i x TF (PF f) Hi Hf) as (c & S & Nc).
    destruct c as [|g| | |]; try contradiction. cbn [stored] in S. subst g. exact Nc.
Qed.
Print Assumptions C56_partial.
(** The others lose their fraction: a pipe with the factors 0.5 and 0.75. *)
Definition c56_text : list ascii :=
  fline "IDENT" [1; 1; 3; 0] ++ fline "GPIPE" [1; 0; 2; 1] ++
  tline "          5.00000000e-01  7.50000000e-01  0.00000000e+00  0.00000000e+00" ++ fline "IEND" [0; 0; 0; 0].
Theorem C56_refuted : exists s half, conv glob0 "R" c56_text = Ok (tt, s) /\ parse_float (s2l " 5.00000000e-01") = Ok half /\ half = FFin false 1 (-1) /\
  In ("GPIPE", "sfy") section_reals /\ named (p_out s) ["R1"] "GPIPE" 0 "sfy" (CI 0) /\ named (p_out s) ["R1"] "GPIPE" 0 "sfz" (CI 0).
Proof.
  destruct (conv glob0 "R" c56_text) as [[[] s]|] eqn:E.
  2:{ apply (f_equal ok_of) in E. vm_compute in E. discriminate. }
  assert (T : h5_find ["R1"; "gpipe"] (p_out s) = Some (Table (descr_of "GPIPE")
     [[CI 1; CF (f_of_Z 0); CF (f_of_Z 2); CF (f_of_Z 1); CI 0; CI 0; CI 0; CI 0]])).
  { replace (p_out s) with (out_of (conv glob0 "R" c56_text)) by now rewrite E. vm_compute. reflexivity. }
  assert (ND : NoDup (map fst (descr_of "GPIPE"))) by (apply nodup_b_ok; vm_compute; reflexivity).
  exists s, (FFin false 1 (-1)). split; [reflexivity|]. split; [vm_compute; reflexivity|]. split; [reflexivity|].
  split; [|split].
  - assert (A : existsb (fun y => String.eqb (fst y) "GPIPE" && String.eqb (snd y) "sfy") section_reals = true) by (vm_compute; reflexivity).
    apply existsb_exists in A. destruct A as ([a b] & I1 & A). apply andb_prop in A. cbn [fst snd] in A. destruct A as [A1 A2].
    apply String.eqb_eq in A1, A2. subst a b. exact I1.
  - eexists _, _, _, 4%nat, TI. split; [exact T|]. split; [reflexivity|]. split; [reflexivity|]. split; [|reflexivity].
    apply nth_unique with (t := TI); [exact ND|reflexivity].
  - eexists _, _, _, 5%nat, TI. split; [exact T|]. split; [reflexivity|]. split; [reflexivity|]. split; [|reflexivity].
    apply nth_unique with (t := TI); [exact ND|reflexivity].
Qed.
Print Assumptions C56_refuted.
(* a dimension of the pipe of s_text *)
Example C56_case : exists h', read_file [] Fmt s_text s_segs [] ["R1"] h' /\ In ("GPIPE", "dy") section_reals /\ ~ In ("GPIPE", "dy") section_cut /\
  named h' ["R1"] "GPIPE" 1 "dy" (CF (f_of_Z 3)).
Proof.
  destruct s_reads as (h' & H). exists h'. split; [exact H|].
  assert (P : In ("GPIPE", "dy") section_reals) by (vm_compute; tauto).
  assert (Q : ~ In ("GPIPE", "dy") section_cut) by (vm_compute; intuition discriminate).
  split; [exact P|]. split; [exact Q|].
  assert (C : stored_by_name h' ["R1"] "GPIPE" (FieldSpec.I "geono" ++ FieldSpec.R "di dy t" ++ FieldSpec.I "sfy sfz ncir nrad") [] 1 (i_entry s_pipe2)).
  { eapply C08_named; [exact H| |reflexivity]. do 33 right. left. reflexivity. }
  destruct C as (_ & _ & C & _). destruct (C 2%nat "dy" TF (PF (f_of_Z 3)) eq_refl eq_refl) as (c & S & N).
  destruct c as [|g| | |]; try contradiction. cbn [stored] in S. subst g. exact N.
Qed.
