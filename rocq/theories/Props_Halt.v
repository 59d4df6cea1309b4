(** * Properties of conversions that raise an exception: C75, C76 *)
From Verif Require Import Base Flt SeqFile H5 Schema Parsers Data Files SifName Convert SeqSpec StoreSpec ParserSpec LayoutSpec FileSpec DataSpec
  ListFacts NumProofs StoreProofs ParserRun FileProofs ParseMore Sample Sample2 SifNameSpec SifNameProofs ConvertSpec AssemblySpec ConvertProofs AssemblyProofs ConvertSample
  Halt HaltSpec HaltProofs HaltKeeps HaltConv HaltReads HaltCut.
Open Scope string_scope.
Open Scope Z_scope.
Open Scope list_scope.

(** The conversion with the state it leaves is the conversion of C22-C25. *)
Theorem C75_same : forall d top x usefp prefix only g h0,
  match e_convert d top x usefp prefix only g h0 with
  | (gh, Ok evs) => convert d top x usefp prefix only g h0 = Ok (gh, evs)
  | (_, Err e) => convert d top x usefp prefix only g h0 = Err e
  end.
Proof. intros. pose proof (convert_says d top x usefp prefix only g h0) as H. destruct (e_convert d top x usefp prefix only g h0) as [gh [evs|e]]; exact H. Qed.
Print Assumptions C75_same.

(** C75.  Whatever the files hold and wherever reading them fails: nodes stored
    before are as they were, except for the attributes of groups named by the prefix
    and the letter; and only nodes of such names are new. *)
Theorem C75_kept : forall d top fp letter no ext (usefp : bool) prefix pre only g h0 g' h' r,
  pre = (if usefp then prefix ++ fp else prefix)%string ->
  e_convert d top (s2l fp, s2l letter, no, s2l ext) usefp prefix only g h0 = ((g', h'), r) ->
  (forall q n, h5_find q h0 = Some n -> h5_find q h' = Some n \/ (named pre letter q /\ exists l l', n = Group l /\ h5_find q h' = Some (Group l'))) /\
  (forall q, h5_find q h0 = None -> h5_find q h' = None \/ named pre letter q).
Proof.
  intros d top fp letter no ext usefp prefix pre only g h0 g' h' r Hpre H. apply convert_left in H. cbv zeta in H. rewrite !l2s_s2l, <- Hpre in H.
  destruct H as (_ & N & ws & Fw & K). rewrite Forall_forall in Fw. split.
  - intros q n Q. destruct (K q n Q) as [X|(I & X)]; [now left|right]. split; [exact (Fw q I)|exact X].
  - intros q Q. destruct (h5_find q h') as [n|] eqn:E; [right|now left]. destruct (N q) as [X|X]; [congruence|congruence|exact X].
Qed.
Print Assumptions C75_kept.

(** The records before the place where reading the top file stops are in their
    tables, whatever comes after. *)
Theorem C75_read_before : forall d top fp letter no ext (usefp : bool) prefix pre only k id b bs segs n g h0 g' h' r,
  pre = (if usefp then prefix ++ fp else prefix)%string -> file_in d top = Some b -> contents k b bs -> begins only k id false bs segs n ->
  id <> 0 -> 0 < g_batch g -> unused (nm_of pre letter id) h0 ->
  e_convert d top (s2l fp, s2l letter, no, s2l ext) usefp prefix only g h0 = ((g', h'), r) ->
  has_tables (at_least h' [nm_of pre letter id]) segs.
Proof. exact convert_began. Qed.
Print Assumptions C75_read_before.
(** Every part at the front of a file is such a beginning. *)
Theorem C75_begins : forall only k id sub bs segs1 segs2, file_of only k id sub bs (segs1 ++ segs2) -> segs2 <> [] -> exists n, begins only k id sub bs segs1 n.
Proof.
  intros only k id sub bs segs1 segs2 (m & mfs & tail & st' & HN & HR) N. destruct (reads_front _ _ _ _ _ _ _ _ _ _ _ HR N) as (st1 & n & fs & rest & T).
  exists n, m, mfs, tail, st1, fs, rest. now split.
Qed.
Print Assumptions C75_begins.
(** If a file below the top cannot be read, the data of the top and of the files
    read before it is complete.  The files of [d'] are those of an assembly, the files
    of [d] from some place on may be any. *)
Theorem C75_lower : forall d d' top fp letter no ext (usefp : bool) prefix pre k id b segs ps ps1 ps2 g h0 g' h' r,
  pre = (if usefp then prefix ++ fp else prefix)%string -> upper_letter letter ->
  assembly d' fp letter ext pre k id b segs ps -> file_in d' top = Some b -> file_in d top = Some b -> 0 < g_batch g ->
  unused (nm_of pre letter id) h0 -> lower_places ext ps = ps1 ++ ps2 ->
  (forall p, In p ps1 -> file_in d (lower_file fp ext p) = file_in d' (lower_file fp ext p)) -> (forall p, In p ps2 -> file_in d' (lower_file fp ext p) = None) ->
  e_convert d top (s2l fp, s2l letter, no, s2l ext) usefp prefix [] g h0 = ((g', h'), r) ->
  has_tables (holds h' [nm_of pre letter id]) segs /\
  (forall p b', In p ps1 -> file_in d (lower_file fp ext p) = Some b' -> forall bs segs', contents k b' bs -> file_of [] k (pl_type p) true bs segs' ->
     some_record segs' -> has_tables (holds h' (lower_group pre letter id p)) segs').
Proof. exact convert_lower. Qed.
Print Assumptions C75_lower.

(** Afterwards an assembly is converted as ever, beside what was there. *)
Theorem C75_recovers : forall d top x (usefp : bool) prefix only g h0 g' h' r fp letter no ext d2 top2 fp2 letter2 no2 ext2 (usefp2 : bool) prefix2 pre pre2 k id b segs ps,
  x = (s2l fp, s2l letter, no, s2l ext) -> pre = (if usefp then prefix ++ fp else prefix)%string ->
  e_convert d top x usefp prefix only g h0 = ((g', h'), r) -> 0 < g_batch g ->
  pre2 = (if usefp2 then prefix2 ++ fp2 else prefix2)%string -> upper_letter letter2 -> assembly d2 fp2 letter2 ext2 pre2 k id b segs ps ->
  file_in d2 top2 = Some b -> unused (nm_of pre2 letter2 id) h0 -> ~ named pre letter [nm_of pre2 letter2 id] ->
  exists g2 h2, convert d2 top2 (s2l fp2, s2l letter2, no2, s2l ext2) usefp2 prefix2 [] g' h' =
    Ok (g2, h2, Read top2 :: map (fun p => seen d2 (lower_file fp2 ext2 p)) (lower_places ext2 ps)) /\
    tables h2 [nm_of pre2 letter2 id] segs /\
    (forall p b', In p (lower_places ext2 ps) -> file_in d2 (lower_file fp2 ext2 p) = Some b' -> place_read h2 pre2 letter2 id k p b') /\
    (forall q n, h5_find q h0 = Some n -> ~ named pre letter q -> h5_find q h2 = Some n).
Proof.
  intros d top x usefp prefix only g h0 g' h' r fp letter no ext d2 top2 fp2 letter2 no2 ext2 usefp2 prefix2 pre pre2 k id b segs ps -> Hpre H Hb Hpre2 U A F2 HU HN.
  assert (B : 0 < g_batch g') by (apply convert_left in H; cbv zeta in H; lia).
  destruct (C75_kept _ _ _ _ _ _ _ _ _ _ _ _ _ _ _ Hpre H) as [K N].
  assert (HU2 : unused (nm_of pre2 letter2 id) h').
  { intros q Q. destruct (N q (HU q Q)) as [X|(t & s & X)]; [exact X|]. exfalso. apply HN. exists t, []. destruct q as [|y q]; [discriminate|].
    cbn in Q. injection Q as ->. injection X as -> _. reflexivity. }
  destruct (convert_assembly d2 top2 fp2 letter2 no2 ext2 usefp2 prefix2 pre2 k id b segs ps g' h' Hpre2 U A F2 B HU2) as (g2 & h2 & C & _ & T & L & _).
  exists g2, h2. split; [exact C|]. split; [exact T|]. split; [exact L|]. intros q n Q NQ.
  destruct (assembly_keeps d2 top2 fp2 letter2 no2 ext2 usefp2 prefix2 pre2 k id b segs ps g' h' Hpre2 U A F2 B HU2) as (g3 & h3 & evs & C3 & FR).
  rewrite C in C3. injection C3 as <- <- _. rewrite FR.
  - destruct (K q n Q) as [X|(X & _)]; [exact X|contradiction].
  - intros X. rewrite (HU q X) in Q. discriminate.
Qed.
Print Assumptions C75_recovers.

(** ** A file that cannot be read: nodes, then elements not defined before *)
Definition bad_text : list ascii :=
  fline "IDENT" [1; 2; 3; 0] ++ fline "GNODE" [1; 1; 6; 123456] ++ fline "GELREF1" [77; 1; 0; 0] ++ dlines [0; 0; 0; 0; -1; 0; 0; 0; 1; 2] ++ fline "IEND" [0; 0; 0; 0].
Definition bad_segs : list seg := [Run "IDENT" [b_ident]; Run "GNODE" [s_node1]].
Lemma bad_begins sub : begins [] Fmt 2 sub bad_text bad_segs "GELREF1".
Proof.
  unfold bad_text, bad_segs. do 6 eexists. split; [nh "IDENT" [1; 2; 3; 0]|].
  eapply to_next; [eapply r1_ident; [left; reflexivity|vm_compute; reflexivity|tr|tr|tr|reflexivity|apply putf_ok; vm_compute; reflexivity|nh "GNODE" [1; 1; 6; 123456]]|].
  set (rest := dlines _ ++ _). eapply to_next; [|apply to_here]. eapply (r1_run _ _ _ _ _ _ (@nil Z)); [left; reflexivity|laid|reflexivity|reflexivity|vm_compute; reflexivity| |apply putf_ok; vm_compute; reflexivity].
  change (fline "GELREF1" [77; 1; 0; 0] ++ rest) with (i_bs s_node1 ++ fline "GELREF1" [77; 1; 0; 0] ++ rest). one "GELREF1" [77; 1; 0; 0].
  eapply (lay_fixed _ _ _ "GNODE" 4 Lead0 (fl [1; 1; 6; 123456]) []); [cbn; tauto|reflexivity|now left|dl (@nil Z)].
Qed.

(** The store left, and its names. *)
Definition left_by (r : (glob * h5) * Res (list event)) : h5 := snd (fst r).
Definition glob_by (r : (glob * h5) * Res (list event)) : glob := fst (fst r).
Definition x_name : sifname := (s2l "x", s2l "R", s2l "1", s2l "SIF").
Definition y_name : sifname := (s2l "y", s2l "T", s2l "2", s2l "FEM").
Definition first_run := e_convert x_dir "xR1.SIF" x_name true "" [] glob0 [].
Definition bad_dir : dir := [("yT2.FEM", bad_text)].
Definition bad_run := e_convert bad_dir "yT2.FEM" y_name true "" [] (glob_by first_run) (left_by first_run).
Definition good_dir : dir := [("yT2.FEM", b_text)].

(** An assembly, then a file that cannot be read. *)
Example C75_kept_case : snd first_run = Ok [Read "xR1.SIF"; Read "xR2H2.SIF"] /\ snd bad_run = Err KeyError /\
  h5_find ["yT2"; "gnode"] (left_by first_run) = None /\ h5_find ["yT2"; "gnode"] (left_by bad_run) <> None /\
  h5_find ["xR1"; "gnode"] (left_by first_run) <> None /\ h5_find ["xR1"; "gnode"] (left_by bad_run) = h5_find ["xR1"; "gnode"] (left_by first_run).
Proof. split; [vm_compute; reflexivity|]. split; [vm_compute; reflexivity|]. split; [vm_compute; reflexivity|]. split; [vm_compute; discriminate|]. split; [vm_compute; discriminate|vm_compute; reflexivity]. Qed.
Example C75_read_before_case : contents Fmt bad_text bad_text /\ begins [] Fmt 2 false bad_text bad_segs "GELREF1" /\ 0 < g_batch (glob_by first_run) /\
  tab_rows ["yT2"; "gnode"] (left_by bad_run) = [map CI [1; 1; 6; 123456]].
Proof.
  split; [constructor; [vm_compute; discriminate|apply plain_text; vm_compute; reflexivity]|]. split; [exact (bad_begins false)|].
  split; [vm_compute; reflexivity|vm_compute; reflexivity].
Qed.
Lemma x_unused nm h : forallb (fun x => match hd_error (fst x) with Some m => negb (String.eqb m nm) | None => true end) h = true -> unused nm h.
Proof.
  induction h as [|[p n] h IH]; [intros _ q _; reflexivity|]. cbn [forallb fst]. intros H q Q. apply andb_true_iff in H as (H1 & H2).
  destruct (path_eqb q p) eqn:E.
  - apply path_eqb_spec in E. subst p. rewrite Q in H1. rewrite String.eqb_refl in H1. discriminate.
  - specialize (IH H2 q Q). revert IH. unfold h5_find. cbn [dget fst]. now rewrite E.
Qed.
(** The file below the top cannot be read. *)
Definition lower_dir : dir := [("xR1.SIF", s_text); ("xR2H2.SIF", bad_text)].
Definition top_dir : dir := [("xR1.SIF", s_text)].
Definition lower_run := e_convert lower_dir "xR1.SIF" x_name true "" [] glob0 [].
Lemma top_assembly : assembly top_dir "x" "R" "SIF" "x" Fmt 1 s_text s_segs x_places.
Proof. pose proof x_assembly as X. constructor; try apply X. intros p b [<-|[]] H. vm_compute in H. discriminate. Qed.
Lemma lower_tables run : run = e_convert lower_dir "xR1.SIF" (s2l "x", s2l "R", s2l "1", s2l "SIF") true "" [] glob0 [] -> has_tables (holds (left_by run) [nm_of "x" "R" 1]) s_segs.
Proof.
  destruct run as [[g' h'] r]. intros E. symmetry in E. unfold left_by. cbn [fst snd].
  eapply C75_lower with (d' := top_dir) (pre := "x") (k := Fmt) (id := 1) (b := s_text) (segs := s_segs) (ps := x_places) (ps1 := []) (ps2 := lower_places "SIF" x_places) in E.
  - exact (proj1 E).
  - reflexivity.
  - now left.
  - exact top_assembly.
  - reflexivity.
  - reflexivity.
  - reflexivity.
  - intros q _. reflexivity.
  - reflexivity.
  - intros p [].
  - intros p [<-|[]]. reflexivity.
Qed.
Example C75_lower_case : assembly top_dir "x" "R" "SIF" "x" Fmt 1 s_text s_segs x_places /\ file_in top_dir "xR2H2.SIF" = None /\ snd lower_run = Err KeyError /\ has_tables (holds (left_by lower_run) [nm_of "x" "R" 1]) s_segs.
Proof. split; [exact top_assembly|]. split; [reflexivity|]. split; [vm_compute; reflexivity|]. apply lower_tables. reflexivity. Qed.
Example C75_recovers_case : snd bad_run = Err KeyError /\ ~ named "y" "T" [nm_of "z" "T" 2] /\
  snd (e_convert [("zT2.FEM", b_text)] "zT2.FEM" (s2l "z", s2l "T", s2l "2", s2l "FEM") true "" [] (glob_by bad_run) (left_by bad_run)) = Ok [Read "zT2.FEM"].
Proof. split; [vm_compute; reflexivity|]. split; [|vm_compute; reflexivity]. intros (t & r & X). discriminate. Qed.

(** But the file with the data that was there can no longer be opened: the group
    left has no attributes yet. *)
Theorem C75_opened_refuted : exists d top x g h0 g' h' e u, file_data h0 = Ok u /\ e_convert d top x true "" [] g h0 = ((g', h'), Err e) /\ file_data h' = Err AttributeError.
Proof.
  exists bad_dir, "yT2.FEM", y_name, (glob_by first_run), (left_by first_run). do 4 eexists.
  split; [vm_compute; reflexivity|]. split; [vm_compute; reflexivity|vm_compute; reflexivity].
Qed.
Print Assumptions C75_opened_refuted.
(** Nor can the conversion be repeated once the file is put right. *)
Theorem C75_repeat_refuted : exists d d2 top x g h0 g' h' e, file_of [] Fmt 2 false b_text b_segs /\ file_in d2 top = Some b_text /\
  e_convert d top x true "" [] g h0 = ((g', h'), Err e) /\ convert d2 top x true "" [] g' h' = Err NodeError.
Proof.
  exists bad_dir, good_dir, "yT2.FEM", y_name, (glob_by first_run), (left_by first_run). do 3 eexists.
  split; [exact (b_file_any false)|]. split; [reflexivity|]. split; [vm_compute; reflexivity|vm_compute; reflexivity].
Qed.
Print Assumptions C75_repeat_refuted.
(** And of the run of records in which reading fails, those before the failing one
    may be lost: they are written in batches. *)
Definition run_text : list ascii :=
  fline "IDENT" [1; 2; 3; 0] ++ fline "GNODE" [1; 1; 6; 123456] ++ fline "GNODE" [2; 2; 6; 123456] ++ firstn 40 (fline "GNODE" [3; 3; 6; 123456]) ++ fline "IEND" [0; 0; 0; 0].
Theorem C75_run_refuted : exists d top x g g' h' e, file_in d top = Some run_text /\
  firstn (length (fline "IDENT" [1; 2; 3; 0] ++ fline "GNODE" [1; 1; 6; 123456] ++ fline "GNODE" [2; 2; 6; 123456])) run_text =
    fline "IDENT" [1; 2; 3; 0] ++ fline "GNODE" [1; 1; 6; 123456] ++ fline "GNODE" [2; 2; 6; 123456] /\
  e_convert d top x true "" [] g [] = ((g', h'), Err e) /\ tab_rows ["yT2"; "gnode"] h' = [] /\ h5_find ["yT2"; "gnode"] h' <> None.
Proof.
  exists [("yT2.FEM", run_text)], "yT2.FEM", y_name, glob0. do 3 eexists.
  split; [reflexivity|]. split; [vm_compute; reflexivity|]. split; [vm_compute; reflexivity|]. split; [vm_compute; reflexivity|vm_compute; discriminate].
Qed.
Print Assumptions C75_run_refuted.

(** C76.  A file that breaks off is taken for a complete one: between two records,
    the records after that are missing; within a record, numbers not there are taken
    to be 0, and of a number what is there. *)
Theorem C76_between_refuted : exists b n g' h', file_of [] Fmt 2 false b b_segs /\ (n < length b)%nat /\
  convert [("yT2.FEM", firstn n b)] "yT2.FEM" y_name true "" [] glob0 [] = Ok (g', h', [Read "yT2.FEM"]) /\
  entries_of "GNODE" b_segs <> [] /\ h5_find ["yT2"; "gnode"] h' = None.
Proof.
  exists b_text, 73%nat. do 2 eexists. split; [exact (b_file_any false)|]. split; [apply Nat.ltb_lt; vm_compute; reflexivity|].
  split; [vm_compute; reflexivity|]. split; [discriminate|vm_compute; reflexivity].
Qed.
Print Assumptions C76_between_refuted.
Theorem C76_within_refuted : exists b n m g1 h1 g2 h2, file_of [] Fmt 2 false b b_segs /\ (n < length b)%nat /\ (m < length b)%nat /\
  convert [("yT2.FEM", firstn n b)] "yT2.FEM" y_name true "" [] glob0 [] = Ok (g1, h1, [Read "yT2.FEM"]) /\
  convert [("yT2.FEM", firstn m b)] "yT2.FEM" y_name true "" [] glob0 [] = Ok (g2, h2, [Read "yT2.FEM"]) /\
  option_map e_row (hd_error (entries_of "GNODE" b_segs)) = Some (map PF (fl [1; 1; 6; 123456])) /\
  tab_rows ["yT2"; "gnode"] h1 = [map CI [1; 1; 0; 0]] /\ tab_rows ["yT2"; "gnode"] h2 = [map CI [1; 1; 6; 1]].
Proof.
  exists b_text, 104%nat, 140%nat. do 4 eexists. split; [exact (b_file_any false)|]. split; [apply Nat.ltb_lt; vm_compute; reflexivity|]. split; [apply Nat.ltb_lt; vm_compute; reflexivity|].
  split; [vm_compute; reflexivity|]. split; [vm_compute; reflexivity|]. split; [vm_compute; reflexivity|]. split; [vm_compute; reflexivity|vm_compute; reflexivity].
Qed.
Print Assumptions C76_within_refuted.
(** Such places are all those between two runs of records, whatever is in the file:
    the records before are stored, and nothing is said of the rest. *)
Theorem C76_unnoticed : forall d top fp letter no ext (usefp : bool) prefix pre k id b segs1 segs2 ps g h0,
  pre = (if usefp then prefix ++ fp else prefix)%string -> upper_letter letter -> assembly d fp letter ext pre k id b (segs1 ++ segs2) ps ->
  entries_of "HIERARCH" segs2 = [] -> segs2 <> [] -> some_record segs1 -> ends_alone (last segs1 (Pass "")) -> 0 < g_batch g -> unused (nm_of pre letter id) h0 ->
  exists n, (n < length b)%nat /\ forall d2, file_in d2 top = Some (firstn n b) ->
    (forall p, In p (lower_places ext ps) -> file_in d2 (lower_file fp ext p) = file_in d (lower_file fp ext p)) ->
    exists g' h', convert d2 top (s2l fp, s2l letter, no, s2l ext) usefp prefix [] g h0 =
      Ok (g', h', Read top :: map (fun p => seen d2 (lower_file fp ext p)) (lower_places ext ps)) /\ tables h' [nm_of pre letter id] segs1.
Proof. exact convert_cut. Qed.
Print Assumptions C76_unnoticed.
(** The displacements of an assembly are lost. *)
Definition before_results : list seg := firstn 12 s_segs.
Definition the_results : list seg := skipn 12 s_segs.
Example C76_unnoticed_case : assembly x_dir "x" "R" "SIF" "x" Fmt 1 s_text (before_results ++ the_results) x_places /\ entries_of "HIERARCH" the_results = [] /\ entries_of "RVNODDIS" before_results = [] /\
  entries_of "RVNODDIS" the_results <> [] /\ some_record before_results /\ ends_alone (last before_results (Pass "")) /\
  exists n, (n < length s_text)%nat /\ exists g' h', convert [("xR1.SIF", firstn n s_text)] "xR1.SIF" x_name true "" [] glob0 [] = Ok (g', h', [Read "xR1.SIF"; Missing "xR2H2.SIF"]) /\
    tables h' [nm_of "x" "R" 1] before_results.
Proof.
  assert (E : before_results ++ the_results = s_segs) by reflexivity.
  split; [rewrite E; exact x_assembly|]. split; [reflexivity|]. split; [reflexivity|]. split; [discriminate|]. split; [eexists; eexists; left; reflexivity|].
  assert (A : ends_alone (last before_results (Pass ""))) by (vm_compute; intuition discriminate). split; [exact A|].
  destruct (C76_unnoticed top_dir "xR1.SIF" "x" "R" (s2l "1") "SIF" true "" "x" Fmt 1 s_text before_results the_results x_places glob0 []) as (n & Hn & X); try reflexivity; auto.
  - now left.
  - rewrite E. exact top_assembly.
  - discriminate.
  - eexists; eexists; left; reflexivity.
  - intros q _. reflexivity.
  - exists n. split; [exact Hn|]. destruct (X [("xR1.SIF", firstn n s_text)]) as (g' & h' & C & T); [reflexivity| |exists g', h'; split; [exact C|exact T]].
    intros p [<-|[]]. reflexivity.
Qed.
