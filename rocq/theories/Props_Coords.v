(** * Coordinates with a transformation: C79 *)
From Coq Require Import Ring_theory Sorting.Sorted ZArithRing.
From Verif Require Import Base ListFacts Flt SeqFile H5 Schema Parsers Data Struc StoreSpec ParserSpec LayoutSpec FileSpec RecordSpec DataSpec StrucSpec StrucExist DataFacts FileProofs SaysSpec SaysProofs SaysGives SaysOpen Trans TransSpec TransProofs Files FilesProofs
  SifNameSpec SifNameProofs SifName Convert ConvertSpec AssemblySpec AssemblyOpen CoordsProofs Describe Survey SurveyProofs RealFiles ConvertProofs ConvertSample Sample Sample2 FileSample TransSample Props_Struc Props_Assembly Props_Survey.
Open Scope string_scope.
Open Scope Z_scope.
Open Scope list_scope.
Open Scope monad_scope.

(** C79.  What get_nodes gives for a data object with the records [segs], in exact
    arithmetic: the coordinates of the nodes selected, as they are without [trans],
    moved by a matrix given, and for 'top' moved by the (first) transformation
    among the records.  Anything else is an exception. *)
Definition gives_moved (h : h5) (o : sdata) (segs : list seg) : Prop :=
  forall (A : Type) (zero one : A) add mul sub opp num, ring_theory zero one add mul sub opp eq ->
  forall ns es nms ms sets kind idx disconnected tops index,
  mesh_on segs ns es -> proper_on segs es nms ms sets kind -> selected es nms ms sets kind idx -> idx <> [] \/ nosel sets kind = true ->
  exists sel, selected_nodes ns es (nosel sets kind) disconnected idx (map fst sel) /\ Forall (fun jn => nth_error ns (fst jn) = Some (snd jn)) sel /\
    let nodes tr := get_nodes zero one add mul num h o tops sets kind disconnected tr index in
    let xyz (jn : nat * mnode) := map num (n_xyz (snd jn)) in
    nodes None = Ok (map xyz sel) /\
    (forall m, four m -> nodes (Some (TArr m)) = Ok (map (fun jn => move add mul (xyz jn) m) sel)) /\
    (forall m, ~ four m -> nodes (Some (TArr m)) = Err ValueError) /\
    (forall t ts, own_on segs (t :: ts) -> nodes (Some (TText "top")) = Ok (map (fun jn => move add mul (xyz jn) (map (map num) t)) sel)) /\
    (~ In "RSUPTRAN" (seg_names segs) -> nodes (Some (TText "top")) = Err HierarchyError) /\
    (forall s, s <> "top" -> nodes (Some (TText s)) = Err HierarchyError) /\
    (forall z, nodes (Some (TInt z)) = Err HierarchyError).

Lemma xyz3 segs ns es j n : mesh_on segs ns es -> nth_error ns j = Some n -> length (n_xyz n) = 3%nat.
Proof.
  intros (_ & (_ & L & S) & _) Hj. destruct (nth_error (entries_of "GCOORD" segs) j) as [e|] eqn:E.
  - destruct (S j e n E Hj) as (_ & x & y & z & _ & _ & _ & ->). reflexivity.
  - exfalso. apply nth_error_None in E. assert (j < length ns)%nat by (apply nth_error_Some; congruence). lia.
Qed.
Lemma seen_in l r x : first_seen l r -> In x l <-> In x r.
Proof.
  induction 1 as [|l r y H IH N|l r y H IH I]; [tauto| |]; rewrite !in_app_iff; cbn [In].
  - rewrite IH. tauto.
  - rewrite <- IH. intuition congruence.
Qed.
Lemma entries_named n segs : entries_of n segs <> [] -> In n (seg_names segs).
Proof.
  unfold entries_of. intro H. induction segs as [|s segs IH]; [now elim H|]. unfold items_of, seg_names in *. cbn [flat_map] in *. apply in_or_app.
  destruct s as [m its|m ? ?|x]; cbn [app] in H; [|right; now apply IH..]. destruct (String.eqb_spec m n) as [->|N]; [left; now left|right; now apply IH].
Qed.
Lemma gives_moved_ok h o segs : d_open o = true -> tables h (d_group o) segs -> d_top o = None -> first_seen (seg_names segs) (d_names o) -> gives_moved h o segs.
Proof.
  intros O T N F A zero one add mul sub opp num Rth ns es nms ms sets kind idx dis tops index M P S W.
  destruct (gives_mesh_ok h o segs O T ns es M nms ms sets kind idx dis P S) as (_ & _ & G). destruct (G W) as (sel & _ & G1 & G2 & G3 & _).
  exists sel. split; [exact G1|]. split; [exact G2|]. cbv zeta.
  assert (L : forall jn, In jn sel -> length (map num (n_xyz (snd jn))) = 3%nat).
  { intros jn I. rewrite Forall_forall in G2. rewrite map_length. exact (xyz3 segs ns es _ _ M (G2 jn I)). }
  assert (V : forall m, four m -> map (fun q => firstn 3 (rowdot zero add mul (map num q ++ [one]) m)) (map (fun jn => n_xyz (snd jn)) sel) = map (fun jn => move add mul (map num (n_xyz (snd jn))) m) sel).
  { intros m Hm. rewrite map_map. apply map_ext_in. intros jn I. apply (four_move zero one add mul sub opp Rth); [now apply L|exact Hm]. }
  split; [|split; [|split; [|split; [|split; [|split]]]]].
  - rewrite (nodes_plain zero one add mul num h o tops sets kind dis index _ G3); [now rewrite map_map|]. apply Forall_map, Forall_forall. intros jn I. specialize (L jn I). now rewrite map_length in L.
  - intros m Hm. rewrite (nodes_given zero one add mul num h o tops sets kind dis index m _ G3). rewrite (proj2 (is44_spec m) Hm). now rewrite V.
  - intros m Hm. rewrite (nodes_given zero one add mul num h o tops sets kind dis index m _ G3). destruct (is44 m) eqn:E; [|reflexivity]. apply is44_spec in E. now elim Hm.
  - intros t ts HT. pose proof (own_found h _ segs _ T HT) as K. rewrite (nodes_own zero one add mul num h o tops sets kind dis index t ts _ G3 O N); [|apply (seen_in _ _ _ F), entries_named; apply HT|exact K].
    rewrite V; [reflexivity|]. destruct HT as (HE & HL & HS). destruct (entries_of "RSUPTRAN" segs) as [|e el] eqn:E; [now elim HE|].
    destruct (HS 0%nat e t eq_refl eq_refl) as (rows & _ & [R1 R2] & ->). split; [now rewrite !map_length|]. rewrite !Forall_map. unfold all_len in R2. eapply Forall_impl; [|exact R2]. cbn beta. intros r Hr. unfold reals_. now rewrite !map_length.
  - intro X. apply (nodes_no_top zero one add mul num h o tops sets kind dis index (TText "top") _ G3 N). right. unfold has_record_name. destruct (str_in "RSUPTRAN" (d_names o)) eqn:E; [|reflexivity]. apply str_in_spec in E. elim X. now apply (seen_in _ _ _ F).
  - intros s Hs. apply (nodes_no_top zero one add mul num h o tops sets kind dis index (TText s) _ G3 N). now left.
  - intro z. exact (nodes_no_top zero one add mul num h o tops sets kind dis index (TInt z) _ G3 N I).
Qed.
(** The data object of superelement data: its tables, no top level object, its names *)
Definition plain_object (h : h5) (o : sdata) (segs : list seg) : Prop :=
  d_open o = true /\ tables h (d_group o) segs /\ d_top o = None /\ first_seen (seg_names segs) (d_names o).
Lemma file_object : forall d top letter id segs g, sesam_file d top letter id segs -> first_level letter segs -> 0 < g_batch g ->
  exists g' h o, open_sif d top g = Ok (g', h, KFirst, o) /\ plain_object h o segs.
Proof.
  intros d top letter id segs g HF HL Hb. destruct (open_first d top letter id segs g HF HL Hb) as (g' & h & o & E & O & T).
  exists g', h, o. split; [exact E|]. destruct HF as (fp & no & ext & k & b & ps & H1 & H2 & H3 & H4 & H5 & H6 & H7).
  assert (HC : complete letter segs). { intros ->. exfalso. destruct HL as [[L _]|[L _]]; [cbn in L; intuition discriminate|discriminate]. }
  destruct (open_assembly d top fp letter no ext k id b segs ps g H1 H2 H3 H4 H5 H7 H6 HC Hb) as (g1 & h1 & kd & o1 & pos & E1 & _ & _ & _ & _ & _ & _ & F & _ & _).
  rewrite E in E1. injection E1 as <- <- <- <-. split; [exact O|]. split; [exact T|]. split; [|exact F].
  unfold open_sif in E. destruct (sif_checked (s2l top)) as [x|]; [|discriminate]. cbn [rbind] in E. destruct (convert d top x true "" [] g []) as [[gh ev]|]; [|discriminate]. cbn [rbind] in E.
  destruct (parse_sifname (s2l top)) as [y|]; [|discriminate]. cbn [rbind] in E. destruct (file_data (snd gh)) as [es|] eqn:FD; [|discriminate]. cbn [rbind] in E. destruct y as [[[p l] n] e].
  destruct (get_data (l2s (p ++ l ++ n)) es) as [[kd oo]|] eqn:GD; [|discriminate]. cbn [rbind] in E. injection E as _ _ _ ->.
  destruct (get_data_obj _ _ _ GD) as (en & I & X). pose proof (file_no_top _ _ FD) as NT. rewrite Forall_forall in NT. destruct (NT en I) as [NT1 _]. injection X as _ X. now rewrite X in NT1.
Qed.
Lemma assembly_object : forall d top fp letter no ext (usefp : bool) prefix pre k id b segs ps g st out p s b' bs segs',
  sesam_name (s2l top) (s2l fp, s2l letter, no, s2l ext) -> no_extension (s2l fp) -> ~ sin_ext (s2l ext) -> In letter ["R"; "T"; "L"] -> out <> "" ->
  pre = (if usefp then prefix ++ fp else prefix)%string -> assembly d fp letter ext pre k id b segs ps -> file_in d top = Some b -> 0 < g_batch g ->
  In p (lower_places ext ps) -> file_in d (lower_file fp ext p) = Some b' -> lower_group pre letter id p = [nm_of pre letter id; s] ->
  contents k b' bs -> file_of [] k (pl_type p) true bs segs' -> some_record segs' -> letter = "R" \/ pl_level p <= 1 ->
  exists g' st' evs es o, sif2hdf5 d top (Some out) false usefp prefix [] g st = Ok (g', st', evs) /\ file_data (store_in st' out) = Ok es /\
    get_data (under (nm_of pre letter id) s) es = Ok (KFirst, o) /\ plain_object (store_in st' out) o segs'.
Proof.
  intros d top fp letter no ext usefp prefix pre k id b segs ps g st out p s b' bs segs' N X S L O P A F G I E W C1 C2 C3 V.
  destruct (C60_data_sets d top fp letter no ext usefp prefix pre k id b segs ps g st out N X S L O P A F G) as (g' & st' & evs & es & H1 & H2 & _ & _ & H3).
  destruct (H3 p s b' I E W) as (kd & o & B1 & B2 & B3 & B4 & _ & _ & _ & _ & B5). destruct (B5 bs segs' C1 C2 C3) as [B6 T].
  assert (kd = KFirst) as ->. { destruct B2 as [?|? ? J1 J2|? ? ? ?]; [reflexivity| |reflexivity]. destruct V as [->|V]; [|lia]. cbn in J1. intuition discriminate. }
  exists g', st', evs, es, o. split; [exact H1|]. split; [exact H2|]. split; [exact B1|]. split; [exact B3|]. split; [exact T|]. split; [|exact B6].
  destruct (get_data_obj _ _ _ B1) as (en & J & Y). pose proof (file_no_top _ _ H2) as NT. rewrite Forall_forall in NT. destruct (NT en J) as [NT1 _]. injection Y as _ Y. now rewrite Y in NT1.
Qed.
(** A file opened by itself... *)
Theorem C79_file : forall d top letter id segs g, sesam_file d top letter id segs -> first_level letter segs -> 0 < g_batch g ->
  exists g' h o, open_sif d top g = Ok (g', h, KFirst, o) /\ gives_moved h o segs.
Proof.
  intros d top letter id segs g HF HL Hb. destruct (file_object d top letter id segs g HF HL Hb) as (g' & h & o & E & O & T & N & F).
  exists g', h, o. split; [exact E|]. now apply gives_moved_ok.
Qed.
Print Assumptions C79_file.
(** ...and the superelements of an assembly, by their own files. *)
Theorem C79_assembly : forall d top fp letter no ext (usefp : bool) prefix pre k id b segs ps g st out p s b' bs segs',
  sesam_name (s2l top) (s2l fp, s2l letter, no, s2l ext) -> no_extension (s2l fp) -> ~ sin_ext (s2l ext) -> In letter ["R"; "T"; "L"] -> out <> "" ->
  pre = (if usefp then prefix ++ fp else prefix)%string -> assembly d fp letter ext pre k id b segs ps -> file_in d top = Some b -> 0 < g_batch g ->
  In p (lower_places ext ps) -> file_in d (lower_file fp ext p) = Some b' -> lower_group pre letter id p = [nm_of pre letter id; s] ->
  contents k b' bs -> file_of [] k (pl_type p) true bs segs' -> some_record segs' -> letter = "R" \/ pl_level p <= 1 ->
  exists g' st' evs es o, sif2hdf5 d top (Some out) false usefp prefix [] g st = Ok (g', st', evs) /\ file_data (store_in st' out) = Ok es /\
    get_data (under (nm_of pre letter id) s) es = Ok (KFirst, o) /\ gives_moved (store_in st' out) o segs'.
Proof.
  intros d top fp letter no ext usefp prefix pre k id b segs ps g st out p s b' bs segs' N X S L O P A F G I E W C1 C2 C3 V.
  destruct (assembly_object d top fp letter no ext usefp prefix pre k id b segs ps g st out p s b' bs segs' N X S L O P A F G I E W C1 C2 C3 V) as (g' & st' & evs & es & o & H1 & H2 & H3 & B1 & B2 & B3 & B4).
  exists g', st', evs, es, o. split; [exact H1|]. split; [exact H2|]. split; [exact H3|]. now apply gives_moved_ok.
Qed.
Print Assumptions C79_assembly.

(** A file with a transformation of its own: a quarter turn and a shift. *)
Definition v_text : list ascii :=
  flines [("IDENT", [1; 5; 3; 0]); ("GNODE", [101; 1; 6; 123456]); ("GNODE", [103; 2; 6; 123456]); ("GCOORD", [1; 0; -5; 0]); ("GCOORD", [2; 10; 0; 7]);
          ("GELMNT1", [11; 1; 15; 0]); ("", [2; 1]); ("RSUPTRAN", [18; 1; 0; 1]); ("", [0; 0; -1; 0]); ("", [0; 0; 0; 0]); ("", [1; 0; 100; 200]); ("", [300; 1]); ("IEND", [0; 0; 0; 0])].
Definition v_dir : dir := [("barR5.SIF", v_text)].
Definition v_segs : list seg := fst (or_none ([], []) (survey v_dir "bar" "R" "SIF" "bar" 5 v_text)).
Lemma v_sesam : sesam_file v_dir "barR5.SIF" "R" 5 v_segs.
Proof.
  destruct q_sesam as (fp & no & ext & k & b & ps & H1 & H2 & H3 & H4 & H5 & _). exists "bar", (s2l "5"), "SIF". do 2 eexists. exists []. split; [|split; [|split; [|split; [|split; [|split]]]]].
  - sesam "R"%char (@nil ascii); [now left| |reflexivity]. left. apply spelled3. exists "S"%char, "I"%char, "F"%char. tauto.
  - apply has_ext_none. reflexivity.
  - intros X. apply spelled3 in X as (x & y & z & E & A & B & C). injection E as <- <- <-. destruct C; discriminate.
  - exact H4.
  - reflexivity.
  - reflexivity.
  - apply (survey_ok v_dir "bar" "R" "SIF" "bar" 5 v_text v_segs []). vm_compute. reflexivity.
Qed.
Definition v_trans : list (list cell) := map (map fz) [[0; 1; 0; 0]; [-1; 0; 0; 0]; [0; 0; 1; 0]; [100; 200; 300; 1]].
Definition v_nodes (tr : option (@trans Z)) : Res (list (list Z)) :=
  dor (gh, o) <- open_sif v_dir "barR5.SIF" glob0; get_nodes 0 1 Z.add Z.mul zn (snd (fst gh)) o (fun _ => o) [] "" false tr 1.
Example C79_case : sesam_file v_dir "barR5.SIF" "R" 5 v_segs /\ first_level "R" v_segs /\ mesh_of v_segs <> None /\ own_on v_segs [v_trans] /\
  v_nodes None = Ok [[0; -5; 0]; [10; 0; 7]] /\ v_nodes (Some (TText "top")) = Ok [[105; 200; 300]; [100; 210; 307]] /\
  v_nodes (Some (TArr [[2; 0; 0; 0]; [0; 2; 0; 0]; [0; 0; 2; 0]; [0; 0; 1; 1]])) = Ok [[0; -10; 1]; [20; 0; 15]] /\
  v_nodes (Some (TArr [[1; 0; 0]; [0; 1; 0]; [0; 0; 1]])) = Err ValueError /\ v_nodes (Some (TInt 2)) = Err HierarchyError.
Proof.
  split; [exact v_sesam|]. split; [left; split; [now left|vm_compute; reflexivity]|]. split; [vm_compute; discriminate|]. split.
  - split; [vm_compute; discriminate|]. split; [vm_compute; reflexivity|]. intros [|j] e x He Hx; [|destruct j; discriminate Hx]. injection Hx as <-. vm_compute in He. injection He as <-.
    exists (map fl [[0; 1; 0; 0]; [-1; 0; 0; 0]; [0; 0; 1; 0]; [100; 200; 300; 1]]). split; [vm_compute; reflexivity|]. split; [split; [reflexivity|repeat constructor]|vm_compute; reflexivity].
  - repeat (split; [vm_compute; reflexivity|]). vm_compute. reflexivity.
Qed.
(** The superelement of the repository's test files: the transformation is there,
    the identity. *)
Example C79_case_repository : (exists t, own_on R1_segs [t] /\ map (map zn) t = [[1; 0; 0; 0]; [0; 1; 0; 0]; [0; 0; 1; 0]; [0; 0; 0; 1]]) /\
  f_at repo_results "R100.SIU" "R100/R1_1" (fun h o => get_nodes 0 1 Z.add Z.mul zn h o (fun _ => o) [] "" false (Some (TText "top")) 1) =
  f_at repo_results "R100.SIU" "R100/R1_1" (fun h o => get_nodes 0 1 Z.add Z.mul zn h o (fun _ => o) [] "" false None 1).
Proof.
  split; [|vm_compute; reflexivity]. exists (map (map fz) [[1; 0; 0; 0]; [0; 1; 0; 0]; [0; 0; 1; 0]; [0; 0; 0; 1]]). split; [|vm_compute; reflexivity].
  split; [vm_compute; discriminate|]. split; [vm_compute; reflexivity|]. intros [|j] e x He Hx; [|destruct j; discriminate Hx]. injection Hx as <-. vm_compute in He. injection He as <-.
  exists (map fl [[1; 0; 0; 0]; [0; 1; 0; 0]; [0; 0; 1; 0]; [0; 0; 0; 1]]). split; [vm_compute; reflexivity|]. split; [split; [reflexivity|repeat constructor]|vm_compute; reflexivity].
Qed.
