(** * Properties of files taken apart by calculation: C63 *)
From Coq Require Import Sorting.Sorted.
From Verif Require Import Base Flt SeqFile H5 Schema Parsers Data Files Struc SifName Convert SeqSpec StoreSpec ParserSpec LayoutSpec FileSpec DataSpec
  SifNameSpec SifNameProofs ConvertSpec AssemblySpec StrucSpec StrucRes ElemResSpec StrucExist SaysSpec SaysGives HydroUnique ConvertSample
  Describe DescribeFile Survey SurveyProofs RealFiles Props_Convert Props_Assembly.
Open Scope string_scope.
Open Scope Z_scope.
Open Scope list_scope.

(** C63.  [describe] and [survey] take files apart without any function of the
    reading program.  What they find is what the files consist of. *)
Theorem C63_described : forall only k id sub bs segs, describe only k id sub bs = Some segs -> file_of only k id sub bs segs.
Proof. exact describe_ok. Qed.
Print Assumptions C63_described.

(** The same for the files of an assembly: opened through [open_sif], the data
    object has the records found. *)
Theorem C63_opened : forall d top fp letter no ext id b segs ps g,
  sesam_name (s2l top) (s2l fp, s2l letter, no, s2l ext) -> no_extension (s2l fp) -> ~ sin_ext (s2l ext) -> upper_letter letter ->
  no = s2l (dec id) -> file_in d top = Some b -> survey d fp letter ext fp id b = Some (segs, ps) -> complete letter segs -> 0 < g_batch g ->
  exists g' h kd o pos, open_sif d top g = Ok (g', h, kd, o) /\ tables h [nm_of fp letter id] segs /\ top_pos segs pos /\ opens_as letter pos kd /\
    d_group o = [nm_of fp letter id] /\ d_filetype o = letter /\ d_seltyp o = Some id /\ first_seen (seg_names segs) (d_names o) /\ d_file o = OFile /\ d_open o = true.
Proof.
  intros d top fp letter no ext id b segs ps g N X S U E F V W G.
  exact (C25_opened d top fp letter no ext _ id b segs ps g N X S U E (survey_ok d fp letter ext fp id b segs ps V) F W G).
Qed.
Print Assumptions C63_opened.

(** What is gathered from the records is what they say. *)
Theorem C63_says : forall segs,
  (forall ns es, mesh_of segs = Some (ns, es) -> mesh_on segs ns es) /\
  (forall nms ms, sets_of segs = Some (nms, ms) -> sets_on segs nms ms) /\
  (forall gs, geo_of segs = Some gs -> geo_on segs gs) /\
  (forall ps, sections_of segs = Some ps -> sections_on segs ps) /\
  (forall ps, thicknesses_of segs = Some ps -> thicknesses_on segs ps) /\
  (forall rs, refs_of segs = Some rs -> refs_on segs rs) /\
  (forall ls, loads_of segs = Some ls -> loads_on segs ls) /\
  (forall rn nn bs, noderes_of segs rn nn = Some bs -> noderes_on segs rn nn bs) /\
  (forall rn es bs, elemres_of segs rn es = Some bs -> elemres_on segs rn es bs).
Proof.
  intro segs. split; [exact (mesh_of_ok segs)|]. split; [exact (sets_of_ok segs)|]. split; [exact (geo_of_ok segs)|]. split; [exact (sections_of_ok segs)|].
  split; [exact (thicknesses_of_ok segs)|]. split; [exact (refs_of_ok segs)|]. split; [exact (loads_of_ok segs)|]. split; [exact (noderes_of_ok segs)|].
  exact (elemres_of_ok segs).
Qed.
Print Assumptions C63_says.

(** A superelement of the assembly, no selection: the getters return the nodes and
    elements gathered from its file. *)
Lemma pick_all {A} (l : list A) : pick l (seq 0 (length l)) = l.
Proof.
  unfold pick. assert (H : forall m a : list A,
    flat_map (fun j => match nth_error (a ++ m) j with Some x => [x] | None => [] end) (seq (length a) (length m)) = m); [|exact (H l [])].
  induction m as [|x m IH]; intro a; [reflexivity|]. cbn [length seq flat_map]. rewrite nth_error_app2, Nat.sub_diag by lia. cbn [nth_error app]. f_equal.
  specialize (IH (a ++ [x])). rewrite app_length in IH. cbn [length] in IH. rewrite Nat.add_1_r in IH. rewrite <- app_assoc in IH. exact IH.
Qed.
Lemma seq_sorted n : forall a, StronglySorted lt (seq a n).
Proof.
  induction n as [|n IH]; intro a; [constructor|]. cbn [seq]. constructor; [apply IH|]. apply Forall_forall. intros j Hj. apply in_seq in Hj. lia.
Qed.
Lemma all_nodes {A} (l : list A) : forall sel : list (nat * A), StronglySorted lt (map fst sel) -> (forall j, In j (map fst sel) <-> (j < length l)%nat) ->
  Forall (fun jn => nth_error l (fst jn) = Some (snd jn)) sel -> map fst sel = seq 0 (length l) /\ map snd sel = l.
Proof.
  intros sel S I F. assert (E : map fst sel = seq 0 (length l)).
  { apply sorted_same_nat; [exact S|apply seq_sorted|intro j; rewrite I, in_seq; lia]. }
  split; [exact E|]. transitivity (pick l (map fst sel)); [|rewrite E; apply pick_all]. clear S I E. induction F as [|[j x] sel H F IH]; [reflexivity|].
  cbn [map pick flat_map fst snd] in *. rewrite H. cbn [app]. f_equal. exact IH.
Qed.
Theorem C63_superelement : forall d top fp letter no ext (usefp : bool) prefix pre id b segs ps g st out p s b' segs' ns es,
  sesam_name (s2l top) (s2l fp, s2l letter, no, s2l ext) -> no_extension (s2l fp) -> ~ sin_ext (s2l ext) -> In letter ["R"; "T"; "L"] -> out <> "" ->
  pre = (if usefp then prefix ++ fp else prefix)%string -> file_in d top = Some b -> survey d fp letter ext pre id b = Some (segs, ps) -> 0 < g_batch g ->
  In p (lower_places ext ps) -> file_in d (lower_file fp ext p) = Some b' -> lower_group pre letter id p = [nm_of pre letter id; s] ->
  records_of (fst (content_of b)) (pl_type p) true b' = Some segs' -> letter = "R" \/ pl_level p <= 1 -> mesh_of segs' = Some (ns, es) ->
  exists g' st' evs dts o cons, sif2hdf5 d top (Some out) false usefp prefix [] g st = Ok (g', st', evs) /\ file_data (store_in st' out) = Ok dts /\
    get_data (under (nm_of pre letter id) s) dts = Ok (KFirst, o) /\
    let h := store_in st' out in
    get_elementnumbers h o [] "" "external" = Ok (map el_ext es) /\
    get_coords h o [] "" false = Ok (map n_xyz ns) /\
    get_nodenumbers h o [] "" false "external" = Ok (map n_ext ns) /\
    get_elements h o [] "" false = Ok (concat cons, totals (map el_nodes es), map el_typ es) /\
    Forall2 (fun e c => fits_nodes ns (seq 0 (length ns)) (map n_xyz ns) (el_nodes e) c) es cons.
Proof.
  intros d top fp letter no ext usefp prefix pre id b segs ps g st out p s b' segs' ns es N X S L O P F V G I F' W R K M.
  destruct (records_ok _ _ _ _ _ R) as (HS & bs & HC & HF).
  destruct (C60_getters d top fp letter no ext usefp prefix pre _ id b segs ps g st out p s b' bs segs' N X S L O P
    (survey_ok d fp letter ext pre id b segs ps V) F G I F' W HC HF HS K) as (g' & st' & evs & dts & o & C & D & H & GM & _).
  assert (SE : selected es [] [] [] "" (seq 0 (length es))).
  { split; [apply seq_sorted|].
    - intro j. rewrite in_seq. unfold wanted. split.
      + intros [_ Hj]. destruct (nth_error es j) as [e|] eqn:E; [|apply nth_error_None in E; lia]. exists e. split; [reflexivity|]. split; [now left|]. now left.
      + intros (e & E & _). assert (nth_error es j <> None) as Q by congruence. apply nth_error_Some in Q. lia. }
  destruct (GM ns es (mesh_of_ok _ _ _ M) [] [] [] "" (seq 0 (length es)) false) as (E1 & _ & E2); [split; [now intro|now left]|exact SE|].
  destruct E2 as (sel & cons & [S1 S2] & Q & A1 & A2 & _ & A3 & A4); [now right|]. rewrite pick_all in *.
  destruct (all_nodes ns sel S1 S2 Q) as [B0 B]. exists g', st', evs, dts, o, cons. repeat (split; [assumption|]). cbv zeta.
  assert (B1 : map (fun jn => n_xyz (snd jn)) sel = map n_xyz ns) by now rewrite <- B, map_map.
  assert (B2 : map (fun jn => n_ext (snd jn)) sel = map n_ext ns) by now rewrite <- B, map_map.
  rewrite B0 in *. rewrite B1 in *. rewrite B2 in *. now repeat split.
Qed.
Print Assumptions C63_superelement.

(** The files of the repository's tests/files/struc/assembly (RealFiles): the model
    files, where T2.FEM and T3.FEM are left out, and two of the results files.
    They are taken apart, they meet the hypotheses, and the converted data give what
    was gathered. *)
Definition f_run {A} (d : dir) (top : string) (f : h5 -> list (Files.entry) -> Res A) : Res A :=
  dor (gst, _) <- sif2hdf5 d top (Some "w.h5") false true "" [] glob0 [];
  dor es <- file_data (store_in (snd gst) "w.h5"); f (store_in (snd gst) "w.h5") es.
Definition f_at {A} (d : dir) (top key : string) (f : h5 -> sdata -> Res A) : Res A := f_run d top (fun h es => dor ko <- get_data key es; f h (snd ko)).
Definition places (v : option (list seg * list place)) : option (list place) := match v with Some (_, ps) => Some ps | None => None end.
Definition or_none {A} (d : A) (o : option A) : A := match o with Some a => a | None => d end.
Definition T1_segs : list seg := or_none [] (records_of Fmt 1 true T1_FEM).
Definition R1_segs : list seg := or_none [] (records_of Unf 1 true R1H3_SIU).
Definition mesh_at (segs : list seg) : list mnode * list melem := or_none ([], []) (mesh_of segs).

Example C63_case_models : sesam_name (s2l "T100.FEM") (s2l "", s2l "T", s2l (dec 100), s2l "FEM") /\ file_in repo_models "T100.FEM" = Some T100_FEM /\
  places (survey repo_models "" "T" "FEM" "" 100 T100_FEM) =
    Some [mkPlace 1 100 1 3; mkPlace 2 10 1 2; mkPlace 3 1 1 1; mkPlace 4 2 1 1; mkPlace 5 20 1 2; mkPlace 6 3 1 1; mkPlace 7 3 2 1; mkPlace 8 3 3 1; mkPlace 9 3 4 1] /\
  f_run repo_models "T100.FEM" (fun _ es => Ok (map key_of es)) = Ok ["T100"; "T100/T1"; "T100/T10"; "T100/T20"] /\
  file_in repo_models "T1.FEM" = Some T1_FEM /\ records_of Fmt 1 true T1_FEM = Some T1_segs /\ lower_group "" "T" 100 (mkPlace 3 1 1 1) = ["T100"; "T1"] /\
  mesh_of T1_segs = Some (mesh_at T1_segs) /\ map n_ext (fst (mesh_at T1_segs)) = [1; 2; 3; 4; 5; 6; 7; 8; 9; 10; 11; 12] /\
  map el_nodes (snd (mesh_at T1_segs)) = [[1; 3; 2]; [4; 6; 5]; [7; 9; 8]; [10; 12; 11]] /\
  f_at repo_models "T100.FEM" "T100/T1" (fun h o => get_coords h o [] "" false) = Ok (map n_xyz (fst (mesh_at T1_segs))) /\
  f_at repo_models "T100.FEM" "T100/T1" (fun h o => get_elements h o [] "" false) = Ok ([0; 2; 1; 3; 5; 4; 6; 8; 7; 9; 11; 10], [3; 6; 9; 12], [23; 23; 23; 23]) /\
  sets_of T1_segs = Some ([(s2l "Columns", 1); (s2l "SE_LD", 2); (s2l "SE_aboveLD", 3); (s2l "SE_supports", 4)],
    [(1, 2, [1; 2; 3; 4]); (2, 1, [2; 5; 8; 11]); (3, 1, [2]); (4, 1, [1; 2; 4; 5; 7; 8; 10; 11]); (4, 2, [1; 2; 3; 4])]) /\
  f_at repo_models "T100.FEM" "T100/T1" (fun h o => get_elementnumbers h o [s2l "Columns"] "beam" "external") = Ok [1; 2; 3; 4].
Proof.
  split; [sesam "T"%char (@nil ascii); [now left| |reflexivity]; right; right; right; apply spelled3; exists "F"%char, "E"%char, "M"%char; tauto|].
  repeat (split; [vm_compute; reflexivity|]). vm_compute. reflexivity.
Qed.

Example C63_case_results : file_in repo_results "R100.SIU" = Some R100_SIU /\ fst (content_of R100_SIU) = Unf /\
  option_map (@length place) (places (survey repo_results "" "R" "SIU" "" 100 R100_SIU)) = Some 9%nat /\
  f_run repo_results "R100.SIU" (fun _ es => Ok (map key_of es)) = Ok ["R100"; "R100/R1_1"] /\
  records_of Unf 1 true R1H3_SIU = Some R1_segs /\ mesh_of R1_segs = mesh_of T1_segs /\ geo_of R1_segs = Some [1; 1; 1; 1] /\
  refs_of R1_segs = Some [mkRef 1 1 1 0; mkRef 2 1 2 0; mkRef 3 1 3 0] /\
  (exists bs, noderes_of R1_segs "RVNODDIS" 12 = Some bs /\ map fst bs = [1; 2; 3] /\
     nth_error (flat_map snd bs) 1 = Some (map CF [FFin false 13317719 (-36); FFin false 9390381 (-38); FFin true 2719205 (-36); FFin true 2911261 (-37); FFin false 14390839 (-36); FFin true 4932185 (-40)]) /\
     f_at repo_results "R100.SIU" "R100/R1_1" (fun h o => get_noderesults h o "displacement" 1 AllCases [] "" false) = Ok (Many (map snd bs))).
Proof.
  repeat (split; [vm_compute; reflexivity|]).
  exists (or_none [] (noderes_of R1_segs "RVNODDIS" 12)). repeat (split; [vm_compute; reflexivity|]). vm_compute. reflexivity.
Qed.
