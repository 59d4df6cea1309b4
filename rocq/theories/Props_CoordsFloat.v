(** * Accuracy of coordinates with a transformation: C80 *)
From Coq Require Import Reals Lra Ring_theory Sorting.Sorted.
From Verif Require Import Base ListFacts Flt SeqFile H5 Schema Parsers Data Struc StoreSpec ParserSpec LayoutSpec FileSpec RecordSpec DataSpec StrucSpec StrucExist DataFacts FileProofs SaysSpec SaysProofs SaysGives SaysOpen Trans TransSpec TransProofs Files FilesProofs
  SifNameSpec SifNameProofs SifName Convert ConvertSpec AssemblySpec AssemblyOpen CoordsProofs IeeeSpec IeeeFacts IeeeExists DotSpec DotProofs ElemFloat ElemFloatNum CoordsFloat Survey SurveyProofs Props_Survey TransSample FileSample Props_Struc Props_Assembly Props_ElemFloat Props_File Props_Coords.
Open Scope string_scope.
Open Scope Z_scope.
Open Scope list_scope.

(** How large the terms are that make up a coordinate *)
Definition terms (p : list R) (m : list (list R)) (j : nat) : R := fold_right (fun q s => Rabs (fst q * snd q) + s)%R 0%R (combine (p ++ [1%R]) (map (fun r => nth j r 0%R) m)).
(** Sums of products in single precision, and in double precision rounded to single *)
Definition off_single (S : R) : R := (8.1 * powerRZ 2 (-24) * S + 8 * powerRZ 2 (-149))%R.
Definition off_double (S : R) : R := (1.01 * powerRZ 2 (-24) * S + powerRZ 2 (-149))%R.
(** The coordinates found, against those in exact arithmetic *)
Definition near_each (off : R -> R) (p : list R) (m : list (list R)) (found : list R) : Prop :=
  length found = 3%nat /\ forall j, (j < 3)%nat -> (terms p m j <= powerRZ 2 100)%R -> (Rabs (nth j found 0 - nth j (move Rplus Rmult p m) 0) <= off (terms p m j))%R.

Section Near.
  Variables (rs rd : R -> R).
  Hypothesis RS : rounds single rs.
  Hypothesis RD : rounds double rd.
  Lemma sizes_le l : (0 <= sizes l)%R.
  Proof. exact (sizes_pos l). Qed.
  Lemma single_near l v : computes rs l v -> length l = 4%nat -> (sizes l <= powerRZ 2 100)%R -> (Rabs (v - total l) <= off_single (sizes l))%R.
  Proof using RS.
    intros C L S. pose proof (sizes_le l) as P. pose proof (p2_pos 100) as P100.
    assert (D : (Rabs (v - total l) <= bound single l)%R).
    { apply (dot_error single rs); try reflexivity; try exact RS; try exact C; try (rewrite L; lia); try (cbn; lia).
      - unfold unit_of. cbn [f_prec single]. change (powerRZ 2 (- (24))) with u1. pose proof u1_size. lra.
      - change (p2 (f_low single)) with low1. pose proof low2_small. pose proof u2_u1. change (f_high single - 1) with (100 + 27). rewrite p2_add. pose proof (p2_nat 27 ltac:(lia)) as E. change (2 ^ 27) with 134217728 in E. rewrite E.
        assert (1 <= p2 100)%R by (replace 1%R with (p2 0) by reflexivity; apply p2_le; lia). lra. }
    unfold bound, count in D. rewrite L in D. change (unit_of single) with u1 in D. change (p2 (f_low single)) with low1 in D. unfold off_single. fold u1 low1. replace (INR 4) with 4%R in D by (cbn; lra). pose proof u1_size.
    assert (0 <= u1 * sizes l)%R by (apply Rmult_le_pos; lra). lra.
  Qed.
  Lemma double_near l v : computes rd l v -> length l = 4%nat -> (sizes l <= powerRZ 2 100)%R -> (Rabs (rs v - total l) <= off_double (sizes l))%R.
  Proof using RS RD.
    intros C L S. pose proof (sizes_le l) as P. pose proof (p2_pos 100) as P100. pose proof u1_size. pose proof u2_u1. pose proof low2_small. pose proof large_size.
    assert (LG : (1000 * p2 100 <= large)%R). { unfold large. change 120 with (100 + 20). rewrite p2_add. pose proof (p2_nat 20 ltac:(lia)) as E. change (2 ^ 20) with 1048576 in E. rewrite E. lra. }
    assert (D : (Rabs (v - total l) <= bound double l)%R).
    { apply (dot_error double rd); try reflexivity; try exact RD; try exact C; try (rewrite L; lia); try (cbn; lia).
      - unfold unit_of. cbn [f_prec double]. change (powerRZ 2 (- (53))) with u2. lra.
      - change (p2 (f_low double)) with low2. assert (100 * large <= p2 (f_high double - 1))%R. { change (f_high double - 1)%Z with (120 + 903)%Z. rewrite p2_add. fold large. rewrite Rmult_comm. apply Rmult_le_compat_l; [lra|]. apply Rle_trans with (p2 10); [rewrite p2_nat by lia; apply IZR_le; vm_compute; discriminate|apply p2_le; lia]. }
        lra. }
    unfold bound, count in D. rewrite L in D. change (unit_of double) with u2 in D. change (p2 (f_low double)) with low2 in D. replace (INR 4) with 4%R in D by (cbn; lra).
    assert (TS : (Rabs (total l) <= sizes l)%R). { clear. induction l as [|p l IH]; cbn [total sizes fold_right]; [rewrite Rabs_R0; lra|]. eapply Rle_trans; [apply Rabs_triang|]. unfold total, sizes in IH. lra. }
    assert (U0 : (0 <= u1 * sizes l)%R) by (apply Rmult_le_pos; lra). assert (U2 : (0 <= u2 * sizes l)%R) by (apply Rmult_le_pos; lra).
    assert (U3 : (500000000 * (u2 * sizes l) <= u1 * sizes l)%R). { replace (500000000 * (u2 * sizes l))%R with ((500000000 * u2) * sizes l)%R by ring. apply Rmult_le_compat_r; lra. }
    assert (VS : (Rabs v <= sizes l + (8.08 * (u2 * sizes l) + 8 * low2))%R). { replace v with ((v - total l) + total l)%R by ring. eapply Rle_trans; [apply Rabs_triang|]. lra. }
    assert (SM : (u2 * sizes l <= sizes l)%R). { rewrite <- (Rmult_1_l (sizes l)) at 2. apply Rmult_le_compat_r; lra. }
    assert (GS : (Rabs (rs v - v) <= u1 * Rabs v + / 2 * low1)%R). { apply (good_single rs RS). assert (1 <= p2 100)%R by (replace 1%R with (p2 0) by reflexivity; apply p2_le; lia). lra. }
    assert (UV : (u1 * Rabs v <= u1 * sizes l + (8.08 * (u2 * sizes l) + 8 * low2))%R).
    { eapply Rle_trans; [apply Rmult_le_compat_l; [lra|exact VS]|]. rewrite Rmult_plus_distr_l. apply Rplus_le_compat_l. rewrite <- (Rmult_1_l (8.08 * (u2 * sizes l) + 8 * low2)%R) at 2. apply Rmult_le_compat_r; lra. }
    replace (rs v - total l)%R with ((rs v - v) + (v - total l))%R by ring. eapply Rle_trans; [apply Rabs_triang|]. unfold off_double. fold u1 low1. lra.
  Qed.
End Near.

Lemma moved_total p m j : length p = 3%nat -> four m -> (j < 3)%nat -> total (combine (p ++ [1%R]) (Trans.column 0%R m j)) = nth j (move Rplus Rmult p m) 0%R.
Proof.
  intros Hp [L F] J. destruct p as [|x [|y [|z [|]]]]; try discriminate Hp. destruct m as [|r1 [|r2 [|r3 [|r4 [|]]]]]; try discriminate L.
  inversion F as [|? ? F1 G1]; subst. inversion G1 as [|? ? F2 G2]; subst. inversion G2 as [|? ? F3 G3]; subst. inversion G3 as [|? ? F4 G4]; subst.
  destruct r1 as [|a1 [|a2 [|a3 [|a4 [|]]]]]; try discriminate F1. destruct r2 as [|b1 [|b2 [|b3 [|b4 [|]]]]]; try discriminate F2.
  destruct r3 as [|c1 [|c2 [|c3 [|c4 [|]]]]]; try discriminate F3. destruct r4 as [|d1 [|d2 [|d3 [|d4 [|]]]]]; try discriminate F4.
  unfold Trans.column, total, move. destruct j as [|[|[|j]]]; [| | |lia]; cbn [map nth app combine fold_right fst snd]; ring.
Qed.
Lemma column_length (m : list (list R)) j : four m -> length (Trans.column 0%R m j) = 4%nat.
Proof. intros [L _]. unfold Trans.column. now rewrite map_length. Qed.
Lemma mapi_each {A B C} (P : A -> C -> Prop) (g : A -> B) (f : nat -> B -> C) l : (forall i x, In x l -> P x (f i (g x))) -> Forall2 P l (mapi f (map g l)).
Proof.
  intro H. unfold mapi. rewrite map_length. generalize 0%nat. revert H. induction l as [|x l IH]; intros H k; [constructor|]. cbn [map seq length combine]. constructor; [apply H; now left|].
  apply IH. intros i y I. apply H. now right.
Qed.

(** C80.  What get_nodes gives for a data object with the records [segs], with every
    operation rounded: whichever way the library sums the products, single products
    and sums rounded or fused, in any order. *)
Definition gives_near (rs rd : R -> R) (h : h5) (o : sdata) (segs : list seg) : Prop :=
  forall (dot dotd : nat -> nat -> list R -> list R -> R), (forall i j v w, computes rs (combine v w) (dot i j v w)) -> (forall i j v w, computes rd (combine v w) (dotd i j v w)) ->
  forall num ns es nms ms sets kind idx disconnected tops index,
  mesh_on segs ns es -> proper_on segs es nms ms sets kind -> selected es nms ms sets kind idx -> idx <> [] \/ nosel sets kind = true ->
  exists sel, selected_nodes ns es (nosel sets kind) disconnected idx (map fst sel) /\ Forall (fun jn => nth_error ns (fst jn) = Some (snd jn)) sel /\
    let nodes wide tr := get_nodes_fl rs dot dotd wide num h o tops sets kind disconnected tr index in
    let xyz (jn : nat * mnode) := map num (n_xyz (snd jn)) in
    (forall wide, nodes wide None = Ok (map xyz sel)) /\
    (forall m, four m -> exists q, nodes false (Some (TArr m)) = Ok q /\ Forall2 (fun jn => near_each off_single (xyz jn) m) sel q) /\
    (forall m, four m -> exists q, nodes true (Some (TArr m)) = Ok q /\ Forall2 (fun jn => near_each off_double (xyz jn) m) sel q) /\
    (forall t ts wide, own_on segs (t :: ts) -> exists q, nodes wide (Some (TText "top")) = Ok q /\ Forall2 (fun jn => near_each off_single (xyz jn) (map (map num) t)) sel q).

Lemma gives_near_ok rs rd h o segs : rounds single rs -> rounds double rd -> d_open o = true -> tables h (d_group o) segs -> d_top o = None -> first_seen (seg_names segs) (d_names o) -> gives_near rs rd h o segs.
Proof.
  intros RS RD O T N F dot dotd HS HD num ns es nms ms sets kind idx dis tops index M P S W.
  destruct (gives_mesh_ok h o segs O T ns es M nms ms sets kind idx dis P S) as (_ & _ & G). destruct (G W) as (sel & _ & G1 & G2 & G3 & _).
  exists sel. split; [exact G1|]. split; [exact G2|]. cbv zeta.
  assert (L : forall jn, In jn sel -> length (map num (n_xyz (snd jn))) = 3%nat).
  { intros jn I. rewrite Forall_forall in G2. rewrite map_length. exact (xyz3 segs ns es _ _ M (G2 jn I)). }
  assert (V1 : forall m, four m -> Forall2 (fun jn => near_each off_single (map num (n_xyz (snd jn))) m) sel (map (firstn 3) (times_fl dot (map (fun q => map num q ++ [1%R]) (map (fun jn => n_xyz (snd jn)) sel)) m))).
  { intros m Hm. unfold times_fl. rewrite map_map. unfold mapi. rewrite map_map. apply (mapi_each _ (fun jn => map num (n_xyz (snd jn)) ++ [1%R]) (fun i r => firstn 3 (map (fun j => dot i j r (Trans.column 0%R m j)) [0; 1; 2; 3]%nat))).
    intros i jn I. split; [reflexivity|]. intros j J B. rewrite <- moved_total by (auto using L). replace (nth j (firstn 3 _) 0%R) with (dot i j (map num (n_xyz (snd jn)) ++ [1%R]) (Trans.column 0%R m j)) by (destruct j as [|[|[|j]]]; [reflexivity..|lia]).
    apply (single_near rs RS); [apply HS| |exact B]. rewrite combine_length, app_length, (L jn I), column_length by exact Hm. reflexivity. }
  assert (V2 : forall m, four m -> Forall2 (fun jn => near_each off_double (map num (n_xyz (snd jn))) m) sel (map (firstn 3) (map (map rs) (times_fl dotd (map (fun q => map num q ++ [1%R]) (map (fun jn => n_xyz (snd jn)) sel)) m)))).
  { intros m Hm. unfold times_fl. rewrite map_map. unfold mapi. rewrite !map_map. apply (mapi_each _ (fun jn => map num (n_xyz (snd jn)) ++ [1%R]) (fun i r => firstn 3 (map rs (map (fun j => dotd i j r (Trans.column 0%R m j)) [0; 1; 2; 3]%nat)))).
    intros i jn I. split; [reflexivity|]. intros j J B. rewrite <- moved_total by (auto using L). replace (nth j (firstn 3 _) 0%R) with (rs (dotd i j (map num (n_xyz (snd jn)) ++ [1%R]) (Trans.column 0%R m j))) by (destruct j as [|[|[|j]]]; [reflexivity..|lia]).
    apply (double_near rs rd RS RD); [apply HD| |exact B]. rewrite combine_length, app_length, (L jn I), column_length by exact Hm. reflexivity. }
  split; [|split; [|split]].
  - intro wide. change (get_nodes 0%R 1%R Rplus Rmult num h o tops sets kind dis None index = Ok (map (fun jn => map num (n_xyz (snd jn))) sel)).
    rewrite (nodes_plain 0%R 1%R Rplus Rmult num h o tops sets kind dis index _ G3); [now rewrite map_map|]. apply Forall_map, Forall_forall. intros jn I. specialize (L jn I). now rewrite map_length in L.
  - intros m Hm. unfold get_nodes_fl. rewrite (given_with 0%R 1%R Rplus Rmult num _ h o tops sets kind dis index m _ G3 Hm). eexists. split; [reflexivity|]. now apply V1.
  - intros m Hm. unfold get_nodes_fl. rewrite (given_with 0%R 1%R Rplus Rmult num _ h o tops sets kind dis index m _ G3 Hm). eexists. split; [reflexivity|]. now apply V2.
  - intros t ts wide HT. pose proof (own_found h _ segs _ T HT) as K. unfold get_nodes_fl. rewrite (own_with 0%R 1%R Rplus Rmult num _ h o tops sets kind dis index t ts _ G3 O N); [|apply (seen_in _ _ _ F), entries_named; apply HT|exact K].
    eexists. split; [reflexivity|]. apply V1. destruct HT as (HE & HL & HS'). destruct (entries_of "RSUPTRAN" segs) as [|e el] eqn:E; [now elim HE|].
    destruct (HS' 0%nat e t eq_refl eq_refl) as (rows & _ & [R1 R2] & ->). split; [now rewrite !map_length|]. rewrite !Forall_map. unfold all_len in R2. eapply Forall_impl; [|exact R2]. cbn beta. intros r Hr. unfold reals_. now rewrite !map_length.
Qed.
(** A file opened by itself... *)
Theorem C80_file : forall rs rd, rounds single rs -> rounds double rd -> forall d top letter id segs g, sesam_file d top letter id segs -> first_level letter segs -> 0 < g_batch g ->
  exists g' h o, open_sif d top g = Ok (g', h, KFirst, o) /\ gives_near rs rd h o segs.
Proof.
  intros rs rd RS RD d top letter id segs g HF HL Hb. destruct (file_object d top letter id segs g HF HL Hb) as (g' & h & o & E & O & T & N & F).
  exists g', h, o. split; [exact E|]. now apply gives_near_ok.
Qed.
Print Assumptions C80_file.
(** ...and the superelements of an assembly, by their own files. *)
Theorem C80_assembly : forall rs rd, rounds single rs -> rounds double rd -> forall d top fp letter no ext (usefp : bool) prefix pre k id b segs ps g st out p s b' bs segs',
  sesam_name (s2l top) (s2l fp, s2l letter, no, s2l ext) -> no_extension (s2l fp) -> ~ sin_ext (s2l ext) -> In letter ["R"; "T"; "L"] -> out <> "" ->
  pre = (if usefp then prefix ++ fp else prefix)%string -> assembly d fp letter ext pre k id b segs ps -> file_in d top = Some b -> 0 < g_batch g ->
  In p (lower_places ext ps) -> file_in d (lower_file fp ext p) = Some b' -> lower_group pre letter id p = [nm_of pre letter id; s] ->
  contents k b' bs -> file_of [] k (pl_type p) true bs segs' -> some_record segs' -> letter = "R" \/ pl_level p <= 1 ->
  exists g' st' evs es o, sif2hdf5 d top (Some out) false usefp prefix [] g st = Ok (g', st', evs) /\ file_data (store_in st' out) = Ok es /\
    get_data (under (nm_of pre letter id) s) es = Ok (KFirst, o) /\ gives_near rs rd (store_in st' out) o segs'.
Proof.
  intros rs rd RS RD d top fp letter no ext usefp prefix pre k id b segs ps g st out p s b' bs segs' N X S L O P A F G I E W C1 C2 C3 V.
  destruct (assembly_object d top fp letter no ext usefp prefix pre k id b segs ps g st out p s b' bs segs' N X S L O P A F G I E W C1 C2 C3 V) as (g' & st' & evs & es & o & H1 & H2 & H3 & B1 & B2 & B3 & B4).
  exists g', st', evs, es, o. split; [exact H1|]. split; [exact H2|]. split; [exact H3|]. now apply gives_near_ok.
Qed.
Print Assumptions C80_assembly.
(** The file of C79, each coordinate within 0.001. *)
Definition v_mesh : list mnode * list melem := or_none ([], []) (mesh_of v_segs).
Definition v_num (c : cell) : R := IZR (zn c).
Definition v_dot (_ _ : nat) (v w : list R) : R := from_right (ieee single) (combine v w).
Definition v_dotd (_ _ : nat) (v w : list R) : R := from_right (ieee double) (combine v w).
Example C80_case : exists g' h o a b c d e f, open_sif v_dir "barR5.SIF" glob0 = Ok (g', h, KFirst, o) /\
  get_nodes_fl (ieee single) v_dot v_dotd false v_num h o (fun _ => o) [] "" true (Some (TText "top")) 1 = Ok [[a; b; c]; [d; e; f]] /\
  (Rabs (a - 100) <= 0.001 /\ Rabs (b - 210) <= 0.001 /\ Rabs (c - 307) <= 0.001 /\ Rabs (d - 105) <= 0.001 /\ Rabs (e - 200) <= 0.001 /\ Rabs (f - 300) <= 0.001)%R.
Proof.
  destruct C79_case as (F & L & _ & W & _).
  destruct (C80_file (ieee single) (ieee double) (ieee_rounds single eq_refl eq_refl) (ieee_rounds double eq_refl eq_refl) v_dir "barR5.SIF" "R" 5 v_segs glob0 F L eq_refl) as (g' & h & o & E & G).
  destruct (G v_dot v_dotd (fun i j v w => from_right_computes _ _) (fun i j v w => from_right_computes _ _) v_num (fst v_mesh) (snd v_mesh) [] [] [] "" [0]%nat true (fun _ => o) 1) as (sel & S1 & S2 & _ & _ & _ & G4).
  - apply mesh_of_ok. vm_compute. reflexivity.
  - split; [now intro|now left].
  - q_sel.
  - left. discriminate.
  - destruct (G4 v_trans [] false W) as (q & Q & N). clear G G4.
    change (map no_of (map fst sel) = [2; 1]) in S1. destruct sel as [|[j1 n1] [|[j2 n2] [|]]]; try discriminate S1. cbn [map fst] in S1. assert (j1 = 1%nat) as -> by (unfold no_of in S1; injection S1; lia). assert (j2 = 0%nat) as -> by (unfold no_of in S1; injection S1; lia).
    inversion S2 as [|? ? X1 S3]; subst. inversion S3 as [|? ? X2 S4]; subst. cbn [fst snd] in X1, X2. clear S1 S2 S3 S4. vm_compute in X1, X2. injection X1 as <-. injection X2 as <-.
    inversion N as [|? q1 ? ? N1 N']; subst. inversion N' as [|? q2 ? ? N2 N'']; subst. inversion N''; subst. clear N N' N''.
    destruct N1 as [L1 N1], N2 as [L2 N2]. destruct q1 as [|a [|b [|c [|]]]]; try discriminate L1. destruct q2 as [|d [|e [|f [|]]]]; try discriminate L2.
    exists g', h, o, a, b, c, d, e, f. split; [exact E|]. split; [exact Q|].
    assert (BIG : (1000 <= powerRZ 2 100)%R). { apply Rle_trans with (p2 10); [rewrite p2_nat by lia; apply IZR_le; vm_compute; discriminate|apply p2_le; lia]. }
    assert (SMALL : forall S, (0 <= S <= 1000)%R -> (off_single S <= 0.001)%R).
    { intros S HS. unfold off_single. fold u1 low1. pose proof u1_size as U. pose proof low2_small. pose proof u2_u1. assert (u1 * S <= u1 * 1000)%R by (apply Rmult_le_compat_l; lra). lra. }
    assert (K : forall p (x y : list R) j, (forall j, (j < 3)%nat -> (terms p (map (map v_num) v_trans) j <= powerRZ 2 100)%R -> (Rabs (nth j y 0 - nth j (move Rplus Rmult p (map (map v_num) v_trans)) 0) <= off_single (terms p (map (map v_num) v_trans) j))%R) ->
      (j < 3)%nat -> (0 <= terms p (map (map v_num) v_trans) j <= 1000)%R -> nth j (move Rplus Rmult p (map (map v_num) v_trans)) 0%R = nth j x 0%R -> (Rabs (nth j y 0 - nth j x 0) <= 0.001)%R).
    { intros p x y j H J T <-. eapply Rle_trans; [apply H; [exact J|lra]|]. now apply SMALL. }
    assert (T : map (map v_num) v_trans = [[0; 1; 0; 0]; [-1; 0; 0; 0]; [0; 0; 1; 0]; [100; 200; 300; 1]]%R) by reflexivity.
    rewrite T in N1, N2, K. clear T.
    assert (P1 : map v_num (n_xyz {| n_ext := 103; n_xyz := [H5.CF (Flt.FFin false 5 1); H5.CF (Flt.FZero false); H5.CF (Flt.FFin false 7 0)] |}) = [10; 0; 7]%R) by reflexivity.
    assert (P2 : map v_num (n_xyz {| n_ext := 101; n_xyz := [H5.CF (Flt.FZero false); H5.CF (Flt.FFin true 5 0); H5.CF (Flt.FZero false)] |}) = [0; -5; 0]%R) by reflexivity.
    cbn [snd] in N1, N2. rewrite P1 in N1. rewrite P2 in N2.
    pose proof (fun j => K [10; 0; 7]%R [100; 210; 307]%R [a; b; c] j N1) as K1. pose proof (fun j => K [0; -5; 0]%R [105; 200; 300]%R [d; e; f] j N2) as K2. clear K N1 N2.
    split; [apply (K1 0%nat)|split; [apply (K1 1%nat)|split; [apply (K1 2%nat)|split; [apply (K2 0%nat)|split; [apply (K2 1%nat)|apply (K2 2%nat)]]]]]; try lia;
      try (cbn [nth move]; lra); unfold terms; cbn [map nth app combine fold_right fst snd];
      unfold Rabs; repeat match goal with |- context [Rcase_abs ?x] => destruct (Rcase_abs x) end; lra.
Qed.
