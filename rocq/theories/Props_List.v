(** * Properties of listings: C61, C62

    [listing h ks]: the keys of a file with content [h], in order, with the groups
    they stand for. *)
From Coq Require Import Sorting.Sorted Permutation.
From Verif Require Import Base Flt SeqFile H5 Schema Parsers Data Files Struc SifName Convert SeqSpec StoreSpec ParserSpec LayoutSpec FileSpec DataSpec
  SifNameSpec SifNameProofs ConvertSpec AssemblySpec ConvertProofs AssemblyProofs AssemblyOpen AssemblyData ConvertSample AssemblySample FileSample Sample Sample2
  Trans Nd Hydro Handles HandlesSpec HandlesProofs Listing ListSpec ListProofs ListFile Props_Assembly.
From Verif Require TransSample HydroSample StrucSample.
Open Scope string_scope.
Open Scope Z_scope.
Open Scope list_scope.

(** C61.  A file as a dictionary, as long as it is open: keys, values and items
    are in the same order, each key is there once and leads to the object of its
    group. *)
Theorem C61_dictionary : forall tr1 h tr2 n s, runs (tr1 ++ (DoOpen h, Ok (RNew n)) :: tr2) s -> Forall (fun e => ~ closes n e) tr2 -> proper_file h ->
  exists ks f, listing h ks /\ NoDup (map fst ks) /\ nth_error (st_files s) n = Some f /\
    map (fun o => d_group (ob_data o)) (hf_objs f) = map snd ks /\
    step s (DoLook n LKeys) = (s, Ok (RKeys (map fst ks))) /\
    step s (DoLook n LValues) = (s, Ok (RObjs (seq 0 (length ks)))) /\
    step s (DoLook n LItems) = (s, Ok (RItems (combine (map fst ks) (seq 0 (length ks))))) /\
    (forall i k, nth_error (map fst ks) i = Some k ->
       step s (DoLook n (LItem k)) = (s, Ok (RObj i)) /\ step s (DoLook n (LGet k)) = (s, Ok (RObj i)) /\ step s (DoLook n (LContains k)) = (s, Ok (RBool true))) /\
    (forall k, ~ In k (map fst ks) ->
       step s (DoLook n (LItem k)) = (s, Err KeyError) /\ step s (DoLook n (LGet k)) = (s, Ok RNone) /\ step s (DoLook n (LContains k)) = (s, Ok (RBool false))).
Proof.
  intros tr1 h tr2 n s R C P. destruct (as_opened _ _ R tr1 h tr2 n eq_refl C) as (os & N & O). destruct (open_listed h os O P) as (ks & L & F).
  destruct (obj_keys _ _ _ F) as [K1 K2]. pose proof (listing_nodup h ks P L) as ND. exists ks, (mkF h os true true).
  assert (LE : length os = length ks) by (rewrite <- (map_length ob_key os), K1; apply map_length).
  split; [exact L|]. split; [exact ND|]. split; [exact N|]. split; [exact K2|]. cbn [step]. rewrite N. cbn [look hf_open hf_objs]. rewrite K1, LE.
  split; [reflexivity|]. split; [reflexivity|]. split; [reflexivity|]. split.
  - intros i k E. rewrite (key_at_some k os 0 i) by now rewrite K1. now repeat split.
  - intros k I. rewrite (key_at_none k os 0) by now rewrite K1. now repeat split.
Qed.
Print Assumptions C61_dictionary.
(** str of a file: a line for each data set, in alphabetical order of the keys,
    each key between quotes ([literal], ListSpec). *)
Theorem C61_str : forall tr1 h tr2 n s, runs (tr1 ++ (DoOpen h, Ok (RNew n)) :: tr2) s -> Forall (fun e => ~ closes n e) tr2 -> proper_file h ->
  exists ks f, listing h ks /\ nth_error (st_files s) n = Some f /\
    exists ks' ls, Permutation ks ks' /\ StronglySorted str_lt (map fst ks') /\ Forall2 (line_of h) ks' ls /\ file_str f = joined ls.
Proof.
  intros tr1 h tr2 n s R C P. destruct (as_opened _ _ R tr1 h tr2 n eq_refl C) as (os & N & O). destruct (open_listed h os O P) as (ks & L & F).
  exists ks, (mkF h os true true). split; [exact L|]. split; [exact N|]. exact (str_ok h os ks P L F).
Qed.
Print Assumptions C61_str.
(** Any key can be read from its line; one without quotes, backslashes and control
    characters stands there as it is. *)
Theorem C61_literal : forall k, (exists t, literal k t) /\ (forall t k', literal k t -> literal k' t -> k = k') /\ (forall t, plain_key k -> literal k t -> t = quoted k).
Proof. intros k. split; [exists (py_repr k); apply repr_ok|]. split; [intros t k'; apply literal_inj|intros t; apply literal_plain]. Qed.
Print Assumptions C61_literal.
Definition tricky : string := l2s (map ascii_of_nat [97; 39; 92; 10; 7; 127])%nat.
Example C61_literal_case : literal tricky (py_repr tricky) /\
  py_repr tricky = l2s (map ascii_of_nat [34; 97; 39; 92; 92; 92; 110; 92; 120; 48; 55; 92; 120; 55; 102; 34])%nat /\
  literal (tricky ++ String (ascii_of_nat 34) "") (l2s (map ascii_of_nat [39; 97; 92; 39; 92; 92; 92; 110; 92; 120; 48; 55; 92; 120; 55; 102; 34; 39])%nat) /\ plain_key "A/x 1".
Proof.
  split; [apply repr_ok|]. split; [reflexivity|]. split; [exact (repr_ok (tricky ++ String (ascii_of_nat 34) ""))|].
  intros c H. repeat (destruct H as [<-|H]; [vm_compute; repeat split; try lia; discriminate|]). destruct H.
Qed.
(** The texts of the data objects themselves. *)
Theorem C61_objects : forall tr1 h tr2 n s, runs (tr1 ++ (DoOpen h, Ok (RNew n)) :: tr2) s -> Forall (fun e => ~ closes n e) tr2 -> proper_file h ->
  exists ks f, listing h ks /\ nth_error (st_files s) n = Some f /\
    Forall2 (fun kp o => (exists w, in_words h (snd kp) w /\ data_str (ob_data o) = (w ++ " data")%string) /\
      exists name, named (snd kp) name /\ data_repr (ob_data o) = ("SifData(name=" ++ name ++ ")")%string) ks (hf_objs f).
Proof.
  intros tr1 h tr2 n s R C P. destruct (as_opened _ _ R tr1 h tr2 n eq_refl C) as (os & N & O). destruct (open_listed h os O P) as (ks & L & F).
  exists ks, (mkF h os true true). split; [exact L|]. split; [exact N|]. cbn [hf_objs].
  assert (S : forall kp, In kp ks -> (exists g, snd kp = [g]) \/ (exists g s, snd kp = [g; s])) by exact (listing_paths h ks L).
  clear - F P S. induction F as [|kp o ks os H F IH]; constructor; [|apply IH; intros x Hx; apply S; now right].
  assert (S' := S kp (or_introl eq_refl)). split.
  - exact (words_exist h kp o P S' H).
  - destruct H as (_ & G & Op & _). unfold data_repr. rewrite Op, G. destruct S' as [(g & ->)|(g & t & ->)]; eexists; (split; [constructor|reflexivity]).
Qed.
Print Assumptions C61_objects.
(** Of a closed one, whatever happened. *)
Theorem C61_closed : forall tr s n f, runs tr s -> nth_error (st_files s) n = Some f -> ~ alive tr n ->
  file_str f = "<Closed File object>" /\ file_repr f = Ok "<Closed File object>" /\
  forall o, In o (hf_objs f) -> data_str (ob_data o) = "<Closed SifData object>" /\ data_repr (ob_data o) = "<Closed SifData object>".
Proof.
  intros tr s n f R N A. destruct (state_whole tr s R n f N) as ((_ & _ & W) & _). pose proof (open_iff_alive tr s R n f N) as I.
  assert (O : hf_open f = false) by (destruct (hf_open f); [now elim A; apply I|reflexivity]). rewrite O in W.
  unfold file_str, file_repr. rewrite O. split; [reflexivity|]. split; [reflexivity|]. intros o Ho. unfold data_str, data_repr. now rewrite (W o Ho).
Qed.
Print Assumptions C61_closed.
(** Iteration over an open file always fails. *)
Theorem C61_iteration_refuted : forall tr s n f, runs tr s -> nth_error (st_files s) n = Some f -> alive tr n -> step s (DoLook n LIter) = (s, Err TypeError).
Proof.
  intros tr s n f R N A. cbn [step]. rewrite N. apply (open_iff_alive tr s R n f N) in A. unfold look. now rewrite A.
Qed.
Print Assumptions C61_iteration_refuted.
(** repr works for a file with one data set and fails as soon as there are two. *)
Theorem C61_repr_partial : forall tr1 h tr2 n s, runs (tr1 ++ (DoOpen h, Ok (RNew n)) :: tr2) s -> Forall (fun e => ~ closes n e) tr2 -> proper_file h ->
  exists ks f, listing h ks /\ nth_error (st_files s) n = Some f /\
    (ks = [] -> file_repr f = Ok "") /\ (forall g, ks = [(g, [g])] -> file_repr f = Ok ("SifData(name=" ++ g ++ ")" ++ nl)%string).
Proof.
  intros tr1 h tr2 n s R C P. destruct (as_opened _ _ R tr1 h tr2 n eq_refl C) as (os & N & O). destruct (open_listed h os O P) as (ks & L & F).
  exists ks, (mkF h os true true). split; [exact L|]. split; [exact N|]. split.
  - intros ->. inversion F; subst. reflexivity.
  - intros g ->. inversion F as [|kp o l l' (K1 & K2 & K3 & _) F']; subst. inversion F'; subst. unfold file_repr. cbn [hf_open hf_objs]. unfold data_repr. rewrite K3, K2. cbn [snd last].
    now rewrite !str_app_assoc.
Qed.
Print Assumptions C61_repr_partial.
Theorem C61_repr_refuted : forall tr1 h tr2 n s, runs (tr1 ++ (DoOpen h, Ok (RNew n)) :: tr2) s -> Forall (fun e => ~ closes n e) tr2 -> proper_file h ->
  exists ks f, listing h ks /\ nth_error (st_files s) n = Some f /\ ((2 <= length ks)%nat -> file_repr f = Err TypeError).
Proof.
  intros tr1 h tr2 n s R C P. destruct (as_opened _ _ R tr1 h tr2 n eq_refl C) as (os & N & O). destruct (open_listed h os O P) as (ks & L & F).
  exists ks, (mkF h os true true). split; [exact L|]. split; [exact N|]. intros H. inversion F as [|a b l l' _ F']; subst; [cbn in H; lia|]. inversion F' as [|a' b' l1 l1' _ F'']; subst; [cbn in H; lia|].
  reflexivity.
Qed.
Print Assumptions C61_repr_refuted.

(** A file with two data sets, the second below the first; the order of the keys
    and that of the text differ when a name is continued by a character before
    the separator. *)
Definition attrs_of (ty lev : string) : list (string * aval) := [("RECORDS", AStrs ["IDENT"]); ("SELTYP", AInt (Some 1)); ("FILETYPE", AStr "T"); ("DATATYPE", AStr ty); ("LEVEL", AStr lev)].
Definition l_h : h5 := [(["A-1"], Group (attrs_of "STRUCTURAL" "FIRSTLEVEL")); (["A"; "x"], Group (attrs_of "STRUCTURAL" "INTERLEVEL")); (["A"], Group (attrs_of "STRUCTURAL" "TOPLEVEL"))].
Definition l_ops : list op := [DoOpen l_h].
Definition l_text : string := ("'A': toplevel structural data" ++ nl ++ "'A-1': firstlevel structural data" ++ nl ++ "'A/x': interlevel structural data" ++ nl)%string.
Lemma l_proper : proper_file l_h.
Proof.
  split.
  - intros g a H. unfold group_with, l_h, h5_find in H. cbn in H.
    destruct (String.eqb_spec g "A-1") as [->|_]; cbn in H; [|destruct (String.eqb_spec g "A") as [->|_]; cbn in H; [|discriminate]]; injection H as <-;
      (split; [cbn; intuition discriminate|right; split; [reflexivity|eexists; split; [reflexivity|cbn; tauto]]]).
  - intros g s a H. unfold group_with, l_h, h5_find in H. cbn in H. rewrite ?andb_false_r, ?andb_true_r in H.
    destruct (String.eqb_spec g "A-1") as [->|_]; cbn in H; [discriminate|]. destruct (String.eqb_spec g "A") as [->|_]; cbn in H; [|discriminate]. destruct (String.eqb_spec s "x") as [->|_]; cbn in H; [|discriminate].
    injection H as <-. split; [reflexivity|eexists; split; [reflexivity|cbn; tauto]].
Qed.
Example C61_case : runs (history start l_ops) (run l_ops) /\ history start l_ops = [(DoOpen l_h, Ok (RNew 0))] /\ proper_file l_h /\
  snd (step (run l_ops) (DoLook 0 LKeys)) = Ok (RKeys ["A"; "A/x"; "A-1"]) /\ snd (step (run l_ops) (DoLook 0 (LItem "A-1"))) = Ok (RObj 2) /\
  snd (step (run l_ops) (DoLook 0 LIter)) = Err TypeError /\
  map file_str (st_files (run l_ops)) = [l_text] /\ map file_repr (st_files (run l_ops)) = [Err TypeError].
Proof.
  split; [apply history_runs; repeat split; vm_compute; eauto|]. split; [vm_compute; reflexivity|]. split; [exact l_proper|]. vm_compute. tauto.
Qed.

(** C62.  The records of every data set of a converted assembly are counted: each
    type of record that is stored, in alphabetical order, with the number of its
    records in the file. *)
Theorem C62_counts : forall d top fp letter no ext (usefp : bool) prefix pre k id b segs ps g st out,
  sesam_name (s2l top) (s2l fp, s2l letter, no, s2l ext) -> no_extension (s2l fp) -> ~ sin_ext (s2l ext) -> In letter ["R"; "T"; "L"] -> out <> "" ->
  pre = (if usefp then prefix ++ fp else prefix)%string -> assembly d fp letter ext pre k id b segs ps -> file_in d top = Some b -> 0 < g_batch g ->
  exists g' st' evs es, sif2hdf5 d top (Some out) false usefp prefix [] g st = Ok (g', st', evs) /\ file_data (store_in st' out) = Ok es /\
    let nm := nm_of pre letter id in
    let counted o segs := exists l ls, record_info (store_in st' out) o = Ok (joined ls) /\ Forall2 count_line l ls /\ StronglySorted str_lt (map fst l) /\
      forall n c, In (n, c) l <-> counts segs n c in
    (exists kd o, get_data nm es = Ok (kd, o) /\ counted o segs) /\
    forall p s b', In p (lower_places ext ps) -> file_in d (lower_file fp ext p) = Some b' -> lower_group pre letter id p = [nm; s] ->
      exists kd o, get_data (under nm s) es = Ok (kd, o) /\
        forall bs segs', contents k b' bs -> file_of [] k (pl_type p) true bs segs' -> some_record segs' -> counted o segs'.
Proof.
  intros d top fp letter no ext usefp prefix pre k id b segs ps g st out N X S L O P A F G.
  destruct (C60_data_sets d top fp letter no ext usefp prefix pre k id b segs ps g st out N X S L O P A F G) as (g' & st' & evs & es & H1 & H2 & _ & H4 & H3).
  exists g', st', evs, es. split; [exact H1|]. split; [exact H2|]. cbv zeta.
  assert (Q : sif_checked (s2l top) = Ok (s2l fp, s2l letter, no, s2l ext)) by (apply sif_checked_ok; split; [now apply parse_sifname_ok, proper_parsed|exact S]).
  assert (C : exists h, convert d top (s2l fp, s2l letter, no, s2l ext) usefp prefix [] g [] = Ok (g', h, evs) /\ store_in st' out = h).
  { unfold sif2hdf5, given in H1. destruct out as [|c out]; [now elim O|]. rewrite Q in H1. cbn beta iota zeta in H1. unfold rbind in H1.
    destruct (convert d top (s2l fp, s2l letter, no, s2l ext) usefp prefix [] g []) as [[[g2 h2] e2]|e] eqn:E; [|discriminate H1].
    cbn [fst snd] in H1. change (String c out =? "")%string with false in H1. cbv iota in H1. injection H1 as <- <- <-. exists h2. split; [reflexivity|]. now rewrite store_dset. }
  destruct C as (h & C & SH). rewrite SH in *.
  assert (U : upper_letter letter) by (unfold upper_letter; cbn in L |- *; tauto).
  destruct (assembly_only d top fp letter no ext usefp prefix pre k id b segs ps g g' h evs P U A F G C) as (B1 & B2).
  split.
  - destruct H4 as (pos & kd & o & D1 & _ & _ & D4 & D5 & _ & _ & _ & T). exists kd, o. split; [exact D1|]. apply info_counts; [exact D4|exact T|]. rewrite D5. exact B1.
  - intros p s b' Hp Hf E. destruct (H3 p s b' Hp Hf E) as (kd & o & D1 & _ & D4 & D5 & _ & _ & _ & _ & T). exists kd, o. split; [exact D1|].
    intros bs segs' C1 C2 C3. destruct (T bs segs' C1 C2 C3) as (_ & T'). apply info_counts; [exact D4|exact T'|]. rewrite D5, <- E. intros n ds rows. exact (B2 p b' n ds rows Hp Hf).
Qed.
Print Assumptions C62_counts.
(** The same of a file opened by open_sif, hydrodynamic ones included. *)
Theorem C62_opened : forall d top fp letter no ext k id b segs ps g,
  sesam_name (s2l top) (s2l fp, s2l letter, no, s2l ext) -> no_extension (s2l fp) -> ~ sin_ext (s2l ext) -> upper_letter letter ->
  no = s2l (dec id) -> assembly d fp letter ext fp k id b segs ps -> file_in d top = Some b -> complete letter segs -> 0 < g_batch g ->
  exists g' h kd o, open_sif d top g = Ok (g', h, kd, o) /\
    exists l ls, record_info h o = Ok (joined ls) /\ Forall2 count_line l ls /\ StronglySorted str_lt (map fst l) /\ forall n c, In (n, c) l <-> counts segs n c.
Proof.
  intros d top fp letter no ext k id b segs ps g N X S U E A F W G.
  destruct (open_assembly d top fp letter no ext k id b segs ps g N X S U E A F W G) as (g' & h & kd & o & pos & O & T & _ & _ & D & _ & _ & _ & _ & P).
  exists g', h, kd, o. split; [exact O|]. destruct (open_found d top g g' h kd o O) as (p & l & n & e & evs & a & R & C & _).
  assert (Q : (p, l, n, e) = (s2l fp, s2l letter, no, s2l ext)).
  { apply parse_sifname_ok in R. apply proper_parsed in N; [|exact X]. rewrite R in N. now injection N as -> -> -> ->. }
  rewrite Q in C. apply info_counts; [exact P|rewrite D; exact T|]. rewrite D.
  exact (proj1 (assembly_only d top fp letter no ext true "" fp k id b segs ps g g' h evs eq_refl U A F G C)).
Qed.
Print Assumptions C62_opened.
Example C62_case : assembly w_dir "w" "R" "SIF" "w" Fmt 9 w_text w_segs w_places /\ counts w_segs "hierarch" 3 /\
  w_at "wR9" record_info = Ok ("hierarch: 3" ++ nl ++ "ident   : 1" ++ nl)%string.
Proof.
  split; [exact w_assembly|]. split; [|vm_compute; reflexivity]. exists "HIERARCH". split; [vm_compute; tauto|]. split; [reflexivity|]. split; [discriminate|reflexivity].
Qed.
