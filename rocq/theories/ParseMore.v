(** * ParseMore: two runs compared, restriction, the sample files read, and
    files for which the reader does not do what it should. *)
From Verif Require Import Base Flt SeqFile H5 Schema Parsers SeqSpec StoreSpec ParserSpec LayoutSpec FileSpec DataSpec
  ListFacts SeqProofs FltProofs NumProofs SeqMore StoreProofs ParserRun FileProofs DataProofs ReadFile RecordSpec
  OnlySpec OnlyProofs Sample Sample2.
Open Scope string_scope.
Open Scope Z_scope.
Open Scope list_scope.
Open Scope monad_scope.

(** ** Two readings of a file *)
Lemma same_read only k bs segs h1 h2 w h1' h2' n :
  read_file only k bs segs h1 w h1' -> read_file only k bs segs h2 w h2' -> In n stored_types -> same_data h1' h2' w n.
Proof.
  intros R1 R2 Hn. apply read_outcome in R1 as (? & ? & ? & ? & _ & T1 & _). apply read_outcome in R2 as (? & ? & ? & ? & _ & T2 & _).
  eapply tables_same; eauto.
Qed.
(** The reading that [read_file] speaks of takes place. *)
Lemma top_reads only k bs segs h pre ft id g0 fr :
  file_of only k id false bs segs -> id <> 0 -> some_record segs -> 0 < g_batch g0 -> vacant h [pre ++ ft ++ str_of_Z id]%string ->
  exists s', parse_file only (mkP (mkIn k bs false fr) (set_prefix pre (set_ftid ft (reset true g0))) h) = Ok (tt, s') /\
    read_file only k bs segs h [pre ++ ft ++ str_of_Z id]%string (p_out s').
Proof.
  intros HF H1 H2 H3 H4. destruct (file_pos _ _ _ _ _ HF) as (p & HP).
  destruct (parse_top only k id bs segs p g0 h pre ft fr HF H1 H2 HP H3 H4) as (s' & E & _).
  exists s'. split; [exact E|]. econstructor; eassumption.
Qed.
Lemma sub_reads only k id bs segs g1 h fr p row0 rows row ihref t i l :
  file_of only k id true bs segs -> id <> 0 -> some_record segs -> 0 < g_batch g1 ->
  g_hashier g1 = true -> g_htab g1 = Some p -> (length p <= 2)%nat -> tab_rows p h = row0 :: rows ->
  nth_error row0 2 = Some (CI t) -> 1 <= ihref ->
  nth_error (row0 :: rows) (Z.to_nat (ihref - 1)) = Some row ->
  nth_error row 3 = Some (CI i) -> nth_error row 4 = Some (CI l) ->
  let idx := sub_index (g_ftid g1) row in
  let w := sub_group (g_prefix g1) (g_ftid g1) t id idx in
  vacant h w ->
  exists s', (dos set_current_ihref ihref; parse_file only) (mkP (mkIn k bs false fr) (reset false g1) h) = Ok (tt, s') /\
    read_file only k bs segs h w (p_out s').
Proof.
  intros HF H1 H2 H3 H4 H5 H6 H7 H8 H9 H10 H11 H12 idx w HV.
  destruct (parse_sub only k id bs segs g1 h fr p row0 rows row ihref t i l HF H1 H2 H3 H4 H5 H6 H7 H8 H9 H10 H11 H12 HV) as (s' & E & _).
  exists s'. split; [exact E|]. unfold w, idx. econstructor; eassumption.
Qed.
Lemma same_top only k bs segs pre ft id g0 g1 h0 h1 fr0 fr1 :
  let w := [pre ++ ft ++ str_of_Z id]%string in
  file_of only k id false bs segs -> id <> 0 -> some_record segs -> 0 < g_batch g0 -> 0 < g_batch g1 ->
  vacant h0 w -> vacant h1 w ->
  exists s0 s1,
    parse_file only (mkP (mkIn k bs false fr0) (set_prefix pre (set_ftid ft (reset true g0))) h0) = Ok (tt, s0) /\
    parse_file only (mkP (mkIn k bs false fr1) (set_prefix pre (set_ftid ft (reset true g1))) h1) = Ok (tt, s1) /\
    forall n, In n stored_types -> same_data (p_out s0) (p_out s1) w n.
Proof.
  intros w HF H1 H2 B0 B1 V0 V1.
  destruct (top_reads _ _ _ _ _ _ _ _ _ fr0 HF H1 H2 B0 V0) as (s0 & E0 & R0).
  destruct (top_reads _ _ _ _ _ _ _ _ _ fr1 HF H1 H2 B1 V1) as (s1 & E1 & R1).
  exists s0, s1. split; [exact E0|]. split; [exact E1|]. intros n Hn. eapply same_read; eauto.
Qed.
(** Whatever the content: only the element types and the batch size are left
    over from earlier conversions. *)
Lemma leftover only k bs pre ft g0 g1 h fr :
  g_elem g0 = g_elem g1 -> g_ielcor g0 = g_ielcor g1 -> g_batch g0 = g_batch g1 ->
  parse_file only (mkP (mkIn k bs false fr) (set_prefix pre (set_ftid ft (reset true g0))) h) =
  parse_file only (mkP (mkIn k bs false fr) (set_prefix pre (set_ftid ft (reset true g1))) h).
Proof. intros E1 E2 E3. unfold set_prefix, set_ftid, reset. cbn. now rewrite E1, E2, E3. Qed.

(** Another batch size. *)
Definition set_batch (b : Z) (g : glob) : glob :=
  mkG (g_ihref g) (g_indsel g) (g_seltyp g) (g_ftid g) (g_attop g) (g_prefix g) (g_hashier g) (g_htab g) (g_hrec g) b
      (g_tables g) (g_names g) (g_elem g) (g_points g) (g_nsp g) (g_compl g) (g_lenrec g) (g_ielcor g).

Lemma fits_exact n s c : fits n s c -> (length s <= n)%nat -> last s blank <> nul -> c = CS s.
Proof.
  intros (x & -> & z & E & _) L N. rewrite firstn_all2 in E by lia. f_equal. destruct z as [|z]; [now rewrite app_nil_r in E|].
  exfalso. apply N. rewrite E. replace (S z) with (z + 1)%nat by lia. rewrite repeat_app, app_assoc. apply last_last.
Qed.

(** ** Restriction *)
Lemma items_some segs : some_record segs <-> exists n its, In (Run n its) segs.
Proof. reflexivity. Qed.
Lemma run_of_items n segs it : In it (items_of n segs) -> some_record segs.
Proof.
  unfold items_of. intro H. apply in_flat_map in H as (s & Hs & Hi). destruct s as [m its| |]; try destruct Hi. exists m, its. exact Hs.
Qed.
Lemma only_top only k bs segs pre ft id g0 g1 h0 h1 fr0 fr1 x :
  let w := [pre ++ ft ++ str_of_Z id]%string in
  file_of [] k id false bs segs -> id <> 0 -> self_contained only segs -> skippable only k segs ->
  asked only x -> items_of x segs <> [] ->
  0 < g_batch g0 -> 0 < g_batch g1 -> vacant h0 w -> vacant h1 w ->
  exists s0 s1,
    parse_file [] (mkP (mkIn k bs false fr0) (set_prefix pre (set_ftid ft (reset true g0))) h0) = Ok (tt, s0) /\
    parse_file only (mkP (mkIn k bs false fr1) (set_prefix pre (set_ftid ft (reset true g1))) h1) = Ok (tt, s1) /\
    forall n, In n stored_types ->
      (asked only n -> same_data (p_out s0) (p_out s1) w n) /\ (~ asked only n -> no_data (p_out s1) w n).
Proof.
  intros w HF Hid (C1 & C2 & C3) HS Hx Ix B0 B1 V0 V1.
  destruct (file_only only k id false C3 bs segs HF HS C1) as (segs' & HF' & K & D).
  { destruct C2 as [C2|C2]; [right; exact C2|left; exact C2]. }
  assert (S0 : some_record segs) by (destruct (items_of x segs) as [|it its] eqn:E; [congruence|]; apply (run_of_items x segs it); rewrite E; now left).
  assert (S1 : some_record segs').
  { rewrite <- (K x Hx) in Ix. destruct (items_of x segs') as [|it its] eqn:E; [congruence|]; apply (run_of_items x segs' it); rewrite E; now left. }
  destruct (top_reads _ _ _ _ _ _ _ _ _ fr0 HF Hid S0 B0 V0) as (s0 & E0 & R0).
  destruct (top_reads _ _ _ _ _ _ _ _ _ fr1 HF' Hid S1 B1 V1) as (s1 & E1 & R1).
  exists s0, s1. split; [exact E0|]. split; [exact E1|]. intros n Hn.
  apply read_outcome in R0 as (? & ? & ? & ? & _ & T0 & _). apply read_outcome in R1 as (? & ? & ? & ? & _ & T1 & _). split.
  - intro A. eapply tables_same; [exact T0|exact T1|exact Hn|]. symmetry. exact (K n A).
  - intro A. specialize (T1 n Hn). unfold entries_of in T1. rewrite (D n A) in T1. exact T1.
Qed.

(** ** The sample files read *)
Lemma vacant_nil w : vacant [] w.
Proof. split; [intros q _; exact I|reflexivity]. Qed.
Lemma s_reads : exists h', read_file [] Fmt s_text s_segs [] ["R1"] h'.
Proof.
  destruct (top_reads [] Fmt s_text s_segs [] "" "R" 1 glob0 [] s_file ltac:(lia)) as (s & _ & H).
  - exists "GNODE", [s_node1; s_node2]. cbn. tauto.
  - reflexivity.
  - apply vacant_nil.
  - exists (p_out s). exact H.
Qed.
Lemma h_reads : exists h', read_file [] Fmt h_text h_segs [] ["G1"] h'.
Proof.
  destruct (top_reads [] Fmt h_text h_segs [] "" "G" 1 glob0 [] h_file ltac:(lia)) as (s & _ & H).
  - exists "W2HDRIFT", [h_hd]. cbn. tauto.
  - reflexivity.
  - apply vacant_nil.
  - exists (p_out s). exact H.
Qed.

(** A file below the top: superelement 2, at place 2 of the hierarchy. *)
Definition b_text : list ascii := fline "IDENT" [1; 2; 3; 0] ++ fline "GNODE" [1; 1; 6; 123456] ++ fline "IEND" [0; 0; 0; 0].
Definition b_ident := mkItem (fl [1; 2; 3; 0]) [] (mkEntry [PI 1; PI 2; PI 3] []).
Definition b_segs : list seg := [Run "IDENT" [b_ident]; Run "GNODE" [s_node1]; Look "IEND" (fl [0; 0; 0; 0]) []].
Lemma b_file_any sub : file_of [] Fmt 2 sub b_text b_segs.
Proof.
  unfold b_text, b_segs. do 4 eexists. split; [nh "IDENT" [1; 2; 3; 0]|].
  eapply reads_ident; [left; reflexivity|vm_compute; reflexivity|tr|tr|tr|reflexivity|apply putf_ok; vm_compute; reflexivity|nh "GNODE" [1; 1; 6; 123456]|].
  run (@nil Z).
  { change (fline "IEND" [0; 0; 0; 0]) with (i_bs s_node1 ++ fline "IEND" [0; 0; 0; 0] ++ []). one "IEND" [0; 0; 0; 0].
    eapply (lay_fixed _ _ _ "GNODE" 4 Lead0 (fl [1; 1; 6; 123456]) []); [cbn; tauto|reflexivity|now left|dl (@nil Z)]. }
  eapply reads_iend; [left; reflexivity|vm_compute; reflexivity].
Qed.
Lemma b_file : file_of [] Fmt 2 true b_text b_segs.
Proof. exact (b_file_any true). Qed.
(* the store and state after the top file, as far as they matter *)
Definition b_rows : list (list cell) := [map CI [9; 1; 1; 1; 2; 0; 0; 1; 0; 1]; map CI [8; 2; 2; 1; 1; 0; 1; 0; 0; 0]].
Definition b_h : h5 := [(["T1"], Group []); (["T1"; "hierarch"], Table [] b_rows)].
Definition b_g : glob := set_ftid "T" (set_top ["T1"; "hierarch"] [] glob0).

(** ** Where the reader fails *)
Definition conv (g : glob) (ft : string) (bs : list ascii) : Res (unit * pst) :=
  parse_file [] (mkP (open_in Fmt bs) (set_prefix "" (set_ftid ft (reset true g))) []).
Definition out_of (r : Res (unit * pst)) : h5 := match r with Ok (_, s) => p_out s | Err _ => [] end.
Definition ok_of (r : Res (unit * pst)) : bool := match r with Ok _ => true | Err _ => false end.

Definition c16_text : list ascii :=
  fline "IDENT" [1; 1; 3; 0] ++ fline "RDRESREF" [10; 1; 0; 0] ++ dlines [0; 1; 1; 1; 1; 1] ++
  fline "RVNODDIS" [17; 1; 1; 1] ++ dlines [0; 1; 2; 3; 4; 5; 6; 7; 8; 9; 10; 11; 12] ++ fline "IEND" [0; 0; 0; 0].
Definition c17_text : list ascii :=
  fline "IDENT" [1; 1; 3; 0] ++ fline "WDRESREF" [10; 1; 1; 2] ++ dlines [1; 30; 60; 2; 5; 6] ++
  fline "WDRESREF" [7; 2; 1; 1] ++ dlines [1; 90; 120] ++ fline "IEND" [0; 0; 0; 0].
Definition c18_text : list ascii :=
  fline "IDENT" [1; 1; 3; 0] ++ fline "GPIPE" [1; 10; 11; 12] ++ dlines [13; 14] ++
  fline "TDLOAD" [4; 3; 105; 0] ++ tline "        LIVE    " ++ fline "GNODE" [5; 5; 6; 123456] ++ fline "IEND" [0; 0; 0; 0].
Definition c20a_text : list ascii :=
  fline "IDENT" [1; 1; 3; 0] ++ fline "GELMNT1" [1; 1; 15; 0] ++ dlines [1; 2] ++ fline "IEND" [0; 0; 0; 0].
Definition c20b_text : list ascii :=
  fline "IDENT" [1; 1; 3; 0] ++ fline "GELREF1" [1; 1; 0; 0] ++ dlines [0; 0; 0; 0; -1; 0; 0; 0; 1; 2] ++ fline "IEND" [0; 0; 0; 0].

(** C16: twelve numbers on the record, six of them stored; and the records
    after it are not read. *)
Lemma complex_lost : ok_of (conv glob0 "R" c16_text) = true /\
  array_of (out_of (conv glob0 "R" c16_text)) ["R1"] "RVNODDIS" 0 = reals_ (fl [1; 2; 3; 4; 5; 6]) /\
  forall r, ~ found (out_of (conv glob0 "R" c16_text)) ["R1"] "RVNODDIS" 0 r (reals_ (fl [1; 2; 3; 4; 5; 6; 7; 8; 9; 10; 11; 12])).
Proof.
  set (o := out_of _). assert (E : array_of o ["R1"] "RVNODDIS" 0 = reals_ (fl [1; 2; 3; 4; 5; 6])) by (vm_compute; reflexivity).
  split; [vm_compute; reflexivity|]. split; [exact E|]. intros r (_ & _ & F). rewrite E in F. apply (f_equal (@length cell)) in F.
  unfold slice in F. rewrite firstn_length, skipn_length in F. unfold reals_, fl in F. rewrite !map_length in F. cbn [length] in F. lia.
Qed.
(** C17: the second reference lists directions only; the frequencies of the
    first are found with it. *)
Lemma stale_ranges : ok_of (conv glob0 "G" c17_text) = true /\
  exists rd rf rt, row_at (out_of (conv glob0 "G" c17_text)) ["G1"] "WDRESREF" 1 (map CI [7; 2; 1; 1]) [rd; rf; rt] /\
    slice rf (array_of (out_of (conv glob0 "G" c17_text)) ["G1"] "WDRESREF" 1) = reals2 [fl [5; 6]].
Proof. split; [vm_compute; reflexivity|]. exists (1, 2), (0, 1), (0, 0). split; vm_compute; reflexivity. Qed.
(** C18: the name of the record after the section is not in the list of allowed
    names. *)
Lemma successor_lost : conv glob0 "R" c18_text = Err ValueError.
Proof. vm_compute. reflexivity. Qed.
(** C20 *)
Lemma element_leak : exists s, conv glob0 "R" c20a_text = Ok (tt, s) /\
  conv glob0 "R" c20b_text = Err KeyError /\ ok_of (conv (p_g s) "R" c20b_text) = true /\
  array_of (out_of (conv (p_g s) "R" c20b_text)) ["R1"] "GELREF1" 0 = map CI [1; 2].
Proof.
  destruct (conv glob0 "R" c20a_text) as [[[] s]|] eqn:E.
  2:{ apply (f_equal ok_of) in E. vm_compute in E. discriminate. }
  exists s. split; [reflexivity|]. split; [vm_compute; reflexivity|].
  assert (G : p_g s = match conv glob0 "R" c20a_text with Ok (_, s) => p_g s | Err _ => glob0 end) by now rewrite E.
  rewrite G. clear. split; vm_compute; reflexivity.
Qed.

(** ** The structural sample restricted to some types *)
Definition s_only := ["HIERARCH"; "IDENT"; "GNODE"; "GELMNT1"; "IEND"].
Lemma rest_blanks n f fs next d bs : flt_lt f f0 = false -> prefix "TD" n = false -> d <> [] ->
  small (concat d) = true -> bs = flat_map (fline "") d -> rest_of_record Fmt n (f :: fs) next bs.
Proof.
  intros H1 H2 Hd Hs ->. destruct d as [|x d]; [congruence|].
  assert (S : Forall (fun zs => small zs = true) (x :: d)).
  { unfold small in *. rewrite forallb_forall in Hs. apply Forall_forall. intros z Hz. apply forallb_forall. intros y Hy. apply Hs.
    apply in_concat. eauto. }
  apply rest_blank with (p := pad8 "" ++ concat (map num16 x)) (ps := map (fun z => pad8 "" ++ concat (map num16 z)) d); auto.
  - intros q Hq. change (In q (map (fun z => pad8 "" ++ concat (map num16 z)) (x :: d))) in Hq. apply in_map_iff in Hq as (z & <- & _). eexists. reflexivity.
  - change (frames Fmt (map (fun z => pad8 "" ++ concat (map num16 z)) (x :: d)) (flat_map (fline "") (x :: d))).
    clear -S. induction S as [|z l Hz _ IH]; cbn [map flat_map]; constructor; [|exact IH].
    apply frame_fmt. apply graph_nonl. apply Forall_app. split; [apply repeat_graph|]. apply small_ok in Hz. exact (enc_nums_nonl _ _ (nums16 _ Hz)).
Qed.
Ltac unasked := right; intros it nxt HI HN.
Ltac blanks d := eapply (rest_blanks _ _ _ _ d); [vm_compute; reflexivity|reflexivity|discriminate|reflexivity|vm_compute; reflexivity].
Lemma s_skippable : skippable s_only Fmt s_segs.
Proof.
  unfold s_segs, s_only. cbn [skippable hd_name].
  split; [left; right; mem|]. split; [left; right; mem|].
  split; [unasked; destruct HI as [<-|[]]|].
  { eapply (rest_blank _ _ _ _ _ _ [_]); [vm_compute; reflexivity|reflexivity| |apply frames1; [reflexivity|apply frames1; [reflexivity|constructor]]].
    intros q [<-|[<-|[]]]; eexists; reflexivity. }
  split; [unasked; destruct HI as [<-|[]]|].
  { eapply (rest_td _ _ _ _ _ _ _ _ 105 0 [_]); [vm_compute; reflexivity|reflexivity|vm_compute; reflexivity|vm_compute; reflexivity|reflexivity|].
    apply (frames1 "        DECK1   "); [reflexivity|constructor]. }
  split; [left; right; mem|].
  split; [unasked; destruct HI as [<-|[<-|[]]]; (eapply rest_plain; [vm_compute; reflexivity|reflexivity|destruct HN as [->| ->]; mem])|].
  split; [left; right; mem|].
  split; [unasked; destruct HI as [<-|[]]; blanks [[0; 0; 0; 0]; [-1; 0; 0; 0]; [1; 2]]|].
  split; [unasked; destruct HI as [<-|[<-|[]]]; [blanks [[1; 1]]|blanks [[1; 1; 4; 5]]]|].
  split; [unasked; destruct HI as [<-|[]]; blanks [[0; 1; 2; 3]]|].
  split; [unasked; destruct HI as [<-|[]]; blanks (chunk4 [15; 1; 10102; 1; 0; 1; 1; 2; 3; -2; 1; 0; 0; 0; 1; 0; 0; 0; 1])|].
  split; [unasked; destruct HI as [<-|[]]; blanks (chunk4 [0; 0; 1; 1; 1; 1])|].
  split; [unasked; destruct HI as [<-|[<-|[]]]; [blanks (chunk4 [0; 1; 2; 3; 4; 5; 6])|blanks (chunk4 [0; 7; 8; 9; 10; 11; 12])]|].
  split; [left; right; mem|exact I].
Qed.
Lemma s_self_contained : self_contained s_only s_segs.
Proof.
  split; [right; mem|]. split; [right; right; mem|]. intros a b H [A|A]; [discriminate|exfalso].
  unfold s_only in A. revert H. cbn in A. repeat (destruct A as [<-|A]; [cbn; intuition congruence|]). destruct A.
Qed.
