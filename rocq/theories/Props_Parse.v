(** * Properties of the parser: C05, C08-C21, C51

    [read_file only k bs segs h w h'] (ReadFile): parse_file reads the file [bs] of
    kind [k] with the records [segs] ([file_of], FileSpec) and takes the store [h]
    to [h'], the group being [w].  That the reading succeeds is C09_succeeds. *)
From Verif Require Import Base Flt SeqFile H5 Schema Parsers SeqSpec StoreSpec ParserSpec LayoutSpec FileSpec DataSpec
  RecordSpec OnlySpec ParserTerm FileProofs ReadFile RecordProofs RecordMore OnlyProofs Sample Sample2 ParseMore.
Open Scope string_scope.
Open Scope Z_scope.
Open Scope list_scope.
Open Scope monad_scope.

(** C05.  [OutOfFuel] stands for a loop that has not come to an end. *)
Theorem C05_terminates : forall only k bs g h,
  parse_file only (mkP (open_in k bs) g h) <> Err OutOfFuel.
Proof. intros. apply parse_file_finishes. Qed.
Print Assumptions C05_terminates.
Example C05_case : parse_file [] (mkP (open_in Fmt (s2l "GCOORD  xyz")) glob0 []) = Err ValueError.
Proof. vm_compute. reflexivity. Qed.

(** C08 *)
Theorem C08_row_count : forall only k bs segs h w h' n,
  read_file only k bs segs h w h' -> In n stored_types ->
  length (tab_rows (tpath w n) h') = length (items_of n segs).
Proof. intros only k bs segs h w h' n HR Hn. exact (proj1 (read_records _ _ _ _ _ _ _ _ HR Hn)). Qed.
Print Assumptions C08_row_count.
Theorem C08_fixed : forall only k bs segs h w h' n nc ld j it,
  read_file only k bs segs h w h' -> In (n, nc, ld) fixed_types -> nth_error (items_of n segs) j = Some it ->
  fixed_stored n nc ld k h' w j it.
Proof. intros only k bs segs h w h' n nc ld j it HR. exact (fixed_record _ _ _ _ _ _ _ HR n nc ld j it). Qed.
Print Assumptions C08_fixed.
(* two nodes, two coordinates; the last one is missing two numbers *)
Example C08_case : exists h', read_file [] Fmt s_text s_segs [] ["R1"] h' /\
  fixed_stored "GCOORD" 4 Lead0 Fmt h' ["R1"] 1 s_coord2 /\ length (tab_rows (tpath ["R1"] "GCOORD") h') = 2%nat.
Proof.
  destruct s_reads as (h' & H). exists h'. split; [exact H|]. split.
  - eapply C08_fixed; [exact H|cbn; tauto|reflexivity].
  - exact (C08_row_count _ _ _ _ _ _ _ "GCOORD" H ltac:(mem)).
Qed.

(** C09.  The reading takes place, at the top or below it. *)
Theorem C09_succeeds : forall only k bs segs h pre ft id g0 fr,
  file_of only k id false bs segs -> id <> 0 -> some_record segs -> 0 < g_batch g0 -> vacant h [pre ++ ft ++ str_of_Z id]%string ->
  exists s', parse_file only (mkP (mkIn k bs false fr) (set_prefix pre (set_ftid ft (reset true g0))) h) = Ok (tt, s') /\
    read_file only k bs segs h [pre ++ ft ++ str_of_Z id]%string (p_out s').
Proof. exact top_reads. Qed.
Print Assumptions C09_succeeds.
Theorem C09_succeeds_below : forall only k id bs segs g1 h fr p row0 rows row ihref t i l,
  file_of only k id true bs segs -> id <> 0 -> some_record segs -> 0 < g_batch g1 ->
  g_hashier g1 = true -> g_htab g1 = Some p -> (length p <= 2)%nat -> tab_rows p h = row0 :: rows ->
  nth_error row0 2 = Some (CI t) -> 1 <= ihref ->
  nth_error (row0 :: rows) (Z.to_nat (ihref - 1)) = Some row ->
  nth_error row 3 = Some (CI i) -> nth_error row 4 = Some (CI l) ->
  let idx := sub_index (g_ftid g1) row in
  let w := sub_group (g_prefix g1) (g_ftid g1) t id idx in
  vacant h w ->
  exists s', (dos set_current_ihref ihref; parse_file only) (mkP (mkIn k bs false fr) (reset false g1) h) = Ok (tt, s') /\
    read_file only k bs segs h w (p_out s').
Proof. exact sub_reads. Qed.
Print Assumptions C09_succeeds_below.
Example C09_case_below : exists s', (dos set_current_ihref 2; parse_file []) (mkP (mkIn Fmt b_text false []) (reset false b_g) b_h) = Ok (tt, s') /\
  read_file [] Fmt b_text b_segs b_h ["T1"; "T2"] (p_out s').
Proof.
  apply (C09_succeeds_below [] Fmt 2 b_text b_segs b_g b_h [] ["T1"; "hierarch"] (map CI [9; 1; 1; 1; 2; 0; 0; 1; 0; 1])
    [map CI [8; 2; 2; 1; 1; 0; 1; 0; 0; 0]] (map CI [8; 2; 2; 1; 1; 0; 1; 0; 0; 0]) 2 1 1 1); try exact b_file; try reflexivity; try discriminate.
  - exists "GNODE", [s_node1]. cbn. tauto.
  - split.
    + intros q (a & Q & E). change (sub_group _ _ _ _ _) with ["T1"; "T2"] in E. destruct q as [|x [|y [|]]]; [congruence| | |discriminate]; [injection E as <- _; exact I|injection E as <- <- _; exact I].
    + intros q Q. vm_compute in Q. repeat (destruct Q as [<-|Q]; [reflexivity|]). destruct Q.
Qed.
(** Slicing an array with the range of a row gives the data of its record. *)
Theorem C09_own_data : forall only k bs segs h w h' n j it,
  read_file only k bs segs h w h' -> In n stored_types -> nth_error (items_of n segs) j = Some it ->
  has_record h' w n j (i_entry it).
Proof. intros only k bs segs h w h' n j it HR Hn. exact (proj1 (proj2 (read_records _ _ _ _ _ _ _ _ HR Hn)) j it). Qed.
Print Assumptions C09_own_data.
(** The ranges follow each other and cover the arrays. *)
Theorem C09_ranges : forall only k bs segs h w h' n,
  read_file only k bs segs h w h' -> In n stored_types -> items_of n segs <> [] ->
  exists con, holds h' w n con /\ laid_out n (entries_of n segs) con.
Proof. intros only k bs segs h w h' n HR Hn. exact (proj2 (proj2 (read_records _ _ _ _ _ _ _ _ HR Hn))). Qed.
Print Assumptions C09_ranges.
Example C09_case : exists h', read_file [] Fmt s_text s_segs [] ["R1"] h' /\
  has_record h' ["R1"] "RVNODDIS" 1 (i_entry s_dis2) /\ has_record h' ["R1"] "HIERARCH" 0 (i_entry s_hier2).
Proof.
  destruct s_reads as (h' & H). exists h'. split; [exact H|].
  split; (eapply C09_own_data; [exact H|mem|reflexivity]).
Qed.

(** C10.  Also C20 for files that are what they should be: states left by
    earlier conversions and batch sizes make no difference. *)
Theorem C10_batch : forall only k bs segs pre ft id g0 g1 h0 h1 fr0 fr1,
  let w := [pre ++ ft ++ str_of_Z id]%string in
  file_of only k id false bs segs -> id <> 0 -> some_record segs -> 0 < g_batch g0 -> 0 < g_batch g1 ->
  vacant h0 w -> vacant h1 w ->
  exists s0 s1,
    parse_file only (mkP (mkIn k bs false fr0) (set_prefix pre (set_ftid ft (reset true g0))) h0) = Ok (tt, s0) /\
    parse_file only (mkP (mkIn k bs false fr1) (set_prefix pre (set_ftid ft (reset true g1))) h1) = Ok (tt, s1) /\
    forall n, In n stored_types -> same_data (p_out s0) (p_out s1) w n.
Proof. exact same_top. Qed.
Print Assumptions C10_batch.
Theorem C10_same : forall only k bs segs h1 h2 w h1' h2' n,
  read_file only k bs segs h1 w h1' -> read_file only k bs segs h2 w h2' -> In n stored_types -> same_data h1' h2' w n.
Proof. exact same_read. Qed.
Print Assumptions C10_same.
(* batches of one and of two records *)
Example C10_case : forall b c, 0 < b -> 0 < c -> exists s0 s1,
  parse_file [] (mkP (mkIn Fmt s_text false []) (set_prefix "" (set_ftid "R" (reset true (set_batch b glob0)))) []) = Ok (tt, s0) /\
  parse_file [] (mkP (mkIn Fmt s_text false []) (set_prefix "" (set_ftid "R" (reset true (set_batch c glob0)))) []) = Ok (tt, s1) /\
  forall n, In n stored_types -> same_data (p_out s0) (p_out s1) ["R1"] n.
Proof.
  intros b c Hb Hc. apply (C10_batch [] Fmt s_text s_segs "" "R" 1); try assumption; try exact s_file; try lia; try apply vacant_nil.
  exists "GNODE", [s_node1; s_node2]. cbn. tauto.
Qed.

(** C11 *)
Theorem C11_element : forall only k bs segs h w h' j it,
  read_file only k bs segs h w h' -> nth_error (items_of "GELMNT1" segs) j = Some it -> element_stored k h' w j it.
Proof. intros only k bs segs h w h' j it HR. exact (element_record _ _ _ _ _ _ _ HR j it). Qed.
Print Assumptions C11_element.
Example C11_case : exists h', read_file [] Fmt s_text s_segs [] ["R1"] h' /\ element_stored Fmt h' ["R1"] 0 s_elem.
Proof. destruct s_reads as (h' & H). exists h'. split; [exact H|]. eapply C11_element; [exact H|reflexivity]. Qed.

(** C12 *)
Theorem C12_set : forall only k bs segs h w h' j it,
  read_file only k bs segs h w h' -> nth_error (items_of "GSETMEMB" segs) j = Some it -> set_stored k h' w j it.
Proof. intros only k bs segs h w h' j it HR. exact (set_record _ _ _ _ _ _ _ HR j it). Qed.
Print Assumptions C12_set.
Example C12_case : exists h', read_file [] Fmt s_text s_segs [] ["R1"] h' /\ set_stored Fmt h' ["R1"] 0 s_set.
Proof. destruct s_reads as (h' & H). exists h'. split; [exact H|]. eapply C12_set; [exact H|reflexivity]. Qed.

(** C13.  Names and text lines of up to 64, of date and text records up to 72
    characters; longer ones are cut ([fits]). *)
Theorem C13_name : forall only k bs segs h w h' n j it,
  read_file only k bs segs h w h' -> In n name_types -> nth_error (items_of n segs) j = Some it -> name_stored n k h' w j it.
Proof. intros only k bs segs h w h' n j it HR. exact (name_record _ _ _ _ _ _ _ HR n j it). Qed.
Print Assumptions C13_name.
Theorem C13_text : forall only k bs segs h w h' n j it,
  read_file only k bs segs h w h' -> In n text_types -> nth_error (items_of n segs) j = Some it -> text_stored n k h' w j it.
Proof. intros only k bs segs h w h' n j it HR. exact (text_record _ _ _ _ _ _ _ HR n j it). Qed.
Print Assumptions C13_text.
Theorem C13_exact : forall n s c, fits n s c -> (length s <= n)%nat -> last s blank <> nul -> c = CS s.
Proof. exact fits_exact. Qed.
Print Assumptions C13_exact.
Example C13_case : exists h', read_file [] Fmt s_text s_segs [] ["R1"] h' /\
  name_stored "TDSETNAM" Fmt h' ["R1"] 0 s_name /\ text_stored "DATE" Fmt h' ["R1"] 0 s_date.
Proof.
  destruct s_reads as (h' & H). exists h'. split; [exact H|].
  split; [eapply C13_name|eapply C13_text]; try exact H; try reflexivity; mem.
Qed.

(** C14 *)
Theorem C14_six : forall only k bs segs h w h' n j it,
  read_file only k bs segs h w h' -> In n six_types -> nth_error (items_of n segs) j = Some it -> six_stored n k h' w j it.
Proof. intros only k bs segs h w h' n j it HR. exact (six_record _ _ _ _ _ _ _ HR n j it). Qed.
Print Assumptions C14_six.
Theorem C14_section_force : forall only k bs segs h w h' j it,
  read_file only k bs segs h w h' -> nth_error (items_of "W1SFORCE" segs) j = Some it -> section_force_stored k h' w j it.
Proof. intros only k bs segs h w h' j it HR. exact (section_force_record _ _ _ _ _ _ _ HR j it). Qed.
Print Assumptions C14_section_force.
Theorem C14_drift : forall only k bs segs h w h' n m j it,
  read_file only k bs segs h w h' -> In (n, m) [("W2HDRIFT", 3%nat); ("W2MDRIFT", 6%nat)] ->
  nth_error (items_of n segs) j = Some it -> drift_stored n m k h' w j it.
Proof. intros only k bs segs h w h' n m j it HR. exact (drift_record _ _ _ _ _ _ _ HR n m j it). Qed.
Print Assumptions C14_drift.
Theorem C14_kinematics : forall only k bs segs h w h' j it,
  read_file only k bs segs h w h' -> nth_error (items_of "WFLUIDKN" segs) j = Some it -> kinematics_stored k h' w j it.
Proof. intros only k bs segs h w h' j it HR. exact (kinematics_record _ _ _ _ _ _ _ HR j it). Qed.
Print Assumptions C14_kinematics.
Theorem C14_panel : forall only k bs segs h w h' j it,
  read_file only k bs segs h w h' -> nth_error (items_of "W1PANPRE" segs) j = Some it -> panel_stored k h' w j it.
Proof. intros only k bs segs h w h' j it HR. exact (panel_record _ _ _ _ _ _ _ HR j it). Qed.
Print Assumptions C14_panel.
(* a complex and a real response *)
Example C14_case : exists h', read_file [] Fmt h_text h_segs [] ["G1"] h' /\
  six_stored "W1MOTION" Fmt h' ["G1"] 0 h_mot1 /\ six_stored "W1MOTION" Fmt h' ["G1"] 1 h_mot2 /\
  section_force_stored Fmt h' ["G1"] 0 h_sf /\ drift_stored "W2HDRIFT" 3 Fmt h' ["G1"] 0 h_hd /\
  kinematics_stored Fmt h' ["G1"] 0 h_fk /\ panel_stored Fmt h' ["G1"] 0 h_pp.
Proof.
  destruct h_reads as (h' & H). exists h'. split; [exact H|].
  split; [eapply C14_six; [exact H|mem|reflexivity]|]. split; [eapply C14_six; [exact H|mem|reflexivity]|].
  split; [eapply C14_section_force; [exact H|reflexivity]|]. split; [eapply C14_drift; [exact H|cbn; tauto|reflexivity]|].
  split; [eapply C14_kinematics; [exact H|reflexivity]|eapply C14_panel; [exact H|reflexivity]].
Qed.

(** C15 *)
Theorem C15_points : forall only k bs segs h w h' j it,
  read_file only k bs segs h w h' -> nth_error (items_of "RDPOINTS" segs) j = Some it -> points_stored k h' w j it.
Proof. intros only k bs segs h w h' j it HR. exact (points_record _ _ _ _ _ _ _ HR j it). Qed.
Print Assumptions C15_points.
Example C15_case : exists h', read_file [] Fmt s_text s_segs [] ["R1"] h' /\ points_stored Fmt h' ["R1"] 0 s_points.
Proof. destruct s_reads as (h' & H). exists h'. split; [exact H|]. eapply C15_points; [exact H|reflexivity]. Qed.

(** C16.  Real results are stored completely, complex ones are not. *)
Theorem C16_real_partial : forall only k bs segs h w h' n j it,
  read_file only k bs segs h w h' -> In n nodres_types -> nth_error (items_of n segs) j = Some it -> noderes_stored n k h' w j it.
Proof. intros only k bs segs h w h' n j it HR. exact (noderes_record _ _ _ _ _ _ _ HR n j it). Qed.
Print Assumptions C16_real_partial.
Theorem C16_complex_refuted : ok_of (conv glob0 "R" c16_text) = true /\
  array_of (out_of (conv glob0 "R" c16_text)) ["R1"] "RVNODDIS" 0 = reals_ (fl [1; 2; 3; 4; 5; 6]) /\
  forall r, ~ found (out_of (conv glob0 "R" c16_text)) ["R1"] "RVNODDIS" 0 r (reals_ (fl [1; 2; 3; 4; 5; 6; 7; 8; 9; 10; 11; 12])).
Proof. exact complex_lost. Qed.
Print Assumptions C16_complex_refuted.
Example C16_case : exists h', read_file [] Fmt s_text s_segs [] ["R1"] h' /\ noderes_stored "RVNODDIS" Fmt h' ["R1"] 1 s_dis2.
Proof. destruct s_reads as (h' & H). exists h'. split; [exact H|]. eapply C16_real_partial; [exact H|mem|reflexivity]. Qed.

(** C17.  For runs of references that list the same kinds. *)
Theorem C17_same_kinds_partial : forall only k bs segs h w h' j it,
  read_file only k bs segs h w h' -> nth_error (items_of "WDRESREF" segs) j = Some it -> resref_stored k h' w j it.
Proof. intros only k bs segs h w h' j it HR. exact (resref_record _ _ _ _ _ _ _ HR j it). Qed.
Print Assumptions C17_same_kinds_partial.
Theorem C17_refuted : ok_of (conv glob0 "G" c17_text) = true /\
  exists rd rf rt, row_at (out_of (conv glob0 "G" c17_text)) ["G1"] "WDRESREF" 1 (map CI [7; 2; 1; 1]) [rd; rf; rt] /\
    slice rf (array_of (out_of (conv glob0 "G" c17_text)) ["G1"] "WDRESREF" 1) = reals2 [fl [5; 6]].
Proof. exact stale_ranges. Qed.
Print Assumptions C17_refuted.
Example C17_case : exists h', read_file [] Fmt h_text h_segs [] ["G1"] h' /\
  resref_stored Fmt h' ["G1"] 0 h_ref1 /\ resref_stored Fmt h' ["G1"] 1 h_ref2.
Proof.
  destruct h_reads as (h' & H). exists h'. split; [exact H|].
  split; (eapply C17_same_kinds_partial; [exact H|reflexivity]).
Qed.

(** C18.  With the optional numbers, or without them and followed by a record
    of an allowed name. *)
Theorem C18_section_partial : forall only k bs segs h w h' n nc no j it,
  read_file only k bs segs h w h' -> In (n, nc, no) section_types -> nth_error (items_of n segs) j = Some it ->
  section_stored n nc no k h' w j it.
Proof. intros only k bs segs h w h' n nc no j it HR. exact (section_record _ _ _ _ _ _ _ HR n nc no j it). Qed.
Print Assumptions C18_section_partial.
Theorem C18_refuted : conv glob0 "R" c18_text = Err ValueError.
Proof. exact successor_lost. Qed.
Print Assumptions C18_refuted.
Example C18_case : exists h', read_file [] Fmt s_text s_segs [] ["R1"] h' /\
  section_stored "GPIPE" 8 2 Fmt h' ["R1"] 0 s_pipe1 /\ section_stored "GPIPE" 8 2 Fmt h' ["R1"] 1 s_pipe2.
Proof.
  destruct s_reads as (h' & H). exists h'. split; [exact H|].
  split; (eapply C18_section_partial; [exact H|cbn; tauto|reflexivity]).
Qed.

(** C19 *)
Theorem C19_only : forall only k bs segs pre ft id g0 g1 h0 h1 fr0 fr1 x,
  let w := [pre ++ ft ++ str_of_Z id]%string in
  file_of [] k id false bs segs -> id <> 0 -> self_contained only segs -> skippable only k segs ->
  asked only x -> items_of x segs <> [] ->
  0 < g_batch g0 -> 0 < g_batch g1 -> vacant h0 w -> vacant h1 w ->
  exists s0 s1,
    parse_file [] (mkP (mkIn k bs false fr0) (set_prefix pre (set_ftid ft (reset true g0))) h0) = Ok (tt, s0) /\
    parse_file only (mkP (mkIn k bs false fr1) (set_prefix pre (set_ftid ft (reset true g1))) h1) = Ok (tt, s1) /\
    forall n, In n stored_types ->
      (asked only n -> same_data (p_out s0) (p_out s1) w n) /\ (~ asked only n -> no_data (p_out s1) w n).
Proof. exact only_top. Qed.
Print Assumptions C19_only.
Example C19_case : exists s0 s1,
  parse_file [] (mkP (mkIn Fmt s_text false []) (set_prefix "" (set_ftid "R" (reset true glob0))) []) = Ok (tt, s0) /\
  parse_file s_only (mkP (mkIn Fmt s_text false []) (set_prefix "" (set_ftid "R" (reset true glob0))) []) = Ok (tt, s1) /\
  forall n, In n stored_types ->
    (asked s_only n -> same_data (p_out s0) (p_out s1) ["R1"] n) /\ (~ asked s_only n -> no_data (p_out s1) ["R1"] n).
Proof.
  apply (C19_only s_only Fmt s_text s_segs "" "R" 1 glob0 glob0 [] [] [] [] "GNODE");
    try exact s_file; try exact s_self_contained; try exact s_skippable; try apply vacant_nil; try reflexivity; try discriminate.
  right; mem.
Qed.

(** C20.  Whatever the content, the outcome depends on earlier conversions only
    through the element types (and the batch size, which is never changed); for
    files as they should be not at all (C10_batch). *)
Theorem C20_leftover_partial : forall only k bs pre ft g0 g1 h fr,
  g_elem g0 = g_elem g1 -> g_ielcor g0 = g_ielcor g1 -> g_batch g0 = g_batch g1 ->
  parse_file only (mkP (mkIn k bs false fr) (set_prefix pre (set_ftid ft (reset true g0))) h) =
  parse_file only (mkP (mkIn k bs false fr) (set_prefix pre (set_ftid ft (reset true g1))) h).
Proof. exact leftover. Qed.
Print Assumptions C20_leftover_partial.
Theorem C20_refuted : exists s, conv glob0 "R" c20a_text = Ok (tt, s) /\
  conv glob0 "R" c20b_text = Err KeyError /\ ok_of (conv (p_g s) "R" c20b_text) = true /\
  array_of (out_of (conv (p_g s) "R" c20b_text)) ["R1"] "GELREF1" 0 = map CI [1; 2].
Proof. exact element_leak. Qed.
Print Assumptions C20_refuted.

(** C21 *)
Theorem C21_labels_top : forall only k id bs segs pos g0 h pre ft fr,
  file_of only k id false bs segs -> id <> 0 -> some_record segs -> top_pos segs pos ->
  0 < g_batch g0 -> vacant h [pre ++ ft ++ str_of_Z id]%string ->
  exists s', parse_file only (mkP (mkIn k bs false fr) (set_prefix pre (set_ftid ft (reset true g0))) h) = Ok (tt, s') /\
    outcome h (p_out s') [pre ++ ft ++ str_of_Z id]%string ft id None pos segs.
Proof. exact parse_top. Qed.
Print Assumptions C21_labels_top.
Theorem C21_labels_below : forall only k id bs segs g1 h fr p row0 rows row ihref t i l,
  file_of only k id true bs segs -> id <> 0 -> some_record segs -> 0 < g_batch g1 ->
  g_hashier g1 = true -> g_htab g1 = Some p -> (length p <= 2)%nat -> tab_rows p h = row0 :: rows ->
  nth_error row0 2 = Some (CI t) -> 1 <= ihref ->
  nth_error (row0 :: rows) (Z.to_nat (ihref - 1)) = Some row ->
  nth_error row 3 = Some (CI i) -> nth_error row 4 = Some (CI l) ->
  let idx := sub_index (g_ftid g1) row in
  let w := sub_group (g_prefix g1) (g_ftid g1) t id idx in
  vacant h w ->
  exists s', (dos set_current_ihref ihref; parse_file only) (mkP (mkIn k bs false fr) (reset false g1) h) = Ok (tt, s') /\
    outcome h (p_out s') w (g_ftid g1) id idx (Below l) segs.
Proof. exact parse_sub. Qed.
Print Assumptions C21_labels_below.
Example C21_case : exists s',
  parse_file [] (mkP (mkIn Fmt s_text false []) (set_prefix "" (set_ftid "R" (reset true glob0))) []) = Ok (tt, s') /\
  outcome [] (p_out s') ["R1"] "R" 1 None (Top 2) s_segs.
Proof.
  apply (C21_labels_top [] Fmt 1 s_text s_segs (Top 2) glob0 [] "" "R" []); try exact s_file; try apply vacant_nil; try reflexivity; try discriminate.
  - exists "GNODE", [s_node1; s_node2]. cbn. tauto.
  - eapply (top_some s_segs (i_entry s_hier2) [i_entry s_hier1] (f_of_Z 2)); [reflexivity|reflexivity|tr].
Qed.

(** C51.  The superelement number [id] is the third number of the first
    hierarchy record (reads_hierarch in FileSpec), and names the group (C21). *)
Theorem C51_hierarchy : forall only k bs segs h w h' j it,
  read_file only k bs segs h w h' -> nth_error (items_of "HIERARCH" segs) j = Some it -> hierarchy_stored k h' w j it.
Proof. intros only k bs segs h w h' j it HR. exact (hierarchy_record _ _ _ _ _ _ _ HR j it). Qed.
Print Assumptions C51_hierarchy.
Example C51_case : exists h', read_file [] Fmt s_text s_segs [] ["R1"] h' /\
  hierarchy_stored Fmt h' ["R1"] 0 s_hier2 /\ hierarchy_stored Fmt h' ["R1"] 1 s_hier1.
Proof.
  destruct s_reads as (h' & H). exists h'. split; [exact H|]. split; (eapply C51_hierarchy; [exact H|reflexivity]).
Qed.
