(** * ReadFile: a file read into a store, at the top or below. *)
From Verif Require Import Base Flt SeqFile H5 Schema Parsers SeqSpec StoreSpec ParserSpec LayoutSpec FileSpec DataSpec
  StoreProofs ParserRun FileProofs DataProofs.
Open Scope string_scope.
Open Scope Z_scope.
Open Scope list_scope.
Open Scope monad_scope.

(** [read_file only k bs segs h w h']: parse_file reads the file [bs] of kind [k]
    with the records [segs] and takes the store [h] to [h'], the group being
    [w].  The state left by earlier conversions is [g0] (or, for a file below the
    top, [g1], which knows the hierarchy table). *)
Inductive read_file (only : list string) (k : kind) (bs : list ascii) (segs : list seg) (h : h5) : path -> h5 -> Prop :=
| read_top g0 pre ft id fr s' :
    file_of only k id false bs segs -> id <> 0 -> some_record segs -> 0 < g_batch g0 ->
    vacant h [pre ++ ft ++ str_of_Z id]%string ->
    parse_file only (mkP (mkIn k bs false fr) (set_prefix pre (set_ftid ft (reset true g0))) h) = Ok (tt, s') ->
    read_file only k bs segs h [pre ++ ft ++ str_of_Z id]%string (p_out s')
| read_sub g1 id fr p row0 rows row ihref t i l s' :
    file_of only k id true bs segs -> id <> 0 -> some_record segs -> 0 < g_batch g1 ->
    g_hashier g1 = true -> g_htab g1 = Some p -> (length p <= 2)%nat -> tab_rows p h = row0 :: rows ->
    nth_error row0 2 = Some (CI t) -> 1 <= ihref ->
    nth_error (row0 :: rows) (Z.to_nat (ihref - 1)) = Some row ->
    nth_error row 3 = Some (CI i) -> nth_error row 4 = Some (CI l) ->
    vacant h (sub_group (g_prefix g1) (g_ftid g1) t id (sub_index (g_ftid g1) row)) ->
    (dos set_current_ihref ihref; parse_file only) (mkP (mkIn k bs false fr) (reset false g1) h) = Ok (tt, s') ->
    read_file only k bs segs h (sub_group (g_prefix g1) (g_ftid g1) t id (sub_index (g_ftid g1) row)) (p_out s').

Lemma read_outcome only k bs segs h w h' : read_file only k bs segs h w h' ->
  exists ft id idx p, (exists sub, file_of only k id sub bs segs) /\ outcome h h' w ft id idx p segs.
Proof.
  destruct 1 as [g0 pre ft id fr s' HF Hid HS Hb HV E
                |g1 id fr p row0 rows row ihref t i l s' HF Hid HS Hb H1 H2 H3 H4 H5 H6 H7 H8 H9 HV E].
  - destruct (file_pos _ _ _ _ _ HF) as (p & HP).
    destruct (parse_top only k id bs segs p g0 h pre ft fr HF Hid HS HP Hb HV) as (s2 & E2 & O).
    rewrite E in E2. injection E2 as <-. exists ft, id, None, p. eauto.
  - destruct (parse_sub only k id bs segs g1 h fr p row0 rows row ihref t i l HF Hid HS Hb H1 H2 H3 H4 H5 H6 H7 H8 H9 HV) as (s2 & E2 & O).
    rewrite E in E2. injection E2 as <-. exists (g_ftid g1), id, (sub_index (g_ftid g1) row), (Below l). eauto.
Qed.

Lemma read_records only k bs segs h w h' n : read_file only k bs segs h w h' -> In n stored_types ->
  length (tab_rows (tpath w n) h') = length (items_of n segs) /\
  (forall j it, nth_error (items_of n segs) j = Some it -> has_record h' w n j (i_entry it)) /\
  (items_of n segs <> [] -> exists con, holds h' w n con /\ laid_out n (entries_of n segs) con).
Proof.
  intros HR Hn. destruct (read_outcome _ _ _ _ _ _ _ HR) as (ft & id & idx & p & _ & T & _). specialize (T n Hn).
  destruct (items_of n segs) as [|it its] eqn:E; unfold entries_of in *; rewrite E in *; cbn [map] in *.
  - split; [|split]; [|intros [|j] x H; discriminate|congruence]. unfold tab_rows. now rewrite T by now left.
  - destruct T as (con & P & H). apply put_laid_out in P. pose proof P as (L1 & _). split; [|split].
    + unfold tab_rows. rewrite (proj1 H). rewrite L1. cbn. now rewrite map_length.
    + intros j x Hj. eapply laid_out_record; [exact H|exact P|]. change (i_entry it :: map i_entry its) with (map i_entry (it :: its)).
      rewrite nth_error_map, Hj. reflexivity.
    + intros _. exists con. split; [exact H|exact P].
Qed.
Lemma read_item only k bs segs h w h' n j it : read_file only k bs segs h w h' -> In n laid_types ->
  nth_error (items_of n segs) j = Some it -> exists kinds c rest c', layout kinds k c n it rest c'.
Proof.
  intros HR Hn Hj. destruct (read_outcome _ _ _ _ _ _ _ HR) as (ft & id & idx & p & (sub & HF) & _). eapply file_item; eauto.
Qed.
