(** * AssemblyProofs: the files of an assembly are read, and found when it is opened *)
From Verif Require Import Base Flt SeqFile H5 Schema Parsers Data Files SifName Convert SeqSpec StoreSpec ParserSpec LayoutSpec FileSpec DataSpec
  ListFacts StoreProofs ParserRun FileProofs DataProofs SifNameSpec SifNameProofs ConvertSpec AssemblySpec ConvertFrame ConvertProofs DecFacts.
Open Scope string_scope.
Open Scope Z_scope.
Open Scope list_scope.
Open Scope monad_scope.

(* ---- paths ---- *)
Lemma own_under w n q : In q (own w n) -> exists s, q = w ++ [s].
Proof.
  intros [<-|H]; [now eexists|]. unfold apaths in H. apply in_map_iff in H as (x & <- & _). now eexists.
Qed.
Lemma all_own_under w q : In q (all_own w) -> exists s, q = w ++ [s].
Proof. intros H. apply in_flat_map in H as (n & _ & H). eapply own_under; eassumption. Qed.
Definition lower_first (s : string) : bool := match s with String c _ => ((97 <=? Z.of_nat (nat_of_ascii c)) && (Z.of_nat (nat_of_ascii c) <=? 122))%bool | EmptyString => false end.
Lemma own_lower w q s : In q (all_own w) -> q = w ++ [s] -> lower_first s = true.
Proof.
  intros H E. apply in_flat_map in H as (n & Hn & H).
  assert (A : forallb (fun n => forallb lower_first (map (fun q => last q "") (own [] n))) stored_types = true) by (vm_compute; reflexivity).
  rewrite forallb_forall in A. specialize (A n Hn). rewrite forallb_forall in A. apply A.
  assert (L : own w n = map (fun x => w ++ x) (own [] n)).
  { unfold own, tpath, apaths. cbn [map app]. rewrite map_map. reflexivity. }
  rewrite L in H. apply in_map_iff in H as (x & Ex & Hx). rewrite E in Ex. apply app_inv_head in Ex. subst x.
  change s with (last [s] "") at 1. now apply in_map with (f := fun q => last q "").
Qed.
Lemma sub_group_shape pre letter t id idx : exists s, sub_group pre letter t id idx = [(pre ++ letter ++ str_of_Z t)%string; (letter ++ s)%string].
Proof. unfold sub_group. now eexists. Qed.
Lemma upper_not_lower l s : upper_letter l -> lower_first (l ++ s) = false.
Proof. intros [<-|[<-|[<-|[<-|[]]]]]; reflexivity. Qed.
(** The nodes of a file below are none of the top, and none of another file below. *)
Lemma group_not_own pre letter t p w : upper_letter letter -> length w = 1%nat -> ~ In (lower_group pre letter t p) (all_own w).
Proof.
  intros U L H. pose proof H as H0. apply all_own_under in H as (s & E). pose proof (own_lower _ _ _ H0 E) as Lo.
  unfold lower_group in E. destruct (sub_group_shape pre letter t (pl_type p) (lower_index letter p)) as (r & Er). rewrite Er in E.
  destruct w as [|x [|y w]]; try discriminate. injection E as _ E. subst s. rewrite upper_not_lower in Lo; [discriminate|exact U].
Qed.
Lemma group_length pre letter t p : length (lower_group pre letter t p) = 2%nat. Proof. reflexivity. Qed.
Lemma all_own_length w q : In q (all_own w) -> length q = S (length w).
Proof. intros H. apply all_own_under in H as (s & ->). rewrite app_length. cbn. lia. Qed.
Lemma nodes_disjoint pre letter t p p' q : nodes_of (lower_group pre letter t p) q -> nodes_of (lower_group pre letter t p') q ->
  lower_group pre letter t p = lower_group pre letter t p'.
Proof.
  set (w := lower_group pre letter t p). set (w' := lower_group pre letter t p').
  assert (L : length w = 2%nat) by reflexivity. assert (L' : length w' = 2%nat) by reflexivity.
  intros [->|H] [E|H'].
  - exact E.
  - apply all_own_length in H'. lia.
  - subst q. apply all_own_length in H. lia.
  - apply all_own_under in H as (s & ->). apply all_own_under in H' as (s' & E). apply app_inj_tail in E. apply E.
Qed.
Lemma leads2 q a b : leads q [a; b] -> q = [a] \/ q = [a; b].
Proof.
  intros (r & N & E). destruct q as [|x [|y [|z q]]]; [congruence| | |discriminate].
  - injection E as <- _. now left.
  - injection E as <- <- _. now right.
Qed.

(* ---- opening ---- *)
Lemma unified_newlines b bs : unified b bs -> universal_newlines b = bs.
Proof.
  induction 1 as [|b bs _ IH|b bs H _ IH|c b bs H _ IH]; [reflexivity| | |].
  - cbn. now rewrite IH.
  - destruct b as [|c b]; [cbn in *; now rewrite <- IH|]. cbn in H |- *. destruct (Ascii.eqb_spec c nl) as [->|]; [now elim H|]. now rewrite <- IH.
  - cbn [universal_newlines]. destruct (Ascii.eqb_spec c "013"); [contradiction|]. now rewrite IH.
Qed.
Lemma contents_open k b bs : contents k b bs -> open_in k b = mkIn k bs false [].
Proof. intros [bs0|b0 bs0 _ H]; [reflexivity|]. unfold open_in. now rewrite (unified_newlines _ _ H). Qed.
Lemma contents_kind k b bs : contents k b bs -> kind_of_bytes b = k.
Proof.
  intros [bs0|b0 bs0 N H]; [reflexivity|]. destruct b0 as [|c b0]; [reflexivity|]. cbn in *. destruct (Ascii.eqb_spec c "K") as [->|]; [now elim N|reflexivity].
Qed.

(* ---- the files below ---- *)
Record ready (g : glob) (pre letter : string) (t : Z) : Prop := {
  rd_hier : g_hashier g = true;
  rd_htab : g_htab g = Some [nm_of pre letter t; "hierarch"];
  rd_pre : g_prefix g = pre;
  rd_ft : g_ftid g = letter;
  rd_batch : 0 < g_batch g }.
Lemma outcome_frame h h' w ft id idx p segs q : outcome h h' w ft id idx p segs -> ~ nodes_of w q -> (leads q w -> h5_find q h <> None) ->
  h5_find q h' = h5_find q h.
Proof.
  intros (_ & _ & F) N L. destruct (F q) as [E|(A & B & _)]; [intros ->; apply N; now left|intros X; apply N; now right|exact E|].
  now apply L in A.
Qed.
Lemma read_lower_reads d k pre letter t (fn : place -> string) (rows : list (list cell)) row0 rs :
  upper_letter letter -> rows = row0 :: rs -> nth_error row0 2 = Some (CI t) ->
  forall l g h, ready g pre letter t -> tab_rows [nm_of pre letter t; "hierarch"] h = rows ->
  (exists a, h5_find [nm_of pre letter t] h = Some (Group a)) ->
  (forall p, In p l -> 1 <= pl_ref p /\ exists row, nth_error rows (Z.to_nat (pl_ref p - 1)) = Some row /\
     nth_error row 3 = Some (CI (pl_rep p)) /\ nth_error row 4 = Some (CI (pl_level p))) ->
  (forall p b, In p l -> file_in d (fn p) = Some b -> pl_type p <> 0 /\
     exists bs segs', contents k b bs /\ file_of [] k (pl_type p) true bs segs' /\ some_record segs') ->
  NoDup (map (lower_group pre letter t) l) ->
  (forall p, In p l -> vacant h (lower_group pre letter t p)) ->
  exists g' h', read_lower d k [] (map (fun p => (fn p, pl_ref p)) l) (g, h) = Ok (g', h', map (fun p => seen d (fn p)) l) /\
    (forall q, (forall p b, In p l -> file_in d (fn p) = Some b -> ~ nodes_of (lower_group pre letter t p) q) -> h5_find q h' = h5_find q h) /\
    (forall p b, In p l -> file_in d (fn p) = Some b -> place_read h' pre letter t k p b) /\ 0 < g_batch g'.
Proof.
  intros U Hr N2. induction l as [|p l IH]; intros g h R HT (a & HG) HP HF ND HV.
  - exists g, h. split; [reflexivity|]. split; [easy|]. split; [intros p b []|apply R].
  - cbn [map read_lower]. inversion ND as [|x xs Nx ND']; subst x xs. unfold seen at 1. destruct (file_in d (fn p)) as [b|] eqn:E.
    + destruct (HP p (or_introl eq_refl)) as (H1 & row & Nr & N3 & N4). destruct (HF p b (or_introl eq_refl) E) as (Hid & bs & segs & CB & FO & SR).
      destruct R as [R1 R2 R3 R4 R5].
      pose proof (HV p (or_introl eq_refl)) as V.
      assert (EW : sub_group (g_prefix g) (g_ftid g) t (pl_type p) (sub_index (g_ftid g) row) = lower_group pre letter t p).
      { unfold lower_group, lower_index, sub_index. rewrite R3, R4, N3. reflexivity. }
      assert (EI : sub_index (g_ftid g) row = lower_index letter p) by (unfold lower_index, sub_index; now rewrite R4, N3).
      rewrite Hr in HT, Nr.
      destruct (parse_sub_state [] k (pl_type p) bs segs g h [] _ row0 rs row (pl_ref p) t (pl_rep p) (pl_level p) FO Hid SR R5 R1 R2 ltac:(cbn; lia) HT N2 H1 Nr N3 N4)
        as (s1 & E1 & O & S1 & S2 & S3 & S4 & S5); [rewrite EW; exact V|]. rewrite EW in O.
      unfold parse_into. cbn [fst snd]. rewrite (contents_open _ _ _ CB), E1. cbn [rbind].
      set (w := lower_group pre letter t p) in *.
      assert (FR : forall q, ~ nodes_of w q -> h5_find q (p_out s1) = h5_find q h).
      { intros q Hq. apply (outcome_frame _ _ _ _ _ _ _ _ _ O Hq). intros Lq. apply leads2 in Lq as [->| ->]; [|exfalso; apply Hq; now left].
        change (h5_find [nm_of pre letter t] h <> None). now rewrite HG. }
      assert (NG : ~ nodes_of w [nm_of pre letter t]).
      { intros [X|X]; [discriminate|]. apply all_own_length in X. discriminate. }
      assert (NT : ~ nodes_of w [nm_of pre letter t; "hierarch"]).
      { intros [X|X]; [|apply all_own_length in X; discriminate]. unfold w, lower_group in X.
        destruct (sub_group_shape pre letter t (pl_type p) (lower_index letter p)) as (r & Er). rewrite Er in X. injection X as X.
        pose proof (upper_not_lower letter r U) as Y. rewrite <- X in Y. discriminate Y. }
      assert (OW : forall p', In p' l -> forall q, nodes_of (lower_group pre letter t p') q -> ~ nodes_of w q).
      { intros p' Hp' q Hq Hq'. apply Nx. pose proof (nodes_disjoint pre letter t p p' q Hq' Hq) as EE. fold w in EE. rewrite EE. now apply in_map. }
      destruct (IH (p_g s1) (p_out s1)) as (g' & h' & E2 & F2 & P2 & B2).
      { constructor; [exact S4|exact S5|congruence|congruence|rewrite S3; exact R5].
      }
      { unfold tab_rows in *. rewrite FR by exact NT. rewrite Hr. exact HT. }
      { exists a. rewrite FR by exact NG. exact HG. }
      { intros p' Hp'. apply HP. now right. }
      { intros p' b' Hp'. apply HF. now right. }
      { exact ND'. }
      { intros p' Hp'. destruct (HV p' (or_intror Hp')) as [V1 V2]. split.
        - intros q Lq. pose proof (V1 q Lq) as X. apply leads2 in Lq as [->| ->].
          + change (match h5_find [nm_of pre letter t] (p_out s1) with None => True | Some (Group _) => True | _ => False end). now rewrite FR, HG.
          + rewrite FR; [exact X|]. apply (OW p' Hp'). now left.
        - intros q Hq. rewrite FR; [now apply V2|]. apply (OW p' Hp'). now right. }
      rewrite E2. cbn [rbind]. exists g', h'. split; [reflexivity|]. split; [|split; [|exact B2]].
      * intros q Hq. rewrite F2; [|intros p' b' Hp'; apply Hq; now right]. apply FR. apply (Hq p b); [now left|exact E].
      * assert (KP : forall q, nodes_of w q -> h5_find q h' = h5_find q (p_out s1)).
        { intros q Hq. apply F2. intros p' b' Hp' _ X. now apply (OW p' Hp' q). }
        intros p' b' [<-|Hp'] E'; [|now apply P2]. rewrite E in E'. injection E' as <-. intros bs' segs' CB' FO' SR'. fold w.
        assert (bs' = bs) as -> by (apply contents_open in CB; apply contents_open in CB'; congruence).
        destruct (parse_sub_state [] k (pl_type p) bs segs' g h [] _ row0 rs row (pl_ref p) t (pl_rep p) (pl_level p) FO' Hid SR' R5 R1 R2 ltac:(cbn; lia) HT N2 H1 Nr N3 N4)
          as (s1' & E1' & O' & _); [rewrite EW; exact V|]. rewrite EW in O'. fold w in O'. rewrite E1 in E1'. injection E1' as <-.
        destruct O' as (T1 & L1 & _). split.
        -- apply (tables_keep (p_out s1)); [exact T1|]. intros q Hq. apply KP. now right.
        -- rewrite EI, R4 in L1. unfold labelled in *. rewrite KP by now left. exact L1.
    + destruct (IH g h R HT (ex_intro _ a HG)) as (g' & h' & E2 & F2 & P2 & B2).
      { intros p' Hp'. apply HP. now right. }
      { intros p' b' Hp'. apply HF. now right. }
      { exact ND'. }
      { intros p' Hp'. apply HV. now right. }
      rewrite E2. cbn [rbind]. exists g', h'. split; [reflexivity|]. split; [|split; [|exact B2]].
      * intros q Hq. apply F2. intros p' b' Hp'. apply Hq. now right.
      * intros p' b' [<-|Hp'] E'; [congruence|now apply P2].
Qed.

(* ---- the hierarchy table ---- *)
Lemma says_cell e i z cols cs : Forall2 (fun tv c => stored (fst tv) (snd tv) c) (combine cols (e_row e)) cs ->
  nth_error cols i = Some TI -> says e i z -> nth_error cs i = Some (CI z).
Proof. intros F N (f & E & T). eapply stored_int_col; eassumption. Qed.
Lemma Forall2_nth {A B} (R : A -> B -> Prop) : forall l l', length l = length l' ->
  (forall i a b, nth_error l i = Some a -> nth_error l' i = Some b -> R a b) -> Forall2 R l l'.
Proof.
  induction l as [|a l IH]; intros [|b l'] L H; try discriminate; [constructor|]. constructor; [exact (H O a b eq_refl eq_refl)|].
  apply IH; [now injection L|]. intros i x y Hx Hy. exact (H (S i) x y Hx Hy).
Qed.
Lemma Forall2_nth_inv {A B} (R : A -> B -> Prop) l l' i b : Forall2 R l l' -> nth_error l' i = Some b -> exists a, nth_error l i = Some a /\ R a b.
Proof.
  intros F. revert i. induction F as [|x y l l' Hxy F IH]; intros [|i] H; try discriminate.
  - injection H as <-. now exists x.
  - exact (IH i H).
Qed.
Lemma Forall2_len {A B} (R : A -> B -> Prop) l l' : Forall2 R l l' -> length l = length l'.
Proof. induction 1; cbn; congruence. Qed.
Lemma hierarchy_stored : In "HIERARCH" stored_types. Proof. apply str_in_spec. vm_compute. reflexivity. Qed.
Lemma hierarchy_rows h w segs ps : tables h w segs -> hierarchy_of segs ps -> places (tab_rows (tpath w "HIERARCH") h) ps.
Proof.
  intros T H. specialize (T _ hierarchy_stored). unfold hierarchy_of in H. destruct (entries_of "HIERARCH" segs) as [|e es] eqn:E.
  - inversion H; subst. unfold tab_rows. rewrite T by now left. constructor.
  - destruct T as (con & P & HC). apply put_laid_out in P. destruct P as (L1 & _ & L3 & _).
    unfold tab_rows. rewrite (proj1 HC). apply Forall2_nth.
    + rewrite L1. now apply Forall2_len in H.
    + intros i row p Hr Hp. destruct (Forall2_nth_inv _ _ _ _ _ H Hp) as (e0 & He & (S1 & S2 & S3 & S4)).
      destruct (L3 i e0 He) as (_ & cs & (Lc & O) & N). rewrite Hr in N. injection N as ->.
      assert (X : forall j z, nth_error (map snd (columns "HIERARCH")) j = Some TI -> says e0 j z -> nth_error (cs ++ range_cells (map (fun m => range_at (e :: es) i m e0) (seq 0 (length (elts_of "HIERARCH"))))) j = Some (CI z)).
      { intros j z Hj Hs. pose proof (says_cell _ _ _ _ _ O Hj Hs) as Y. rewrite nth_error_app1; [exact Y|]. apply nth_error_Some. congruence. }
      repeat split; apply X; try assumption; reflexivity.
Qed.
Lemma says_one e i z z' : says e i z -> says e i z' -> z = z'.
Proof. intros (f & E & T) (f' & E' & T'). rewrite E in E'. injection E' as <-. apply trunc_int_of in T, T'. congruence. Qed.
(** The first hierarchy record is about the superelement of the file. *)
Lemma reads_first only k id sub st segs n fs bs st' : reads only k id sub st segs n fs bs st' ->
  forall it its, items_of "HIERARCH" segs = it :: its -> says (i_entry it) 2 id.
Proof.
  induction 1; intros it0 its0 E; cbn [items_of flat_map] in E; try discriminate; try (now eapply IHreads; exact E).
  - destruct (String.eqb_spec n "HIERARCH") as [->|].
    + exfalso. match goal with H : In "HIERARCH" laid_types |- _ => apply laid_stored in H as (_ & H & _); congruence end.
    + eapply IHreads. exact E.
  - destruct (String.eqb_spec n "HIERARCH") as [->|].
    + exfalso. match goal with H : In "HIERARCH" tran_types |- _ => destruct H as [H|[H|[]]]; discriminate end.
    + eapply IHreads. exact E.
  - cbn [String.eqb Ascii.eqb Bool.eqb app] in E. injection E as <- _.
    assert (L : exists c1 rest c2, hier_layout k c1 "HIERARCH" it rest c2).
    { match goal with H : enc_run hier_layout _ _ _ _ _ _ _ _ _ _ |- _ => inversion H; subst; eauto end. }
    destruct L as (c1 & rest & c2 & L). inversion L as [hfs a b e ns ih hbs rest' L4 _ _]. subst it. cbn [i_fs i_entry e_row] in *. subst hfs.
    exists x. now split.
Qed.
Lemma file_first only k id sub bs segs e es : file_of only k id sub bs segs -> entries_of "HIERARCH" segs = e :: es -> says e 2 id.
Proof.
  intros (n & fs & tail & st' & _ & R) E. unfold entries_of in E. destruct (items_of "HIERARCH" segs) as [|it its] eqn:I; [discriminate|].
  injection E as <- _. eapply reads_first; eassumption.
Qed.

(* ---- a conversion ---- *)
Lemma unused_vacant nm h w : unused nm h -> hd_error w = Some nm -> vacant h w.
Proof.
  intros U E. split.
  - intros q (r & N & ->). destruct q as [|x q]; [congruence|]. cbn in E. now rewrite U.
  - intros q Hq. apply all_own_under in Hq as (s & ->). destruct w as [|x w]; [discriminate|]. now apply U.
Qed.
Lemma in_tl {A} (x : A) l : In x (tl l) -> exists i, nth_error l (S i) = Some x.
Proof. destruct l as [|a l]; [easy|]. cbn. intros H. apply In_nth_error in H. exact H. Qed.
(** The whole conversion of an assembly, into a store where its name is not used. *)
Theorem convert_assembly_more d top fp letter no ext (usefp : bool) prefix pre k id b segs ps g h0 :
  pre = (if usefp then prefix ++ fp else prefix)%string -> upper_letter letter ->
  assembly d fp letter ext pre k id b segs ps -> file_in d top = Some b -> 0 < g_batch g ->
  unused (nm_of pre letter id) h0 ->
  exists g' h', convert d top (s2l fp, s2l letter, no, s2l ext) usefp prefix [] g h0 =
      Ok (g', h', Read top :: map (fun p => seen d (lower_file fp ext p)) (lower_places ext ps)) /\
    (exists pos, top_pos segs pos /\ labelled h' [nm_of pre letter id] letter id None pos segs) /\ tables h' [nm_of pre letter id] segs /\
    (forall p b, In p (lower_places ext ps) -> file_in d (lower_file fp ext p) = Some b -> place_read h' pre letter id k p b) /\
    (forall q, ~ nodes_of [nm_of pre letter id] q ->
       (forall p b, In p (lower_places ext ps) -> file_in d (lower_file fp ext p) = Some b -> ~ nodes_of (lower_group pre letter id p) q) ->
       h5_find q h' = h5_find q h0) /\ 0 < g_batch g'.
Proof.
  intros Hpre U [A2 (bs & CB & A3) A4 A5 A6 A7 A8] HF Hb HU. unfold convert. rewrite !l2s_s2l, <- Hpre, HF, (contents_kind _ _ _ CB).
  destruct (file_pos _ _ _ _ _ A3) as (pos & HP). set (nm := nm_of pre letter id) in *.
  assert (V : vacant h0 [nm]) by now apply (unused_vacant nm).
  destruct (parse_top_state [] k id bs segs pos g h0 pre letter [] A3 A2 A4 HP Hb V) as (s1 & E1 & O & S1 & S2 & S3 & S4 & S5).
  change [(pre ++ letter ++ str_of_Z id)%string] with [nm] in *.
  assert (EP : parse_into k b [] (sret tt) (set_ftid letter (set_prefix pre (reset true g)), h0) = Ok (p_g s1, p_out s1)).
  { unfold parse_into. rewrite (contents_open _ _ _ CB). cbn [fst snd]. change (set_ftid letter (set_prefix pre (reset true g))) with (set_prefix pre (set_ftid letter (reset true g))). unfold sbind, sret. rewrite E1. reflexivity. }
  rewrite EP. cbn [rbind fst snd]. clear EP. rewrite S4.
  assert (FR : forall q, ~ nodes_of [nm] q -> h5_find q (p_out s1) = h5_find q h0).
  { intros q Hq. apply (outcome_frame _ _ _ _ _ _ _ _ _ O Hq). intros (r & N & E). exfalso. apply Hq. left.
    destruct q as [|x [|y q]]; [congruence| |discriminate]. now injection E as <- _. }
  destruct O as (T1 & L1 & _). pose proof (hierarchy_rows _ _ _ _ T1 A5) as PL.
  destruct (entries_of "HIERARCH" segs) as [|e es] eqn:EH.
  - unfold hierarchy_of in A5. rewrite EH in A5. inversion A5 as [X|]. subst ps. cbn [lower_places tl filter map].
    exists (p_g s1), (p_out s1). split; [reflexivity|]. split; [exists pos; now split|]. split; [exact T1|]. split; [intros p b1 []|]. split; [|rewrite S3; exact Hb]. intros q Hq _. now apply FR.
  - rewrite S5 by discriminate. cbn [rbind]. rewrite (candidates_spec _ _ _ _ PL). cbn [rbind].
    assert (CE : (if String.eqb ext "SIF" || String.eqb ext "SIU"
      then map (fun p => (results_name fp ext p, pl_ref p)) (filter (fun p => pl_level p =? 1) (tl ps))
      else map (fun p => (model_name fp ext (pl_type p), pl_ref p)) (filter (fun p => pl_rep p =? 1) (tl ps))) =
      map (fun p => (lower_file fp ext p, pl_ref p)) (lower_places ext ps)).
    { unfold lower_file, lower_places, results_ext. destruct (_ || _)%bool; reflexivity. }
    rewrite CE. clear CE.
    unfold hierarchy_of in A5. rewrite EH in A5. inversion A5 as [|? p0 ? ps' SP _ X1 X2]. subst ps.
    set (rows := tab_rows (tpath [nm] "HIERARCH") (p_out s1)) in *.
    inversion PL as [|row0 ? rs ? (_ & R2 & _) _ Y1 Y2].
    assert (ET : pl_type p0 = id) by (eapply says_one; [apply SP|exact (file_first _ _ _ _ _ _ _ _ A3 EH)]).
    destruct L1 as (a & rsn & ty & lev & LA & LB).
    destruct (read_lower_reads d k pre letter id (lower_file fp ext) rows row0 rs U (eq_sym Y1) ltac:(now rewrite R2, ET) (lower_places ext (p0 :: ps')) (p_g s1) (p_out s1))
      as (g' & h' & E2 & F2 & P2 & B2).
    { constructor; try congruence. rewrite S5 by discriminate. reflexivity. }
    { reflexivity. }
    { now exists a. }
    { intros p Hp. apply filter_In in Hp as (Hp & _). apply in_tl in Hp as (i & Hi).
      pose proof (A6 _ _ Hi) as EI. split; [lia|]. destruct (Forall2_nth_inv _ _ _ _ _ PL Hi) as (row & Hrow & (_ & _ & Q3 & Q4)).
      exists row. replace (Z.to_nat (pl_ref p - 1)) with (S i) by lia. now repeat split. }
    { exact A7. }
    { exact A8. }
    { intros p Hp. assert (V2 : vacant h0 (lower_group pre letter id p)) by (apply (unused_vacant nm); [exact HU|reflexivity]). destruct V2 as [V2 V3]. split.
      - intros q Lq. pose proof (V2 q Lq) as X. apply leads2 in Lq as [->| ->].
        + change (match h5_find [nm] (p_out s1) with None => True | Some (Group _) => True | _ => False end). now rewrite LA.
        + rewrite FR; [exact X|]. intros [Y|Y]; [discriminate|]. now apply (group_not_own pre letter id p [nm] U eq_refl).
      - intros q Hq. rewrite FR; [now apply V3|]. apply all_own_length in Hq. rewrite group_length in Hq. intros [->|Y]; [discriminate|]. apply all_own_length in Y. cbn in Y. lia. }
    rewrite E2. cbn [rbind]. exists g', h'. split; [reflexivity|].
    assert (KT : forall q, nodes_of [nm] q -> h5_find q h' = h5_find q (p_out s1)).
    { intros q Hq. apply F2. intros p b1 _ _ [->|Y].
      - destruct Hq as [Hq|Hq]; [discriminate|]. now apply (group_not_own pre letter id p [nm] U eq_refl).
      - apply all_own_length in Y. rewrite group_length in Y. destruct Hq as [->|Hq]; [discriminate|]. apply all_own_length in Hq. cbn in Hq. lia. }
    split; [|split; [|split; [|split; [|exact B2]]]].
    + exists pos. split; [exact HP|]. unfold labelled. rewrite KT by now left. exists a, rsn, ty, lev. now split.
    + apply (tables_keep (p_out s1)); [exact T1|]. intros q Hq. apply KT. now right.
    + exact P2.
    + intros q Hq Hq2. rewrite F2 by exact Hq2. now apply FR.
Qed.
Theorem convert_assembly d top fp letter no ext (usefp : bool) prefix pre k id b segs ps g h0 :
  pre = (if usefp then prefix ++ fp else prefix)%string -> upper_letter letter ->
  assembly d fp letter ext pre k id b segs ps -> file_in d top = Some b -> 0 < g_batch g ->
  unused (nm_of pre letter id) h0 ->
  exists g' h', convert d top (s2l fp, s2l letter, no, s2l ext) usefp prefix [] g h0 =
      Ok (g', h', Read top :: map (fun p => seen d (lower_file fp ext p)) (lower_places ext ps)) /\
    (exists pos, top_pos segs pos /\ labelled h' [nm_of pre letter id] letter id None pos segs) /\ tables h' [nm_of pre letter id] segs /\
    (forall p b, In p (lower_places ext ps) -> file_in d (lower_file fp ext p) = Some b -> place_read h' pre letter id k p b) /\
    (forall q, ~ nodes_of [nm_of pre letter id] q ->
       (forall p b, In p (lower_places ext ps) -> file_in d (lower_file fp ext p) = Some b -> ~ nodes_of (lower_group pre letter id p) q) ->
       h5_find q h' = h5_find q h0).
Proof.
  intros H1 H2 H3 H4 H5 H6. destruct (convert_assembly_more d top fp letter no ext usefp prefix pre k id b segs ps g h0 H1 H2 H3 H4 H5 H6) as (g' & h' & A & B & C & D & E & _).
  exists g', h'. repeat (split; [assumption|]). exact E.
Qed.
(** The files of the places. *)
Lemma lower_files fp ext ps n :
  (results_ext ext = true -> ((exists p, In p (lower_places ext ps) /\ n = lower_file fp ext p) <-> lower_results fp ext ps n)) /\
  (results_ext ext = false -> numbered ps ->
     ((exists p, In p (lower_places ext ps) /\ n = lower_file fp ext p) <-> lower_models fp ext ps n) /\ NoDup (map pl_type (lower_places ext ps))).
Proof.
  unfold lower_places, lower_file, lower_results, lower_models. split.
  - intros ->. split.
    + intros (p & H & ->). apply filter_In in H as (H & L). exists p. split; [exact H|]. split; [lia|reflexivity].
    + intros (p & H & L & ->). exists p. split; [apply filter_In; split; [exact H|lia]|reflexivity].
  - intros -> (N1 & N2). split; [split|].
    + intros (p & H & ->). apply filter_In in H as (H & L). now exists p.
    + intros (p & H & ->). destruct (N1 p H) as (q & Hq & T & R). exists q. split; [apply filter_In; split; [exact Hq|lia]|now rewrite T].
    + clear N1. induction (tl ps) as [|p l IH]; [constructor|].
      assert (IH' : NoDup (map pl_type (filter (fun p => pl_rep p =? 1) l))).
      { apply IH. intros i j a b Hi Hj A B. specialize (N2 (S i) (S j) a b Hi Hj A B). now injection N2. }
      cbn [filter]. destruct (pl_rep p =? 1) eqn:E; [|exact IH']. cbn [map]. constructor; [|exact IH'].
      intros H. apply in_map_iff in H as (q & T & H). apply filter_In in H as (H & R). apply In_nth_error in H as (j & Hj).
      specialize (N2 0%nat (S j) p q eq_refl Hj (eq_sym T)). discriminate N2. lia.
Qed.
Theorem assembly_keeps d top fp letter no ext (usefp : bool) prefix pre k id b segs ps g h0 :
  pre = (if usefp then prefix ++ fp else prefix)%string -> upper_letter letter -> assembly d fp letter ext pre k id b segs ps ->
  file_in d top = Some b -> 0 < g_batch g -> unused (nm_of pre letter id) h0 ->
  exists g' h' evs, convert d top (s2l fp, s2l letter, no, s2l ext) usefp prefix [] g h0 = Ok (g', h', evs) /\
    forall q, hd_error q <> Some (nm_of pre letter id) -> h5_find q h' = h5_find q h0.
Proof.
  intros P U A F B N. destruct (convert_assembly d top fp letter no ext usefp prefix pre k id b segs ps g h0 P U A F B N) as (g' & h' & E & _ & _ & _ & K).
  exists g', h'. eexists. split; [exact E|]. intros q Hq.
  assert (O : forall w : path, hd_error w = Some (nm_of pre letter id) -> ~ nodes_of w q).
  { intros w Hw [->|I]; [congruence|]. apply Hq. unfold all_own, own in I. apply in_flat_map in I as (m & _ & I).
    destruct w as [|a w]; [discriminate|]. injection Hw as ->. destruct I as [<-|I]; [reflexivity|].
    unfold apaths in I. apply in_map_iff in I as (x & <- & _). reflexivity. }
  apply K; [now apply O|]. intros p b' _ _. apply O. destruct (sub_group_shape pre letter id (pl_type p) (lower_index letter p)) as (s & E2). unfold lower_group. now rewrite E2.
Qed.
