(** * VtfElems: blocks of elements written and read *)
From Coq Require Import ZifyBool.
From Verif Require Import Base ListFacts Flt RoundSpec NumeralProofs Write Vtf VtfSpec VtfText VtfNodes.
Open Scope string_scope.
Open Scope Z_scope.
Open Scope list_scope.
Open Scope monad_scope.

Lemma strip_head p c r : p c = false -> exists r', strip p (c :: r) = c :: r'.
Proof.
  intro H. destruct (strip_split p (c :: r)) as (a & b & E & A & B). destruct a as [|x a].
  - cbn [app] in E. destruct (strip p (c :: r)) as [|y w]; [|injection E as <- _; eauto]. cbn [app] in E. subst b. inversion B; subst. congruence.
  - injection E as <- _. inversion A; subst. congruence.
Qed.
Lemma star_not_type r : elem_type_line ("*"%char :: r) = false.
Proof. unfold elem_type_line. destruct (strip_head is_space_s "*"%char r eq_refl) as (r' & ->). reflexivity. Qed.
Lemma heads_start l b k : heads l b k -> In b block_types -> (exists r, l = "*"%char :: r) -> block_start l.
Proof.
  intros H I (r & ->). unfold heads in H. split; [rewrite H; discriminate|]. split; [|apply star_not_type]. rewrite (starts_iff _ _ _ _ H). unfold str_in. apply existsb_exists. exists b. split; [exact I|].
  unfold l2s, s2l. rewrite string_of_list_ascii_of_string. apply String.eqb_refl.
Qed.

(** ** Rows of numbers *)
Lemma cells_split l : Forall (fun i => 0 <= i < 10 ^ 9) l -> split (cells l) = map znum l.
Proof.
  unfold cells. induction 1 as [|i l H _ IH]; [reflexivity|]. cbn [map concat]. rewrite <- app_assoc, split_ljust; [now rewrite IH|apply znum_word; lia|].
  pose proof (znum_length i 9 H). lia.
Qed.
Lemma cells_line l : Forall (fun i => 0 <= i < 10 ^ 9) l -> is_line (cells l).
Proof.
  intro H. exists (concat (map (fun z => ljust 10 (znum z)) l)). split; [reflexivity|]. induction H as [|i l H _ IH]; [intros []|]. cbn [map concat]. intro K. apply in_app_or in K as [K|K]; [|contradiction].
  unfold ljust in K. apply in_app_or in K as [K|K]; [revert K; apply znum_no_nl; lia|apply repeat_spec in K; discriminate].
Qed.
Lemma ints_back l : Forall (fun i => 0 <= i < 10 ^ 9) l -> rmap to_int32 (map znum l) = Ok l.
Proof. induction 1 as [|i l H _ IH]; [reflexivity|]. cbn [map rmap]. now rewrite int32_znum, IH. Qed.
Lemma rows_back rows n : Forall (fun r => length r = n /\ Forall (fun i => 0 <= i < 10 ^ 9) r) rows -> int_rows (map (map znum) rows) = Ok rows.
Proof.
  intro H. assert (E : rmap (rmap to_int32) (map (map znum) rows) = Ok rows).
  { induction H as [|r rows (_ & H) _ IH]; [reflexivity|]. cbn [map rmap]. now rewrite ints_back, IH. }
  destruct rows as [|r rows]; [reflexivity|]. inversion H as [|? ? (L & _) H']; subst. unfold int_rows. cbn [map]. rewrite (proj2 (forallb_forall _ _)); [exact E|].
  intros q Hq. apply in_map_iff in Hq as (r' & <- & Hr). rewrite Forall_forall in H'. rewrite !map_length. apply Nat.eqb_eq. now apply H'.
Qed.

Definition type_lines (ids : bool) (q : string * list Z) (p : string * list (list Z)) : list text :=
  line_of (fst p) [] :: (if ids then map (fun z => cells (fst z :: snd z)) (combine (snd q) (snd p)) else map cells (snd p)).
Definition good_pair (ids : bool) (q : string * list Z) (p : string * list (list Z)) : Prop :=
  fst q = fst p /\ if ids then length (snd q) = length (snd p) /\ Forall (fun z => 0 <= z < 10 ^ 9) (snd q) else snd q = [].
Lemma type_word t : In t elem_types -> word (s2l t).
Proof. cbn [elem_types In]. intros [<-|[<-|[<-|[<-|[<-|[<-|[]]]]]]]; wordly. Qed.
Lemma type_line_split t : In t elem_types -> split (line_of t []) = [s2l t].
Proof. intro H. now apply split_one, type_word. Qed.
Lemma l2s_s2l s : l2s (s2l s) = s.
Proof. apply string_of_list_ascii_of_string. Qed.
Lemma str_in_In s l : In s l -> str_in s l = true.
Proof. intro H. apply existsb_exists. exists s. split; [exact H|apply String.eqb_refl]. Qed.
Lemma type_line_strip t : In t elem_types -> strip is_space_s (line_of t []) = s2l t.
Proof. intro H. unfold line_of. cbn [app]. now apply strip_nl, type_word. Qed.
Lemma oset_new {V} k (x : V) d : ~ In k (map fst d) -> oset String.eqb k x d = d ++ [(k, x)].
Proof.
  induction d as [|(k', y) d IH]; intro N; [reflexivity|]. cbn [oset map fst In app] in *. destruct (String.eqb_spec k k') as [->|_]; [elim N; now left|]. now rewrite IH by tauto.
Qed.
Lemma elem_rows ids q p : good_pair ids q p -> good_type p -> forall a0 n0,
  foldm (elem_line ids) (tl (type_lines ids q p)) (a0, n0) = Ok (a0 ++ map (map znum) (snd p), n0 ++ map znum (snd q)).
Proof.
  destruct q as [s nos], p as [t rows]. unfold good_pair, type_lines. cbn [fst snd tl]. intros (_ & HI) (_ & _ & n & _ & H). cbn [snd] in H. destruct ids.
  - destruct HI as (EL & HN). revert rows EL H. induction HN as [|z nos Hz HN IH]; intros [|r rows] EL H a0 n0; try discriminate.
    + cbn. now rewrite !app_nil_r.
    + inversion H as [|? ? (_ & Hr) H']; subst. cbn [combine map foldm fst snd]. unfold elem_line at 1. rewrite cells_split by now constructor. cbn [map pyget nth_error rbind tl fst snd].
      rewrite IH; [|now injection EL|exact H']. now rewrite <- !app_assoc.
  - subst nos. induction H as [|r rows (_ & Hr) H IH]; intros a0 n0; cbn [map foldm].
    + now rewrite !app_nil_r.
    + unfold elem_line at 1. rewrite cells_split by exact Hr. cbn [fst snd]. rewrite IH. now rewrite <- !app_assoc.
Qed.
Lemma rows_not_special ids q p : good_pair ids q p -> good_type p ->
  Forall (fun x => negb (starts (elem_types ++ block_types) x) = true /\ split x <> []) (tl (type_lines ids q p)).
Proof.
  destruct q as [s nos], p as [t rows]. unfold good_pair, type_lines. cbn [fst snd tl]. intros (_ & HI) (_ & _ & n & Hn & H). cbn [snd] in H.
  assert (One : forall r, r <> [] -> Forall (fun i => 0 <= i < 10 ^ 9) r -> negb (starts (elem_types ++ block_types) (cells r)) = true /\ split (cells r) <> []).
  { intros r Nr Hr. pose proof (cells_split r Hr) as S. destruct r as [|z r]; [now elim Nr|]. inversion Hr; subst. cbn [map] in S. rewrite S. split; [|discriminate].
    destruct (znum_head z ltac:(lia)) as (c & w & Ec & Nc). rewrite Ec in S. apply number_not_special in Nc as [Ns Np].
    pose proof (no_star _ _ _ _ S Ns) as A. assert (B : starts elem_types (cells (z :: r)) = false).
    { apply (no_percent _ _ _ _ _ S Np). repeat (constructor; [eexists; reflexivity|]). constructor. }
    rewrite (starts_iff _ _ _ _ S) in A. rewrite (starts_iff _ _ _ _ S) in B. rewrite (starts_iff _ _ _ _ S). unfold str_in in *. now rewrite existsb_app, A, B. }
  destruct ids.
  - destruct HI as (EL & HN). apply Forall_map, Forall_forall. intros [z r] Hin. cbn [fst snd]. apply One; [discriminate|]. constructor; [rewrite Forall_forall in HN; apply HN; now apply in_combine_l in Hin|].
    rewrite Forall_forall in H. apply in_combine_r in Hin. now apply H.
  - apply Forall_map. eapply Forall_impl; [|exact H]. intros r (L & Hr). apply One; [|exact Hr]. intros ->. cbn in L. lia.
Qed.
Lemma type_lines_are ids q p : good_pair ids q p -> good_type p -> Forall is_line (type_lines ids q p).
Proof.
  destruct q as [s nos], p as [t rows]. unfold good_pair, type_lines. cbn [fst snd]. intros (_ & HI) (Ht & _ & n & Hn & H). cbn [fst snd] in *.
  constructor; [apply line_is; [revert Ht; cbn [elem_types In]; intros [<-|[<-|[<-|[<-|[<-|[<-|[]]]]]]]; reflexivity|intros []]|]. destruct ids.
  - destruct HI as (EL & HN). apply Forall_map, Forall_forall. intros [z r] Hin. cbn [fst snd]. apply cells_line. constructor; [rewrite Forall_forall in HN; apply HN; now apply in_combine_l in Hin|].
    rewrite Forall_forall in H. apply in_combine_r in Hin. now apply H.
  - apply Forall_map. eapply Forall_impl; [|exact H]. intros r (L & Hr). now apply cells_line.
Qed.
Lemma stop_at_block l : block_start l -> negb (starts (elem_types ++ block_types) l) = false.
Proof.
  intros (S & B & _). unfold starts in *. destruct (split l) as [|w ws]; [now elim S|]. unfold str_in in *. rewrite existsb_app, B. now rewrite orb_true_r.
Qed.
Lemma stop_at_type t : In t elem_types -> negb (starts (elem_types ++ block_types) (line_of t [])) = false.
Proof.
  intro H. rewrite (starts_iff _ _ _ _ (type_line_split t H)), l2s_s2l. unfold str_in. rewrite existsb_app. fold (str_in t elem_types). now rewrite str_in_In.
Qed.

(** ** All types of a block *)
Fixpoint types_lines (ids : bool) (i : list (string * list Z)) (d : list (string * list (list Z))) : list text :=
  match i, d with
  | q :: i', p :: d' => type_lines ids q p ++ types_lines ids i' d'
  | _, _ => []
  end.
Lemma types_read ids i d : Forall2 (good_pair ids) i d -> Forall good_type d -> NoDup (map fst d) -> forall fuel acc nacc l rest,
  map fst acc = map fst nacc -> (forall t, In t (map fst d) -> ~ In t (map fst acc)) -> block_start l -> (length (types_lines ids i d) < fuel)%nat ->
  exists x r, types_lines ids i d ++ l :: rest = x :: r /\ read_types fuel ids acc nacc x r = LEnd (acc ++ d, nacc ++ i) l rest.
Proof.
  induction 1 as [|q p i d HP H IH]; intros HT ND fuel acc nacc l rest EA HN HB HF.
  - exists l, rest. split; [reflexivity|]. destruct fuel as [|k]; [inversion HF|]. cbn [read_types]. destruct HB as (_ & _ & ->). now rewrite !app_nil_r.
  - inversion HT as [|? ? Tp HT']; subst. inversion ND as [|? ? NI ND']; subst. cbn [types_lines] in *. rewrite app_length in HF.
    pose proof (elem_rows ids q p HP Tp [] []) as ER. pose proof (rows_not_special ids q p HP Tp) as NS. set (rows := tl (type_lines ids q p)) in *.
    assert (EL : type_lines ids q p = line_of (fst p) [] :: rows) by reflexivity. clearbody rows. rewrite EL in *. cbn [length] in HF. exists (line_of (fst p) []), ((rows ++ types_lines ids i d) ++ l :: rest).
    split; [reflexivity|]. destruct fuel as [|k]; [inversion HF|]. cbn [read_types]. destruct Tp as (Ht & Ne & n & Hn & Hrows). unfold elem_type_line at 1. rewrite (type_line_strip _ Ht), l2s_s2l, str_in_In by exact Ht.
    destruct (IH HT' ND' k (acc ++ [(fst p, snd p)]) (nacc ++ [(fst p, snd q)]) l rest) as (x & r & Ex & Er).
    { rewrite !map_app. now rewrite EA. }
    { intros t Htd Hin. rewrite map_app in Hin. apply in_app_or in Hin as [Hin|[<-|[]]]; [|contradiction]. apply (HN t); [now right|exact Hin]. }
    { exact HB. }
    { lia. }
    rewrite <- app_assoc, Ex.
    assert (Sx : split x <> []).
    { inversion H as [|q' p' i' d' HP' H' E1 E2]; subst; cbn [types_lines app] in Ex; [injection Ex as <- _; apply HB|]. inversion HT' as [|? ? Tp' _]; subst. unfold type_lines in Ex. cbn [app] in Ex. injection Ex as <- _. rewrite type_line_split by apply Tp'. discriminate. }
    assert (Cx : negb (starts (elem_types ++ block_types) x) = false).
    { inversion H as [|q' p' i' d' HP' H' E1 E2]; subst; cbn [types_lines app] in Ex; [injection Ex as <- _; apply stop_at_block, HB|]. inversion HT' as [|? ? Tp' _]; subst. unfold type_lines in Ex. cbn [app] in Ex. injection Ex as <- _. apply stop_at_type, Tp'. }
    destruct (while_lines (elem_line ids) (fun l => negb (starts (elem_types ++ block_types) l)) rows k ([], []) _ x r NS Sx Cx ER ltac:(lia)) as (y & s & Ey & Ew).
    rewrite Ey, Ew. cbn [app]. rewrite (rows_back _ n Hrows).
    assert (EN : rmap to_int32 (map znum (snd q)) = Ok (snd q)). { destruct HP as (_ & HP). destruct ids; [apply ints_back; apply HP|now rewrite HP]. }
    rewrite EN, !oset_new.
    + rewrite Er. destruct p as [t rs], q as [t' ns]. destruct HP as (E1 & _). cbn [fst snd] in *. subst t'. now rewrite <- !app_assoc.
    + rewrite <- EA. apply HN. now left.
    + apply HN. now left.
Qed.

(** ** A block of elements *)
Lemma percent_line s t w : s2l s = s2l w ++ [blank] -> word (s2l w) -> one_line t -> directive_text (split (line_of s (quoted t))) = t /\ exists ws, split (line_of s (quoted t)) = s2l w :: ws.
Proof.
  intros E W H. unfold line_of. rewrite E, <- app_assoc. split; [now apply directive_quoted|]. cbn [app]. rewrite split_word by (exact W || reflexivity). eauto.
Qed.
Lemma quoted_no_nl t : one_line t -> ~ In nl (quoted t).
Proof.
  intros [HS _] [K|K]; [discriminate|]. apply in_app_or in K as [K|[K|[]]]; [|discriminate]. specialize (HS nl K eq_refl). discriminate.
Qed.
Definition elem_heads (e : elements) (ids : bool) : list text :=
  [line_of "%NAME " (quoted (e_name e)); line_of "%DESCRIPTION " (quoted (e_descr e)); line_of "%NODES #" (znum (e_nodes e)); line_of (if ids then "%WITH_ID" else "%NO_ID") []].
Lemma node_ref n : 0 <= n -> split (line_of "%NODES #" (znum n)) = [s2l "%NODES"; "#"%char :: znum n].
Proof.
  intro H. change (line_of "%NODES #" (znum n)) with (s2l "%NODES" ++ blank :: ("#"%char :: znum n) ++ [nl]). rewrite split_word by (reflexivity || wordly).
  rewrite split_word; [reflexivity| |reflexivity]. split; [discriminate|]. constructor; [reflexivity|]. now destruct (znum_word n H).
Qed.
Lemma slice_tail {A} (c : A) l : slice_from 1 (c :: l) = l.
Proof. unfold slice_from, clamp. pose proof (Zlen_nonneg l). replace (Zlen (c :: l)) with (Zlen l + 1) by (unfold Zlen; cbn [length]; lia). change (1 <? 0) with false. cbn iota. replace (Z.to_nat (Z.min 1 (Zlen l + 1))) with 1%nat by lia. reflexivity. Qed.
Lemma elem_heads_fold e ids : one_line (e_name e) -> one_line (e_descr e) -> 0 <= e_nodes e ->
  foldm elem_directive (elem_heads e ids) ([], [], 0, false) = Ok (e_name e, e_descr e, e_nodes e, ids).
Proof.
  intros Hn Hd Hk. destruct (percent_line "%NAME " (e_name e) "%NAME" eq_refl ltac:(wordly) Hn) as (D1 & w1 & S1). destruct (percent_line "%DESCRIPTION " (e_descr e) "%DESCRIPTION" eq_refl ltac:(wordly) Hd) as (D2 & w2 & S2).
  pose proof (node_ref (e_nodes e) Hk) as S3. unfold elem_heads. cbn [foldm].
  unfold elem_directive at 1. rewrite D1, (word0_is _ _ _ S1). change (String.eqb (l2s (s2l "%NAME")) "%NAME") with true. cbn iota.
  unfold elem_directive at 1. rewrite D2, (word0_is _ _ _ S2). change (String.eqb (l2s (s2l "%DESCRIPTION")) "%NAME") with false. change (String.eqb (l2s (s2l "%DESCRIPTION")) "%DESCRIPTION") with true. cbn iota.
  unfold elem_directive at 1. rewrite (word0_is _ _ _ S3), S3. change (String.eqb (l2s (s2l "%NODES")) "%NAME") with false. change (String.eqb (l2s (s2l "%NODES")) "%DESCRIPTION") with false. change (String.eqb (l2s (s2l "%NODES")) "%NODES") with true. cbn iota.
  cbn [toks1 pyget nth_error rbind]. rewrite slice_tail, int_znum by exact Hk. cbn [rbind]. destruct ids; reflexivity.
Qed.
Lemma elem_heads_start e ids : one_line (e_name e) -> one_line (e_descr e) -> 0 <= e_nodes e ->
  Forall (fun x => starts elem_directives x = true /\ split x <> []) (elem_heads e ids) /\ Forall is_line (elem_heads e ids).
Proof.
  intros Hn Hd Hk. destruct (percent_line "%NAME " (e_name e) "%NAME" eq_refl ltac:(wordly) Hn) as (D1 & w1 & S1). destruct (percent_line "%DESCRIPTION " (e_descr e) "%DESCRIPTION" eq_refl ltac:(wordly) Hd) as (D2 & w2 & S2).
  pose proof (node_ref (e_nodes e) Hk) as S3. split.
  - unfold elem_heads. constructor; [rewrite (starts_iff _ _ _ _ S1), S1; split; [reflexivity|discriminate]|]. constructor; [rewrite (starts_iff _ _ _ _ S2), S2; split; [reflexivity|discriminate]|].
    constructor; [rewrite (starts_iff _ _ _ _ S3), S3; split; [reflexivity|discriminate]|]. constructor; [|constructor]. destruct ids; split; (reflexivity || discriminate).
  - unfold elem_heads. constructor; [apply line_is; [reflexivity|now apply quoted_no_nl]|]. constructor; [apply line_is; [reflexivity|now apply quoted_no_nl]|].
    constructor; [apply line_is; [reflexivity|now apply znum_no_nl]|]. constructor; [|constructor]. apply line_is; [destruct ids; reflexivity|intros []].
Qed.
Lemma block_no_directive l : block_start l -> starts elem_directives l = false.
Proof.
  intros (S & B & _). unfold starts in *. destruct (split l) as [|w ws]; [now elim S|]. unfold str_in in B. apply existsb_exists in B as (b & Hb & E). apply String.eqb_eq in E. rewrite E. revert Hb. cbn [block_types In].
  intros [<-|[<-|[<-|[<-|[<-|[]]]]]]; reflexivity.
Qed.
Lemma type_no_directive t : In t elem_types -> starts elem_directives (line_of t []) = false.
Proof. intro H. rewrite (starts_iff _ _ _ _ (type_line_split t H)), l2s_s2l. revert H. cbn [elem_types In]. intros [<-|[<-|[<-|[<-|[<-|[<-|[]]]]]]]; reflexivity. Qed.
Lemma rmap_type_with_ids i d : Forall2 (good_pair true) i d -> Forall good_type d ->
  rmap (fun q => write_type (Some (snd (fst q))) (snd q)) (combine i d) = Ok (map (fun q => concat (type_lines true (fst q) (snd q))) (combine i d)) /\
  concat (map (fun q => concat (type_lines true (fst q) (snd q))) (combine i d)) = concat (types_lines true i d).
Proof.
  induction 1 as [|q p i d HP H IH]; intro HT; [split; reflexivity|]. inversion HT as [|? ? (_ & Ne & _) HT']; subst. destruct (IH HT') as (E1 & E2). cbn [combine map rmap types_lines fst snd concat]. split.
  - destruct p as [t [|r rows]]; [now elim Ne|]. unfold write_type at 1. cbn [width fst snd rbind]. rewrite E1. reflexivity.
  - now rewrite concat_app, E2.
Qed.
Lemma rmap_type_without d : Forall good_type d ->
  rmap (write_type None) d = Ok (map (fun p => concat (type_lines false (fst p, []) p)) d) /\
  concat (map (fun p => concat (type_lines false (fst p, []) p)) d) = concat (types_lines false (map (fun p => (fst p, [])) d) d).
Proof.
  induction 1 as [|p d (_ & Ne & _) H (E1 & E2)]; [split; reflexivity|]. cbn [map rmap types_lines concat]. split.
  - destruct p as [t [|r rows]]; [now elim Ne|]. unfold write_type at 1. cbn [width fst snd rbind]. rewrite E1. reflexivity.
  - now rewrite concat_app, E2.
Qed.
Lemma without_pairs (d : list (string * list (list Z))) : Forall2 (good_pair false) (map (fun p => (fst p, [])) d) d.
Proof. induction d as [|p d IH]; constructor; [split; reflexivity|exact IH]. Qed.
Lemma types_lines_are ids i d : Forall2 (good_pair ids) i d -> Forall good_type d -> Forall is_line (types_lines ids i d).
Proof.
  induction 1 as [|q p i d HP H IH]; intro HT; [constructor|]. inversion HT; subst. cbn [types_lines]. apply Forall_app. split; [now apply type_lines_are|now apply IH].
Qed.

Lemma elements_block v b : good_elements b -> elem_order v (snd b) = Ok (e_dict (snd b)) ->
  exists l0 ls, Forall is_line (l0 :: ls) /\ write_elements v b = Ok (concat (l0 :: ls)) /\ heads l0 "*ELEMENTS" (fst b) /\ block_start l0 /\
    forall fuel loc w l rest, block_start l -> (length ls < fuel)%nat ->
      exists loc', read_elements fuel (fst b) loc (ls ++ l :: rest) w =
        (More l rest (set_elems w (oset Z.eqb (fst b) (mkElems (e_name (snd b)) (e_descr (snd b)) (e_nodes (snd b)) (e_dict (snd b)) (e_ids (snd b)) []) (v_elems w))), loc').
Proof.
  destruct b as [k e]. unfold good_elements. cbn [fst snd]. intros (Hk & Hn & Hd & Hnd & ND & HT & HI) EO.
  set (ids := with_id e).
  assert (P : exists i, Forall2 (good_pair ids) i (e_dict e) /\ (if ids then Some i else None) = e_ids e /\
                (if ids then rmap (fun q => write_type (Some (snd (fst q))) (snd q)) (combine (match e_ids e with Some d => d | None => [] end) (e_dict e)) else rmap (write_type None) (e_dict e))
                = Ok (match ids with true => map (fun q => concat (type_lines true (fst q) (snd q))) (combine i (e_dict e)) | false => map (fun p => concat (type_lines false (fst p, []) p)) (e_dict e) end) /\
                concat (match ids with true => map (fun q => concat (type_lines true (fst q) (snd q))) (combine i (e_dict e)) | false => map (fun p => concat (type_lines false (fst p, []) p)) (e_dict e) end) = concat (types_lines ids i (e_dict e))).
  { subst ids. unfold with_id. destruct (e_ids e) as [i|] eqn:Ei.
    - destruct HI as (Ne & F2). destruct i as [|q i]; [now elim Ne|]. exists (q :: i). destruct (rmap_type_with_ids (q :: i) (e_dict e) F2 HT) as (E1 & E2). repeat split; assumption.
    - exists (map (fun p => (fst p, [])) (e_dict e)). destruct (rmap_type_without (e_dict e) HT) as (E1 & E2). split; [apply without_pairs|]. repeat split; assumption. }
  destruct P as (i & HP & Ei & Er & Ec).
  destruct (elem_heads_start e ids Hn Hd Hnd) as (HS & HL). pose proof (elem_heads_fold e ids Hn Hd Hnd) as HFo.
  assert (H0 : heads (line_of "*ELEMENTS " (znum k)) "*ELEMENTS" k) by (unfold heads; rewrite (split_two _ "*ELEMENTS") by (reflexivity || wordly); now rewrite split_num).
  exists (line_of "*ELEMENTS " (znum k)), (elem_heads e ids ++ types_lines ids i (e_dict e)). split; [|split; [|split; [exact H0|split]]].
  - constructor; [apply line_is; [reflexivity|now apply znum_no_nl]|]. apply Forall_app. split; [exact HL|now apply types_lines_are].
  - unfold write_elements. rewrite EO. cbn [rbind]. fold ids. rewrite Er. cbn [rbind]. rewrite Ec. cbn [concat]. rewrite concat_app. unfold elem_heads. cbn [concat]. now rewrite <- ?app_assoc, ?app_nil_r.
  - eapply heads_start; [exact H0|cbn; tauto|eexists; reflexivity].
  - intros fuel loc w l rest HB HF. rewrite app_length in HF.
    destruct (types_read ids i (e_dict e) HP HT ND fuel [] [] l rest eq_refl ltac:(intros t _ []) HB ltac:(lia)) as (x & r & Ex & Et).
    assert (Sx : split x <> [] /\ starts elem_directives x = false).
    { inversion HP as [E1 E2|q p i' d' HP' H' E1 E2]; rewrite <- E1, <- E2 in Ex; cbn [types_lines app] in Ex; [injection Ex as <- _; split; [apply HB|now apply block_no_directive]|].
      rewrite <- E2 in HT. inversion HT as [|? ? Tp _]; subst. unfold type_lines in Ex. cbn [app] in Ex. injection Ex as <- _. split; [rewrite type_line_split by apply Tp; discriminate|apply type_no_directive, Tp]. }
    destruct Sx as (Sx & Dx). rewrite <- app_assoc, Ex.
    destruct (while_lines elem_directive (starts elem_directives) (elem_heads e ids) fuel ([], [], 0, false) _ x r HS Sx Dx HFo ltac:(lia)) as (y & s & Ey & Ew).
    unfold read_elements. rewrite Ey, Ew, Et. rewrite !app_nil_l. rewrite Ei. eexists. reflexivity.
Qed.
