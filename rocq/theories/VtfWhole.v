(** * VtfWhole: a whole VTF file written and read *)
From Coq Require Import ZifyBool.
From Verif Require Import Base ListFacts Flt RoundSpec NumeralSpec NumeralProofs Write Vtf VtfSpec VtfText VtfNodes VtfElems VtfRest.
Open Scope string_scope.
Open Scope Z_scope.
Open Scope list_scope.
Open Scope monad_scope.

(** ** Reading from a list of lines *)
Definition rb (fuel : nat) (loc : local) (L : list text) (v : vtf) : Res vtf :=
  match L with [] => Ok v | l :: r => read_blocks fuel loc l r v end.
Definition tail_ok (R : list text) : Prop := match R with [] => True | l :: _ => block_start l end.
(** The lines [B] take the object from [v] to [w]; [fin]: also at the end of the file. *)
Definition takes (fin : bool) (B : list text) (v w : vtf) : Prop :=
  tail_ok B /\ forall R, tail_ok R -> (fin = false -> R <> []) -> forall fuel loc, (length (B ++ R) < fuel)%nat ->
    exists fuel' loc', (length R < fuel')%nat /\ rb fuel loc (B ++ R) v = rb fuel' loc' R w.
Lemma takes_nil v : takes true [] v v.
Proof. split; [exact I|]. intros R _ _ fuel loc H. eauto. Qed.
Lemma takes_weaken B v w : takes true B v w -> takes false B v w.
Proof. intros (H & T). split; [exact H|]. intros R HR _. apply T; [exact HR|discriminate]. Qed.
Lemma tail_app A B : tail_ok A -> tail_ok B -> tail_ok (A ++ B).
Proof. destruct A; trivial. Qed.
Lemma takes_app A B u v w f : takes false A u v -> takes f B v w -> (f = true -> B <> []) -> takes f (A ++ B) u w.
Proof.
  intros (HA & TA) (HB & TB) Hf. split; [now apply tail_app|]. intros R HR NR fuel loc HL. rewrite <- app_assoc in *.
  destruct (TA (B ++ R) ltac:(now apply tail_app)) with (fuel := fuel) (loc := loc) as (f1 & l1 & L1 & ->); [|exact HL|].
  - intros _ E. apply app_eq_nil in E as [E1 E2]. destruct f; [now apply Hf|now apply NR].
  - now apply TB.
Qed.
Lemma takes_app' A B u v w f : takes true A u v -> takes f B v w -> takes f (A ++ B) u w.
Proof.
  intros (HA & TA) (HB & TB). split; [now apply tail_app|]. intros R HR NR fuel loc HL. rewrite <- app_assoc in *.
  destruct (TA (B ++ R) ltac:(now apply tail_app) ltac:(discriminate) fuel loc HL) as (f1 & l1 & L1 & ->). now apply TB.
Qed.

Lemma at_block fuel l ls : block_start l -> while (S fuel) not_block (plain (fun _ u => Ok u)) tt l ls = LEnd tt l ls.
Proof. intros (_ & B & _). cbn [while]. unfold not_block. now rewrite B. Qed.
Lemma skip_one k loc x l r v : not_block x = true -> block_start l -> read_blocks (S (S k)) loc x (l :: r) v = read_blocks (S (S k)) loc l r v.
Proof.
  intros Nx HB. cbn [read_blocks]. rewrite (at_block (S k) l r HB). assert (E : while (S (S k)) not_block (plain (fun _ u => Ok u)) tt x (l :: r) = LEnd tt l r).
  { cbn [while]. rewrite Nx. cbn [plain]. rewrite next_nonblank by apply HB. exact (at_block k l r HB). }
  now rewrite E.
Qed.
Lemma skip_two k loc (x y : text) (R : list text) v : not_block x = true -> not_block y = true -> split y <> [] -> tail_ok R -> (length R < S k)%nat ->
  read_blocks (S (S k)) loc x (y :: R) v = rb (S (S k)) loc R v.
Proof.
  intros Nx Ny Sy TR HF. destruct R as [|l rest]; cbn [rb tail_ok length] in *.
  - cbn [read_blocks]. assert (E : while (S (S k)) not_block (plain (fun _ u => Ok u)) tt x [y] = LEof tt); [|now rewrite E].
    cbn [while]. rewrite Nx. cbn [plain]. rewrite next_nonblank by exact Sy. now rewrite Ny.
  - destruct k as [|k]; [lia|]. cbn [read_blocks]. rewrite (at_block (S (S k)) l rest TR).
    assert (E : while (S (S (S k))) not_block (plain (fun _ u => Ok u)) tt x (y :: l :: rest) = LEnd tt l rest); [|now rewrite E].
    cbn [while]. rewrite Nx. cbn [plain]. rewrite next_nonblank by exact Sy. rewrite Ny. rewrite next_nonblank by apply TR. exact (at_block k l rest TR).
Qed.
(** One step, given what the block does *)
Lemma dispatch k loc l0 ls b id v : block_start l0 -> heads l0 b id -> 0 <= id -> read_blocks (S k) loc l0 ls v =
  (let '(out, loc) :=
     if String.eqb b "*NODES" then (read_nodes (S k) id ls v, loc)
     else if String.eqb b "*ELEMENTS" then read_elements (S k) id loc ls v
     else if String.eqb b "*RESULTS" then (read_results (S k) id ls v, loc)
     else if String.eqb b "*GLVIEWSCALAR" then read_scalar (S k) id loc ls v
     else if String.eqb b "*GLVIEWGEOMETRY" then (read_geometry (S k) id ls v, loc)
     else (More l0 ls v, loc) in
   match out with More line ls v => read_blocks k loc line ls v | Finished v => Ok v | Failed e => Err e end).
Proof.
  intros HB HH Hid. cbn [read_blocks]. rewrite (at_block k l0 ls HB). unfold heads in HH. rewrite HH. rewrite int_znum by exact Hid. cbn [rbind]. now rewrite l2s_s2l.
Qed.

(** ** Nodes *)
Lemma oset_key_nodes k (x : nodes) d : ~ In (Some k) (map fst d) -> oset oz_eqb (Some k) x d = d ++ [(Some k, x)].
Proof.
  induction d as [|(k', y) d IH]; intro N; [reflexivity|]. cbn [oset map fst In app] in *. destruct (oz_eqb (Some k) k') eqn:E.
  - destruct k' as [j|]; [|discriminate]. cbn in E. apply Z.eqb_eq in E as ->. elim N. now left.
  - now rewrite IH by tauto.
Qed.
Lemma oset_key_z {V} k (x : V) d : ~ In k (map fst d) -> oset Z.eqb k x d = d ++ [(k, x)].
Proof.
  induction d as [|(k', y) d IH]; intro N; [reflexivity|]. cbn [oset map fst In app] in *. destruct (Z.eqb_spec k k') as [->|_]; [elim N; now left|]. now rewrite IH by tauto.
Qed.
Definition like_nodes (a b : option Z * nodes) : Prop := fst a = fst b /\ n_ids (snd a) = n_ids (snd b) /\ Forall2 (Forall2 same_coord) (n_arr (snd a)) (n_arr (snd b)).
Lemma takes_nodes b : good_nodes b -> exists B b', Forall is_line B /\ B <> [] /\ write_nodes b = Ok (concat B) /\ like_nodes b b' /\
  forall v, ~ In (fst b) (map fst (v_nodes v)) -> takes false B v (set_nodes v (v_nodes v ++ [b'])).
Proof.
  intro G. pose proof G as ((k & Hk & Ek) & _). destruct (nodes_block b k G Ek) as (l0 & ls & b' & HL & HW & (HH & HS) & HE & HR). exists (l0 :: ls), (Some k, b').
  split; [exact HL|]. split; [discriminate|]. split; [exact HW|]. split; [split; [exact Ek|exact HE]|]. intros v N. assert (HB : block_start l0) by (eapply heads_start; [exact HH|cbn; tauto|exact HS]).
  split; [exact HB|]. intros [|l rest] TR NR fuel loc HF; [now elim NR|]. cbn [tail_ok] in TR. cbn [app rb length] in *. rewrite app_length in HF. destruct fuel as [|k0]; [lia|]. cbn [length] in HF. exists k0, loc. split; [lia|].
  rewrite (dispatch k0 loc l0 _ "*NODES" k v HB HH Hk). change (String.eqb "*NODES" "*NODES") with true. cbn iota. rewrite HR by (exact TR || lia). rewrite oset_key_nodes by now rewrite <- Ek. reflexivity.
Qed.
Lemma takes_all_nodes bs : Forall good_nodes bs -> NoDup (map fst bs) -> exists B ts bs', Forall is_line B /\ (bs = [] -> B = []) /\ rmap write_nodes bs = Ok ts /\ concat ts = concat B /\ Forall2 like_nodes bs bs' /\
  forall v, (forall b, In b bs -> ~ In (fst b) (map fst (v_nodes v))) -> takes (match bs with [] => true | _ => false end) B v (set_nodes v (v_nodes v ++ bs')).
Proof.
  induction 1 as [|b bs G H IH]; intro ND.
  - exists [], [], []. repeat split; try constructor; auto. intros R _ _ fuel loc HF. exists fuel, loc. split; [exact HF|]. destruct v. cbn. now rewrite app_nil_r.
  - inversion ND as [|? ? N ND']; subst. destruct (IH ND') as (B & ts & bs' & HL & HN & HW & HC & HE & HT). destruct (takes_nodes b G) as (B1 & b' & HL1 & NB1 & HW1 & HE1 & HT1).
    exists (B1 ++ B), (concat B1 :: ts), (b' :: bs'). split; [apply Forall_app; now split|]. split; [discriminate|]. split; [cbn [rmap]; now rewrite HW1, HW|]. split; [cbn [concat]; now rewrite concat_app, HC|]. split; [now constructor|].
    intros v Hv. specialize (HT1 v (Hv b ltac:(now left))). specialize (HT (set_nodes v (v_nodes v ++ [b']))). cbn [v_nodes set_nodes] in HT. rewrite <- app_assoc in HT. cbn [app] in HT.
    assert (HT' : takes (match bs with [] => true | _ => false end) B (set_nodes v (v_nodes v ++ [b'])) (set_nodes v (v_nodes v ++ b' :: bs'))).
    { apply HT. intros c Hc K. rewrite map_app in K. apply in_app_or in K as [K|[K|[]]]; [apply (Hv c); [now right|exact K]|]. destruct HE1 as (E & _). rewrite <- E in K. apply N. rewrite K. now apply in_map. }
    apply (takes_app _ _ _ (set_nodes v (v_nodes v ++ [b']))); [exact HT1| |discriminate]. destruct bs; [now apply takes_weaken|exact HT'].
Qed.

(** ** Elements *)
Definition unread (b : Z * elements) : Z * elements := (fst b, mkElems (e_name (snd b)) (e_descr (snd b)) (e_nodes (snd b)) (e_dict (snd b)) (e_ids (snd b)) []).
Lemma takes_elements v b : good_elements b -> elem_order v (snd b) = Ok (e_dict (snd b)) -> exists B, Forall is_line B /\ B <> [] /\ write_elements v b = Ok (concat B) /\
  forall w, ~ In (fst b) (map fst (v_elems w)) -> takes false B w (set_elems w (v_elems w ++ [unread b])).
Proof.
  intros G EO. destruct (elements_block v b G EO) as (l0 & ls & HL & HW & HH & HB & HR). destruct G as (Hk & _). exists (l0 :: ls). split; [exact HL|]. split; [discriminate|]. split; [exact HW|]. intros w N.
  split; [exact HB|]. intros [|l rest] TR NR fuel loc HF; [now elim NR|]. cbn [tail_ok] in TR. cbn [app rb length] in *. rewrite app_length in HF. destruct fuel as [|k0]; [lia|]. cbn [length] in HF.
  destruct (HR (S k0) loc w l rest TR ltac:(lia)) as (loc' & Er). exists k0, loc'. split; [lia|].
  rewrite (dispatch k0 loc l0 _ "*ELEMENTS" (fst b) w HB HH Hk). change (String.eqb "*ELEMENTS" "*NODES") with false. change (String.eqb "*ELEMENTS" "*ELEMENTS") with true. cbn iota. rewrite Er, oset_key_z by exact N. reflexivity.
Qed.
Lemma takes_all_elements v bs : Forall good_elements bs -> Forall (fun b => elem_order v (snd b) = Ok (e_dict (snd b))) bs -> NoDup (map fst bs) -> exists B ts, Forall is_line B /\ rmap (write_elements v) bs = Ok ts /\ concat ts = concat B /\ (bs <> [] -> B <> []) /\
  forall w, (forall b, In b bs -> ~ In (fst b) (map fst (v_elems w))) -> takes (match bs with [] => true | _ => false end) B w (set_elems w (v_elems w ++ map unread bs)).
Proof.
  induction 1 as [|b bs G H IH]; intros EO ND.
  - exists [], []. repeat split; try constructor; auto. intros R _ _ fuel loc HF. exists fuel, loc. split; [exact HF|]. destruct w. cbn. now rewrite app_nil_r.
  - inversion ND as [|? ? N ND']; subst. inversion EO as [|? ? E1 EO']; subst. destruct (IH EO' ND') as (B & ts & HL & HW & HC & _ & HT). destruct (takes_elements v b G E1) as (B1 & HL1 & NB1 & HW1 & HT1).
    exists (B1 ++ B), (concat B1 :: ts). split; [apply Forall_app; now split|]. split; [cbn [rmap]; now rewrite HW1, HW|]. split; [cbn [concat]; now rewrite concat_app, HC|].
    split; [intros _ K; apply app_eq_nil in K as [K _]; contradiction|].
    intros w Hw. specialize (HT1 w (Hw b ltac:(now left))). specialize (HT (set_elems w (v_elems w ++ [unread b]))). cbn [v_elems set_elems] in HT. rewrite <- app_assoc in HT. cbn [app] in HT.
    assert (HT' : takes (match bs with [] => true | _ => false end) B (set_elems w (v_elems w ++ [unread b])) (set_elems w (v_elems w ++ map unread (b :: bs)))).
    { apply HT. intros c Hc K. rewrite map_app in K. apply in_app_or in K as [K|[K|[]]]; [apply (Hw c); [now right|exact K]|]. cbn in K. apply N. rewrite K. now apply in_map. }
    apply (takes_app _ _ _ (set_elems w (v_elems w ++ [unread b]))); [exact HT1| |discriminate]. destruct bs; [now apply takes_weaken|exact HT'].
Qed.

(** ** Geometry *)
Lemma commas_word l : l <> [] -> Forall (fun i => 0 <= i) l -> word (commas l) /\ exists c r, commas l = c :: r /\ number_char c.
Proof.
  intros N H. induction H as [|z l Hz H IH]; [now elim N|]. destruct (znum_head z Hz) as (c & r & E & Nc). destruct l as [|y l]; cbn [commas].
  - split; [now apply znum_word|eauto].
  - destruct IH as ((_ & S) & _); [discriminate|]. split; [|rewrite E; cbn [app]; eauto]. split; [rewrite E; discriminate|]. apply solid_app; [now apply znum_word|]. constructor; [reflexivity|exact S].
Qed.
Lemma block_no_geom l : block_start l -> starts geom_directives l = false.
Proof.
  intros (S & B & _). unfold starts in *. destruct (split l) as [|w ws]; [now elim S|]. unfold str_in in B. apply existsb_exists in B as (b & Hb & E). apply String.eqb_eq in E. rewrite E. revert Hb. cbn [block_types In].
  intros [<-|[<-|[<-|[<-|[<-|[]]]]]]; reflexivity.
Qed.
Lemma takes_geometry v : 0 <= v_geom v -> one_line (v_name v) -> one_line (v_descr v) -> v_elems v <> [] -> Forall good_elements (v_elems v) -> exists B, Forall is_line B /\ B <> [] /\ write_geometry v = Ok (concat B) /\
  forall w, takes true B w (set_names (set_geom w (v_geom v)) (v_name v) (v_descr v)).
Proof.
  intros Hk Hn Hd Ne GE. set (k := v_geom v) in *. set (cl := commas (map fst (v_elems v)) ++ [nl]).
  assert (HC : word (commas (map fst (v_elems v))) /\ exists c r, commas (map fst (v_elems v)) = c :: r /\ number_char c).
  { apply commas_word; [destruct (v_elems v); [now elim Ne|discriminate]|]. apply Forall_map. eapply Forall_impl; [|exact GE]. intros b (H & _). exact H. }
  destruct HC as (HW & c & r & Ec & Nc). destruct (percent_line "%NAME " (v_name v) "%NAME" eq_refl ltac:(wordly) Hn) as (D1 & w1 & S1). destruct (percent_line "%DESCRIPTION " (v_descr v) "%DESCRIPTION" eq_refl ltac:(wordly) Hd) as (D2 & w2 & S2).
  assert (Sc : split cl = [commas (map fst (v_elems v))]) by (unfold cl; rewrite split_word by (exact HW || reflexivity); reflexivity).
  assert (H0 : heads (line_of "*GLVIEWGEOMETRY " (znum k)) "*GLVIEWGEOMETRY" k) by (unfold heads; rewrite (split_two _ "*GLVIEWGEOMETRY") by (reflexivity || wordly); now rewrite split_num).
  assert (HB : block_start (line_of "*GLVIEWGEOMETRY " (znum k))) by (eapply heads_start; [exact H0|cbn; tauto|eexists; reflexivity]).
  assert (Sel : split (line_of "%ELEMENTS" []) = [s2l "%ELEMENTS"]) by reflexivity.
  exists [line_of "*GLVIEWGEOMETRY " (znum k); line_of "%NAME " (quoted (v_name v)); line_of "%DESCRIPTION " (quoted (v_descr v)); line_of "%ELEMENTS" []; cl]. split; [|split; [discriminate|split]].
  - constructor; [apply line_is; [reflexivity|now apply znum_no_nl]|]. constructor; [apply line_is; [reflexivity|now apply quoted_no_nl]|]. constructor; [apply line_is; [reflexivity|now apply quoted_no_nl]|]. constructor; [apply line_is; [reflexivity|intros []]|].
    constructor; [|constructor]. exists (commas (map fst (v_elems v))). split; [reflexivity|]. apply space_not_nl, HW.
  - unfold write_geometry. destruct (v_elems v); [now elim Ne|]. cbn [concat]. rewrite app_nil_r. reflexivity.
  - intro w. split; [exact HB|]. intros R TR _ fuel loc HF. cbn [app rb length] in *. destruct fuel as [|k0]; [lia|].
    rewrite (dispatch k0 loc _ _ "*GLVIEWGEOMETRY" k w HB H0 Hk).
    change (String.eqb "*GLVIEWGEOMETRY" "*NODES") with false. change (String.eqb "*GLVIEWGEOMETRY" "*ELEMENTS") with false. change (String.eqb "*GLVIEWGEOMETRY" "*RESULTS") with false. change (String.eqb "*GLVIEWGEOMETRY" "*GLVIEWSCALAR") with false. change (String.eqb "*GLVIEWGEOMETRY" "*GLVIEWGEOMETRY") with true. cbn iota.
    set (w' := set_names (set_geom w k) (v_name v) (v_descr v)).
    assert (HG : read_geometry (S k0) k (line_of "%NAME " (quoted (v_name v)) :: line_of "%DESCRIPTION " (quoted (v_descr v)) :: line_of "%ELEMENTS" [] :: cl :: R) w = More (line_of "%ELEMENTS" []) (cl :: R) w').
    { assert (HF2 : foldm geom_directive [line_of "%NAME " (quoted (v_name v)); line_of "%DESCRIPTION " (quoted (v_descr v))] (set_geom w k) = Ok w').
      { cbn [foldm]. unfold geom_directive at 1. rewrite D1, (word0_is _ _ _ S1). change (String.eqb (l2s (s2l "%NAME")) "%NAME") with true. cbn iota. unfold geom_directive. rewrite D2, (word0_is _ _ _ S2). reflexivity. }
      destruct (while_lines geom_directive (starts geom_directives) [line_of "%NAME " (quoted (v_name v)); line_of "%DESCRIPTION " (quoted (v_descr v))] (S k0) (set_geom w k) w' (line_of "%ELEMENTS" []) (cl :: R)) as (y & s & Ey & Ew).
      - constructor; [rewrite (starts_iff _ _ _ _ S1), S1; split; [reflexivity|discriminate]|]. constructor; [rewrite (starts_iff _ _ _ _ S2), S2; split; [reflexivity|discriminate]|constructor].
      - discriminate.
      - reflexivity.
      - exact HF2.
      - cbn [length]. lia.
      - unfold read_geometry. cbn [app] in Ey. rewrite Ey, Ew. reflexivity. }
    match goal with |- context [read_geometry ?a ?b ?c ?d] => replace (read_geometry a b c d) with (More (line_of "%ELEMENTS" []) (cl :: R) w') by (symmetry; exact HG) end. destruct k0 as [|[|k0]]; [lia|lia|]. exists (S (S k0)), loc. split; [lia|].
    assert (Nb : not_block cl = true). { unfold not_block. rewrite Ec in Sc. rewrite (no_star _ _ _ _ Sc); [reflexivity|]. now apply number_not_special. }
    apply skip_two; [reflexivity|exact Nb|rewrite Sc; discriminate|exact TR|lia].
Qed.

(** ** Results *)
Definition refs (rs : list (Z * results)) (b : Z * elements) : Z * elements :=
  (fst b, mkElems (e_name (snd b)) (e_descr (snd b)) (e_nodes (snd b)) (e_dict (snd b)) (e_ids (snd b)) (e_res (snd b) ++ map fst (filter (fun r => r_elems (snd r) =? fst b) rs))).
Lemma refs_none rs b : (forall r, In r rs -> r_elems (snd r) <> fst b) -> refs rs b = b.
Proof.
  intro H. assert (E : filter (fun r => r_elems (snd r) =? fst b) rs = []).
  { induction rs as [|r rs IH]; [reflexivity|]. cbn [filter]. destruct (Z.eqb_spec (r_elems (snd r)) (fst b)) as [E|_]; [elim (H r); [now left|exact E]|]. apply IH. intros s Hs. apply H. now right. }
  unfold refs. rewrite E. cbn [map]. rewrite app_nil_r. destruct b as [k e]. now destruct e.
Qed.
Lemma refs_cons r rs b : refs rs (refs [r] b) = refs (r :: rs) b.
Proof.
  unfold refs. cbn [fst snd e_name e_descr e_nodes e_dict e_ids e_res filter]. destruct (r_elems (snd r) =? fst b); cbn [map app]; [now rewrite <- app_assoc|now rewrite app_nil_r].
Qed.
Lemma map_refs_none r d : (forall b, In b d -> r_elems (snd r) <> fst b) -> map (refs [r]) d = d.
Proof.
  induction d as [|b d IH]; intro H; [reflexivity|]. cbn [map]. rewrite IH by (intros c Hc; apply H; now right). f_equal. apply refs_none. intros s [<-|[]]. apply H. now left.
Qed.
Lemma oset_refs r d e : NoDup (map fst d) -> In (r_elems (snd r), e) d -> oset Z.eqb (r_elems (snd r)) (with_ref e (fst r)) d = map (refs [r]) d.
Proof.
  induction d as [|(k, x) d IH]; intros ND HI; [destruct HI|]. inversion ND as [|? ? N ND']; subst. cbn [oset map fst]. destruct (Z.eqb_spec (r_elems (snd r)) k) as [E|Ne].
  - destruct HI as [HI|HI]; [injection HI as E1 E2; subst x|elim N; rewrite <- E; now apply (in_map fst) in HI]. f_equal.
    + unfold refs, with_ref. cbn [fst snd filter]. rewrite E, Z.eqb_refl. reflexivity.
    + symmetry. apply map_refs_none. intros b Hb K. apply N. cbn [fst]. rewrite <- E, K. now apply in_map.
  - destruct HI as [HI|HI]; [injection HI; congruence|]. rewrite (IH ND' HI). f_equal. symmetry. apply (refs_none [r]). intros s [<-|[]]. exact Ne.
Qed.
Lemma refs_keys rs d : map fst (map (refs rs) d) = map fst d.
Proof. rewrite map_map. now apply map_ext. Qed.

Section AllResults.
  Variable show : flt -> text.
  Variable elems : list (Z * elements).
  Hypothesis NE : NoDup (map fst elems).
  Hypothesis GE : Forall good_elements elems.
  Definition like_elems (d : list (Z * elements)) : Prop := Forall2 (fun a b => fst a = fst b /\ e_dict (snd a) = e_dict (snd b)) elems d.
  Lemma like_keys d : like_elems d -> map fst d = map fst elems.
  Proof. unfold like_elems. clear NE GE. induction 1 as [|a b l m (E & _) _ IH]; [reflexivity|]. cbn [map]. now rewrite E, IH. Qed.
  Lemma like_get d k e : like_elems d -> In (k, e) elems -> exists e', In (k, e') d /\ e_dict e' = e_dict e.
  Proof.
    unfold like_elems. clear NE GE. induction 1 as [|a b l m (E & Ed) _ IH]; intro HI; [destruct HI|]. destruct HI as [->|HI].
    - exists (snd b). cbn [fst snd] in *. split; [left; destruct b; cbn [fst snd] in *; now subst|now symmetry].
    - destruct (IH HI) as (e' & H1 & H2). exists e'. split; [now right|exact H2].
  Qed.
  Lemma like_refs rs d : like_elems d -> like_elems (map (refs rs) d).
  Proof. unfold like_elems. clear NE GE. induction 1 as [|a b l m H _ IH]; constructor; [exact H|exact IH]. Qed.

  Lemma takes_results b : good_results show elems b -> exists B, Forall is_line B /\ B <> [] /\ write_results show b = concat B /\
    forall w, like_elems (v_elems w) -> ~ In (fst b) (map fst (v_results w)) -> takes false B w (set_results (set_elems w (map (refs [b]) (v_elems w))) (v_results w ++ [b])).
  Proof.
    intro G. destruct (results_block show elems b NE GE G) as (l0 & ls & HL & HW & HH & HB & HR). destruct G as (Hk & _ & _ & _ & _ & e & _ & _ & HI & _). exists (l0 :: ls). split; [exact HL|]. split; [discriminate|]. split; [exact HW|]. intros w HE N.
    split; [exact HB|]. intros [|l rest] TR NR fuel loc HF; [now elim NR|]. cbn [tail_ok] in TR. cbn [app rb length] in *. rewrite app_length in HF. destruct fuel as [|k0]; [lia|]. cbn [length] in HF.
    exists k0, loc. split; [lia|]. destruct (like_get _ _ _ HE HI) as (e' & HI' & Ed). assert (NW : NoDup (map fst (v_elems w))) by now rewrite like_keys.
    rewrite (dispatch k0 loc l0 _ "*RESULTS" (fst b) w HB HH Hk). change (String.eqb "*RESULTS" "*NODES") with false. change (String.eqb "*RESULTS" "*ELEMENTS") with false. change (String.eqb "*RESULTS" "*RESULTS") with true. cbn iota.
    rewrite (HR (S k0) w l rest e' TR ltac:(lia)).
    - rewrite (oset_refs b (v_elems w) e' NW HI'), oset_key_z by exact N. destruct b; reflexivity.
    - now apply oget_z.
    - intros e0 H0. rewrite Ed. f_equal. now apply (nodup_same elems (r_elems (snd b))).
  Qed.
  Lemma takes_all_results rs : Forall (good_results show elems) rs -> NoDup (map fst rs) -> exists B, Forall is_line B /\ concat (map (write_results show) rs) = concat B /\ (rs <> [] -> B <> []) /\
    forall w, like_elems (v_elems w) -> (forall b, In b rs -> ~ In (fst b) (map fst (v_results w))) ->
      takes (match rs with [] => true | _ => false end) B w (set_results (set_elems w (map (refs rs) (v_elems w))) (v_results w ++ rs)).
  Proof.
    induction 1 as [|b rs G H IH]; intro ND.
    - exists []. split; [constructor|]. split; [reflexivity|]. split; [congruence|]. intros w _ _. split; [exact I|]. intros R _ _ fuel loc HF. exists fuel, loc. split; [exact HF|].
      rewrite app_nil_r. rewrite (map_ext _ (fun b => b)), map_id; [now destruct w|]. intro b. now apply refs_none.
    - inversion ND as [|? ? N ND']; subst. destruct (IH ND') as (B & HL & HW & HNe & HT). destruct (takes_results b G) as (B1 & HL1 & NB1 & HW1 & HT1).
      exists (B1 ++ B). split; [apply Forall_app; now split|]. split; [cbn [map concat]; now rewrite concat_app, HW1, HW|]. split; [intros _ K; apply app_eq_nil in K as [K _]; contradiction|].
      intros w HE Hw. specialize (HT1 w HE (Hw b ltac:(now left))). specialize (HT (set_results (set_elems w (map (refs [b]) (v_elems w))) (v_results w ++ [b]))). cbn [v_elems v_results set_elems set_results] in HT.
      assert (HT' : takes (match rs with [] => true | _ => false end) B (set_results (set_elems w (map (refs [b]) (v_elems w))) (v_results w ++ [b])) (set_results (set_elems w (map (refs (b :: rs)) (v_elems w))) (v_results w ++ b :: rs))).
      { assert (E : set_results (set_elems w (map (refs (b :: rs)) (v_elems w))) (v_results w ++ b :: rs) = set_results (set_elems (set_results (set_elems w (map (refs [b]) (v_elems w))) (v_results w ++ [b])) (map (refs rs) (map (refs [b]) (v_elems w)))) ((v_results w ++ [b]) ++ rs)).
        { rewrite map_map. rewrite (map_ext _ _ (refs_cons b rs)). rewrite <- app_assoc. reflexivity. }
        rewrite E. apply HT; [now apply like_refs|]. intros c Hc K. rewrite map_app in K. apply in_app_or in K as [K|[K|[]]]; [apply (Hw c); [now right|exact K]|]. apply N. rewrite K. now apply in_map. }
      eapply takes_app; [exact HT1| |discriminate]. destruct rs; [now apply takes_weaken|exact HT'].
  Qed.
End AllResults.

(** ** Scalars *)
Lemma comma_word w r cur : ~ In ","%char w -> split_comma cur (w ++ r) = split_comma (rev w ++ cur) r.
Proof.
  revert cur. induction w as [|c w IH]; intros cur N; [reflexivity|]. cbn [app split_comma]. destruct (Ascii.eqb_spec c ",") as [->|_]; [elim N; now left|]. rewrite IH by (intro K; apply N; now right). cbn [rev]. now rewrite <- app_assoc.
Qed.
Lemma znum_no_comma n : 0 <= n -> ~ In ","%char (znum n).
Proof.
  intros H K. destruct (znum_digits n H) as [D _]. apply SeqProofs.digits_chars in D. rewrite Forall_forall in D. specialize (D _ K). cbn in D. revert D. compute. intros [D _]. now apply D.
Qed.
Lemma one_id i : 0 <= i -> rmap (fun x => int_text (strip is_space_s x)) (split_comma [] (znum i ++ [nl])) = Ok [i].
Proof.
  intro H. rewrite comma_word by now apply znum_no_comma. cbn [split_comma]. change (Ascii.eqb nl ",") with false. cbn iota. cbn [rev]. rewrite app_nil_r, rev_involutive. cbn [rmap]. rewrite strip_nl by now apply znum_word. now rewrite int_znum.
Qed.
Lemma block_no_scalar l : block_start l -> starts scalar_directives l = false.
Proof.
  intros (S & B & _). unfold starts in *. destruct (split l) as [|w ws]; [now elim S|]. unfold str_in in B. apply existsb_exists in B as (b & Hb & E). apply String.eqb_eq in E. rewrite E. revert Hb. cbn [block_types In].
  intros [<-|[<-|[<-|[<-|[<-|[]]]]]]; reflexivity.
Qed.
Definition own (v : vtf) (b : Z * scalar) : Z * scalar := (fst b, mkScalar (s_name (snd b)) (s_descr (snd b)) (Own (shared v (s_ids (snd b))))).
Lemma takes_scalar v b : good_scalar v b -> exists B, Forall is_line B /\ B <> [] /\ write_scalar v b = concat B /\
  forall w, ~ In (fst b) (map fst (v_scalars w)) -> takes true B w (set_scalars w (v_scalars w ++ [own v b])).
Proof.
  destruct b as [k s]. intros (Hk & Hn & Hd & i & Hi & Es). cbn [fst snd] in *.
  destruct (percent_line "%NAME " (s_name s) "%NAME" eq_refl ltac:(wordly) Hn) as (D1 & w1 & S1). destruct (percent_line "%DESCRIPTION " (s_descr s) "%DESCRIPTION" eq_refl ltac:(wordly) Hd) as (D2 & w2 & S2).
  set (n1 := line_of "%NAME " (quoted (s_name s))) in *. set (n2 := line_of "%DESCRIPTION " (quoted (s_descr s))) in *. set (n3 := line_of "%STEP 1" []) in *. set (n4 := znum i ++ [nl]).
  assert (H0 : heads (line_of "*GLVIEWSCALAR " (znum k)) "*GLVIEWSCALAR" k) by (unfold heads; rewrite (split_two _ "*GLVIEWSCALAR") by (reflexivity || wordly); now rewrite split_num).
  assert (HB : block_start (line_of "*GLVIEWSCALAR " (znum k))) by (eapply heads_start; [exact H0|cbn; tauto|eexists; reflexivity]).
  exists [line_of "*GLVIEWSCALAR " (znum k); n1; n2; n3; n4]. split; [|split; [discriminate|split]].
  - constructor; [apply line_is; [reflexivity|now apply znum_no_nl]|]. constructor; [apply line_is; [reflexivity|now apply quoted_no_nl]|]. constructor; [apply line_is; [reflexivity|now apply quoted_no_nl]|]. constructor; [apply line_is; [reflexivity|intros []]|].
    constructor; [|constructor]. exists (znum i). split; [reflexivity|now apply znum_no_nl].
  - unfold write_scalar. rewrite Es. cbn [concat spaced]. rewrite app_nil_r. reflexivity.
  - intros w N. split; [exact HB|]. intros R TR _ fuel loc HF. cbn [app rb length] in *. destruct fuel as [|k0]; [lia|].
    rewrite (dispatch k0 loc _ _ "*GLVIEWSCALAR" k w HB H0 Hk).
    change (String.eqb "*GLVIEWSCALAR" "*NODES") with false. change (String.eqb "*GLVIEWSCALAR" "*ELEMENTS") with false. change (String.eqb "*GLVIEWSCALAR" "*RESULTS") with false. change (String.eqb "*GLVIEWSCALAR" "*GLVIEWSCALAR") with true. cbn iota.
    set (a := (Some (s_name s), Some (s_descr s), Some [i]) : local).
    assert (S3 : split n3 = [s2l "%STEP"; s2l "1"]) by reflexivity. assert (S4 : split n4 = [znum i]) by now apply split_num.
    assert (B1 : forall ls l0, scalar_directive n1 ls l0 = BOk (Some (s_name s), snd (fst l0), snd l0) ls). { intros ls ((x, y), z). unfold scalar_directive. rewrite D1, (word0_is _ _ _ S1). reflexivity. }
    assert (B2 : forall ls l0, scalar_directive n2 ls l0 = BOk (fst (fst l0), Some (s_descr s), snd l0) ls). { intros ls ((x, y), z). unfold scalar_directive. rewrite D2, (word0_is _ _ _ S2). reflexivity. }
    assert (B3 : forall ls l0, scalar_directive n3 (n4 :: ls) l0 = BOk (fst (fst l0), snd (fst l0), Some [i]) ls).
    { intros ls ((x, y), z). unfold scalar_directive. rewrite (word0_is _ _ _ S3). change (String.eqb (l2s (s2l "%STEP")) "%NAME") with false. change (String.eqb (l2s (s2l "%STEP")) "%DESCRIPTION") with false. cbn iota. rewrite next_nonblank by (rewrite S4; discriminate). unfold n4. rewrite one_id by exact Hi. reflexivity. }
    assert (C1 : starts scalar_directives n1 = true) by now rewrite (starts_iff _ _ _ _ S1). assert (C2 : starts scalar_directives n2 = true) by now rewrite (starts_iff _ _ _ _ S2).
    assert (X1 : split n1 <> []) by (rewrite S1; discriminate). assert (X2 : split n2 <> []) by (rewrite S2; discriminate). assert (X3 : split n3 <> []) by (rewrite S3; discriminate).
    assert (ER : read_scalar (S k0) k loc (n1 :: n2 :: n3 :: n4 :: R) w = (match R with [] => Finished | l :: rest => More l rest end (set_scalars w (v_scalars w ++ [own v (k, s)])), a)).
    { assert (Est : store_scalar k a w = Ok (set_scalars w (v_scalars w ++ [own v (k, s)]))). { unfold store_scalar, a, own. cbn [fst snd]. rewrite oset_key_z by exact N. now rewrite Es. }
      unfold read_scalar. rewrite next_nonblank by exact X1. destruct k0 as [|[|[|k0]]]; [lia|lia|lia|]. cbn [while]. rewrite C1, B1. rewrite next_nonblank by exact X2. rewrite C2, B2. rewrite next_nonblank by exact X3. change (starts scalar_directives n3) with true. cbn iota. rewrite B3. cbn [fst snd].
      destruct R as [|l rest]; [change (next_line []) with (@None (text * list text)); cbn iota; fold a; now rewrite Est|]. cbn [tail_ok] in TR. rewrite next_nonblank by apply TR. rewrite (block_no_scalar l TR). fold a. now rewrite Est. }
    match goal with |- context [read_scalar ?x1 ?x2 ?x3 ?x4 ?x5] => replace (read_scalar x1 x2 x3 x4 x5) with (match R with [] => Finished | l :: rest => More l rest end (set_scalars w (v_scalars w ++ [own v (k, s)])), a) by (symmetry; exact ER) end.
    exists k0, a. split; [lia|]. destruct R; reflexivity.
Qed.
Lemma takes_all_scalars v bs : Forall (good_scalar v) bs -> NoDup (map fst bs) -> exists B, Forall is_line B /\ concat (map (write_scalar v) bs) = concat B /\ (bs <> [] -> B <> []) /\
  forall w, (forall b, In b bs -> ~ In (fst b) (map fst (v_scalars w))) -> takes true B w (set_scalars w (v_scalars w ++ map (own v) bs)).
Proof.
  induction 1 as [|b bs G H IH]; intro ND.
  - exists []. split; [constructor|]. split; [reflexivity|]. split; [congruence|]. intros w _. cbn [map]. rewrite app_nil_r. replace (set_scalars w (v_scalars w)) with w by now destruct w. apply takes_nil.
  - inversion ND as [|? ? N ND']; subst. destruct (IH ND') as (B & HL & HW & _ & HT). destruct (takes_scalar v b G) as (B1 & HL1 & NB1 & HW1 & HT1).
    exists (B1 ++ B). split; [apply Forall_app; now split|]. split; [cbn [map concat]; now rewrite concat_app, HW1, HW|]. split; [intros _ K; apply app_eq_nil in K as [K _]; contradiction|].
    intros w Hw. specialize (HT1 w (Hw b ltac:(now left))). specialize (HT (set_scalars w (v_scalars w ++ [own v b]))). cbn [v_scalars set_scalars] in HT. rewrite <- app_assoc in HT. cbn [app] in HT.
    eapply takes_app'; [exact HT1|]. apply HT. intros c Hc K. rewrite map_app in K. apply in_app_or in K as [K|[K|[]]]; [apply (Hw c); [now right|exact K]|]. cbn in K. apply N. rewrite K. now apply in_map.
Qed.

(** ** The whole file *)
Lemma takes_any b B v w : takes b B v w -> takes false B v w.
Proof. destruct b; [apply takes_weaken|trivial]. Qed.
Lemma read_all v : forall d, Forall (fun b => e_res (snd b) = map fst (filter (fun r => r_elems (snd r) =? fst b) (v_results v))) d -> map (refs (v_results v)) (map unread d) = d.
Proof.
  induction 1 as [|b d E H IH]; [reflexivity|]. cbn [map]. rewrite IH. f_equal. unfold refs, unread. cbn [fst snd e_name e_descr e_nodes e_dict e_ids e_res app]. rewrite <- E. destruct b as [k e]. now destruct e.
Qed.
Lemma vtf_round_trip show v : good show v -> exists t, vtf_write true show v = Ok t /\
  forall name descr default w0, vtf_init true name descr default = Ok w0 -> exists w, vtf_read true t w0 = Ok w /\ same v w.
Proof.
  intro G. pose proof (order_kept show v) as HO. specialize (fun b => HO b G). destruct G as [Gg Gn Gd (NN & GN) (Ne & NE & GE) GRf _ (NR & GR) (NS & GS) GL].
  destruct (takes_all_nodes (v_nodes v) GN NN) as (Bn & tn & nodes' & Ln & _ & Wn & Cn & En & Tn).
  destruct (takes_all_elements v (v_elems v) GE) as (Be & te & Le & We & Ce & _ & Te); [apply Forall_forall; intros b Hb; now apply HO|exact NE|].
  destruct (takes_geometry v Gg Gn Gd Ne GE) as (Bg & Lg & Ng & Wg & Tg).
  destruct (takes_all_results show (v_elems v) NE GE (v_results v) GR NR) as (Br & Lr & Wr & Nr & Tr).
  destruct (takes_all_scalars v (v_scalars v) GS NS) as (Bs & Ls & Ws & Ns & Ts).
  set (B := Bn ++ Be ++ Bg ++ Br ++ Bs). set (hdr := line_of "*VTF-1.00" []).
  exists (concat (hdr :: B)). split.
  { unfold vtf_write. cbn [negb]. rewrite Wn, We, Wg. cbn [rbind]. unfold B. cbn [concat]. rewrite !concat_app, Cn, Ce, Wr, Ws. reflexivity. }
  intros name descr default w0 E0. cbn [vtf_init] in E0. injection E0 as <-. set (w0 := mkVtf 1 name descr [] [] [] [] 1 1 1 1 None None default).
  set (w1 := set_nodes w0 nodes'). set (w2 := set_elems w1 (map unread (v_elems v))). set (w3 := set_names (set_geom w2 (v_geom v)) (v_name v) (v_descr v)).
  set (w4 := set_results (set_elems w3 (v_elems v)) (v_results v)). set (w5 := set_scalars w4 (map (own v) (v_scalars v))).
  assert (T : takes true B w0 w5).
  { assert (T1 : takes false Bn w0 w1) by (eapply takes_any, Tn; intros b _ []).
    assert (T2 : takes false Be w1 w2) by (eapply takes_any, Te; intros b _ []).
    assert (T4 : takes (match v_results v with [] => true | _ => false end) Br w3 w4).
    { assert (E : w4 = set_results (set_elems w3 (map (refs (v_results v)) (v_elems w3))) (v_results w3 ++ v_results v)) by (unfold w4; cbn [v_elems v_results w3 w2 set_names set_geom set_elems]; now rewrite read_all).
      rewrite E. apply Tr; [|intros b _ []]. unfold like_elems. cbn [v_elems w3 w2 set_names set_geom set_elems]. clear. induction (v_elems v) as [|b d IH]; constructor; [split; reflexivity|exact IH]. }
    assert (T5 : takes true Bs w4 w5) by (apply Ts; intros b _ []).
    assert (T45 : takes true (Br ++ Bs) w3 w5). { destruct (v_results v) as [|r rs]; [now apply (takes_app' _ _ _ w4)|]. apply (takes_app _ _ _ w4); [exact T4|exact T5|]. intros _. apply Ns, GL. discriminate. }
    assert (T35 : takes true (Bg ++ Br ++ Bs) w2 w5) by exact (takes_app' _ _ _ w3 _ _ (Tg w2) T45).
    assert (N3 : Bg ++ Br ++ Bs <> []) by (intro K; apply app_eq_nil in K as [K _]; contradiction).
    assert (T25 : takes true (Be ++ Bg ++ Br ++ Bs) w1 w5) by (apply (takes_app _ _ _ w2); [exact T2|exact T35|intros _; exact N3]).
    apply (takes_app _ _ _ w1); [exact T1|exact T25|]. intros _ K. apply app_eq_nil in K as [_ K]. contradiction. }
  exists w5. split.
  - assert (HL : Forall is_line (hdr :: B)). { constructor; [apply line_is; [reflexivity|intros []]|]. unfold B. now repeat (apply Forall_app; split). }
    unfold vtf_read. cbn [negb]. cbv zeta. rewrite lines_concat by exact HL. rewrite next_nonblank by discriminate. destruct T as (TB & T).
    assert (NB : B <> []). { unfold B. intro K. apply app_eq_nil in K as [_ K]. apply app_eq_nil in K as [_ K]. apply app_eq_nil in K as [K _]. contradiction. }
    destruct (T [] I ltac:(discriminate) (S (length (hdr :: B))) (None, None, None)) as (f & l & _ & E); [rewrite app_nil_r; cbn [length]; lia|]. rewrite app_nil_r in E. cbn [rb] in E. rewrite <- E.
    destruct B as [|l0 r]; [now elim NB|]. cbn [tail_ok rb length] in *. apply skip_one; [reflexivity|exact TB].
  - constructor; try reflexivity; [split; reflexivity|exact En|]. cbn [v_scalars w5 set_scalars]. clear. induction (v_scalars v) as [|b d IH]; constructor; [|exact IH]. repeat split; reflexivity.
Qed.
