(** * HaltConv: what a conversion leaves, whether or not it raises *)
From Verif Require Import Base Flt SeqFile H5 Schema Parsers ListFacts StoreProofs ParserRun ParserTerm ConvertFrame Data Files SifName Convert ConvertSpec ConvertProofs Halt HaltProofs HaltKeeps.
Open Scope string_scope.
Open Scope Z_scope.
Open Scope list_scope.
Open Scope monad_scope.

(** a change of attributes of groups *)
Definition attr_only (f : node -> node) : Prop := forall n, match n with Group _ => exists l, f n = Group l | _ => f n = n end.
Lemma attr_put k v : attr_only (put_attr k v). Proof. intro n. apply put_attr_group. Qed.
Lemma attr_kept h h1 w f : attr_only f -> kept h h1 -> kept_but [w] h (h5_upd w f h1).
Proof.
  intros A K q n H. apply K in H. destruct (path_eqb w q) eqn:E.
  - apply path_eqb_spec in E. subst q. rewrite find_upd_same, H. cbn [option_map]. pose proof (A n) as X.
    destruct n as [l| |]; [|left; now rewrite X|left; now rewrite X]. right. split; [now left|]. destruct X as [l' ->]. now exists l, l'.
  - left. rewrite find_upd_other; [exact H|]. intros ->. rewrite path_eqb_refl in E. discriminate.
Qed.
Lemma attributes_left s : let s' := fst (e_set_attributes s) in p_g s' = p_g s /\
  (p_out s' = p_out s \/ exists w f, below (p_g s) w /\ attr_only f /\ p_out s' = h5_upd w f (p_out s)).
Proof.
  cbv zeta. unfold e_set_attributes, ebind, stop, getg, geth, seth, liftR, slift.
  destruct (get_path (p_g s) (p_out s)) as [w|] eqn:W; [|split; [reflexivity|now left]]. apply path_below in W.
  destruct (h5_find w (p_out s)); [|split; [reflexivity|now left]].
  destruct (level_of (p_g s) (p_out s)) as [[lev idx]|]; cbn [fst p_g p_out]; (split; [reflexivity|right]).
  - exists w. eexists. split; [exact W|]. split; [|apply upd_upd]. intros [l|d rs|t xs]; destruct idx; cbn [put_attr]; try reflexivity; now eexists.
  - exists w. eexists. split; [exact W|]. split; [|reflexivity]. apply attr_put.
Qed.
(** One file read as far as it goes: the groups whose attributes may have changed. *)
Lemma file_left only s : g_tables (p_g s) = [] -> let s' := fst (e_parse_file only s) in
  g_batch (p_g s') = g_batch (p_g s) /\ (g_prefix (p_g s') = g_prefix (p_g s) /\ g_ftid (p_g s') = g_ftid (p_g s)) /\
  newin (p_g s) (p_out s) (p_out s') /\ exists ws, Forall (below (p_g s)) ws /\ kept_but ws (p_out s) (p_out s').
Proof.
  intros T. cbv zeta.
  assert (GO : forall s1, goes s s1 -> kept (p_out s) (p_out s1)).
  { intros s1 G. assert (I0 : inv (p_out s) s) by (split; [apply kept_refl|]; rewrite T; easy). apply (go_inv _ _ G) in I0. apply I0. }
  assert (OK : forall s1, goes s s1 -> g_batch (p_g s1) = g_batch (p_g s) /\ (g_prefix (p_g s1) = g_prefix (p_g s) /\ g_ftid (p_g s1) = g_ftid (p_g s)) /\
    newin (p_g s) (p_out s) (p_out s1) /\ exists ws, Forall (below (p_g s)) ws /\ kept_but ws (p_out s) (p_out s1)).
  { intros s1 G. split; [apply G|]. split; [apply G|]. split; [apply G|]. exists []. split; [constructor|]. intros q n H. left. now apply GO. }
  unfold e_parse_file. unfold ebind. 
  pose proof (eg_quiet rheader quiet_rheader s) as G1. destruct (stop rheader s) as [s1 [[n rec]|e]]; cbn [fst] in *; [|now apply OK].
  pose proof (parse_loop_eg only (S (fuel_of s1)) n rec s1) as G2.
  destruct (e_parse_loop (S (fuel_of s1)) only n rec s1) as [s2 [u|e]]; cbn [fst] in *; [|apply OK; eapply goes_trans; eassumption].
  assert (G : goes s s2) by (eapply goes_trans; eassumption). clear G1 G2.
  destruct (attributes_left s2) as [E [->|(w & f & B & A & ->)]]; rewrite E.
  - now apply OK.
  - destruct (OK s2 G) as (X1 & X2 & X3 & _). split; [exact X1|]. split; [exact X2|]. split.
    + eapply newin_trans; [exact X3|apply newin_upd].
    + exists [w]. split; [constructor; [|constructor]; now apply (below_core _ (p_g s2))|]. apply attr_kept; [exact A|now apply GO].
Qed.
(** from one pair of module state and output to the next *)
Record leaves (gh gh' : glob * h5) : Prop := mkLeaves {
  le_batch : g_batch (fst gh') = g_batch (fst gh);
  le_core : g_prefix (fst gh') = g_prefix (fst gh) /\ g_ftid (fst gh') = g_ftid (fst gh);
  le_new : newin (fst gh) (snd gh) (snd gh');
  le_kept : exists ws, Forall (below (fst gh)) ws /\ kept_but ws (snd gh) (snd gh') }.
Lemma leaves_refl gh : leaves gh gh.
Proof. constructor; [reflexivity|now split|apply newin_refl|]. exists []. split; [constructor|apply kept_but_refl]. Qed.
Lemma leaves_trans a b c : leaves a b -> leaves b c -> leaves a c.
Proof.
  intros [A1 [A2 A3] A4 (w1 & A5 & A6)] [B1 [B2 B3] B4 (w2 & B5 & B6)].
  constructor; [congruence|split; congruence|eapply newin_trans; [exact A4|]; now apply (newin_core _ (fst b))|].
  exists (w1 ++ w2). split; [|eapply kept_but_trans; eassumption]. apply Forall_app. split; [exact A5|].
  eapply Forall_impl; [|exact B5]. intros q. now apply below_core.
Qed.
Definition quiet_pre (pre : E unit) : Prop := forall s, let s' := fst (pre s) in p_out s' = p_out s /\ g_tables (p_g s') = g_tables (p_g s) /\
  g_batch (p_g s') = g_batch (p_g s) /\ g_prefix (p_g s') = g_prefix (p_g s) /\ g_ftid (p_g s') = g_ftid (p_g s).
Lemma ihref_pre i : quiet_pre (e_current_ihref i).
Proof.
  intro s. cbv zeta. unfold e_current_ihref, ebind, stop, modg, getg, geth, liftR, slift, eraise, eret, sbind.
  cbn [p_g p_in p_out]. destruct (g_hashier _); [|now repeat split].
  destruct (g_htab _) as [p|]; [|now repeat split]. destruct (pygetZ _ _) as [row|]; [|now repeat split].
  destruct (String.eqb _ "R"); [|now repeat split]. destruct (col_int 3 row); now repeat split.
Qed.
Lemma into_left k bs only pre gh : quiet_pre pre -> g_tables (fst gh) = [] -> leaves gh (fst (e_parse_into k bs only pre gh)).
Proof.
  intros Q T. unfold e_parse_into, ebind. set (s := mkP _ _ _). specialize (Q s). cbv zeta in Q. change (p_out s) with (snd gh) in Q. change (p_g s) with (fst gh) in Q.
  destruct (pre s) as [s1 [u|e]]; cbn [fst] in Q; destruct Q as (Q1 & Q2 & Q3 & Q4 & Q5).
  - pose proof (file_left only s1) as F. cbv zeta in F. rewrite Q2 in F. specialize (F T). destruct (e_parse_file only s1) as [s2 r]; cbn [fst] in *.
    destruct F as (F1 & [F2 F3] & F4 & ws & F5 & F6). rewrite Q1 in F4, F6.
    constructor; cbn [fst snd]; [congruence|split; congruence|now apply (newin_core _ (p_g s1))|]. exists ws. split; [|exact F6].
    eapply Forall_impl; [|exact F5]. intros q. now apply below_core.
  - cbn [fst snd]. constructor; cbn [fst snd]; [exact Q3|now split|rewrite Q1; apply newin_refl|]. exists []. rewrite Q1. split; [constructor|apply kept_but_refl].
Qed.
Lemma leaves_reset g h x : leaves (reset false g, h) x -> leaves (g, h) x.
Proof. intros [A B C D]. constructor; assumption. Qed.
Lemma lower_left d k only : forall l gh, leaves gh (fst (e_read_lower d k only l gh)).
Proof.
  induction l as [|[n i] l IH]; intros [g h]; cbn [e_read_lower]; [apply leaves_refl|]. destruct (file_in d n) as [bs|].
  - pose proof (into_left k bs only _ (reset false g, h) (ihref_pre i) eq_refl) as H. apply leaves_reset in H. cbn [fst snd].
    destruct (e_parse_into k bs only _ _) as [gh1 [u|e]]; cbn [fst] in *; [|exact H]. specialize (IH gh1).
    destruct (e_read_lower d k only l gh1) as [gh2 [evs|e]]; cbn [fst] in *; eapply leaves_trans; eassumption.
  - specialize (IH (g, h)). destruct (e_read_lower d k only l (g, h)) as [gh2 [evs|e]]; exact IH.
Qed.
(** the top file first *)
Lemma convert_left d top fp letter no ext (usefp : bool) prefix only g h0 g' h' r :
  e_convert d top (fp, letter, no, ext) usefp prefix only g h0 = ((g', h'), r) ->
  let own q := exists t p, q = ((if usefp then prefix ++ l2s fp else prefix) ++ l2s letter ++ t)%string :: p in
  g_batch g' = g_batch g /\ (forall q, h5_find q h' <> None -> h5_find q h0 <> None \/ own q) /\ exists ws, Forall own ws /\ kept_but ws h0 h'.
Proof.
  unfold e_convert. set (pfx := (if usefp then _ else _)%string). set (g1 := set_prefix pfx (reset true g)). intros H. cbv zeta. revert H.
  destruct (file_in d top) as [bs|].
  2:{ intros [= <- <- <-]. split; [reflexivity|]. split; [now left|]. exists []. split; [constructor|apply kept_but_refl]. }
  set (k := kind_of_bytes bs). set (g2 := set_ftid (l2s letter) g1).
  assert (FIN : forall gh, leaves (g2, h0) gh -> gh = (g', h') -> g_batch g' = g_batch g /\
    (forall q, h5_find q h' <> None -> h5_find q h0 <> None \/ exists t p, q = (pfx ++ l2s letter ++ t)%string :: p) /\
    exists ws, Forall (fun q => exists t p, q = (pfx ++ l2s letter ++ t)%string :: p) ws /\ kept_but ws h0 h').
  { intros gh [A B C D] ->. split; [exact A|]. split; [exact C|exact D]. }
  assert (QP : quiet_pre (eret tt)) by (intro s; now repeat split).
  pose proof (into_left k bs only (eret tt) (g2, h0) QP eq_refl) as L1.
  destruct (e_parse_into k bs only (eret tt) (g2, h0)) as [gh [u|e]]; cbn [fst] in L1.
  2:{ intros H. injection H as H _. now apply (FIN gh). }
  destruct (g_hashier (fst gh)).
  2:{ intros H. injection H as H _. now apply (FIN gh). }
  destruct (g_htab (fst gh)) as [p|].
  2:{ intros H. injection H as H _. now apply (FIN gh). }
  destruct (candidates _ _ _) as [names|e].
  2:{ intros H. injection H as H _. now apply (FIN gh). }
  pose proof (lower_left d k only names gh) as L2.
  destruct (e_read_lower d k only names gh) as [gh2 [evs|e]]; cbn [fst] in L2; intros H; injection H as H _; apply (FIN gh2); try assumption; eapply leaves_trans; eassumption.
Qed.
