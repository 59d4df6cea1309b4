(** * HaltReads: the records before the place of an exception are stored *)
From Verif Require Import Base Flt SeqFile H5 Schema Parsers SeqSpec StoreSpec ParserSpec LayoutSpec FileSpec ListFacts StoreProofs SeqProofs ParserRun ParserTerm LayoutProofs FileProofs
  ConvertFrame Data Files SifName Convert ConvertSpec ConvertProofs AssemblySpec AssemblyProofs Halt HaltSpec HaltProofs HaltKeeps HaltConv.
Open Scope string_scope.
Open Scope Z_scope.
Open Scope list_scope.
Open Scope monad_scope.

(** [reads1] and [reads] *)
Lemma reads_cons only k id sub st sg n fs bs st1 m mfs tail segs st2 :
  reads1 only k id sub st sg n fs bs st1 m mfs tail -> reads only k id sub st1 segs m mfs tail st2 -> reads only k id sub st (sg :: segs) n fs bs st2.
Proof.
  intros H R. inversion H; subst.
  - eapply reads_run; eassumption.
  - eapply reads_tran; eassumption.
  - eapply reads_hierarch; eauto.
  - eapply reads_ident; eassumption.
  - eapply reads_irecsize; eassumption.
  - eapply reads_iend_more; eassumption.
  - eapply reads_pass; eassumption.
  - eapply reads_void; eassumption.
Qed.
Lemma reads_to_reads only k id sub st segs n fs bs st1 m mfs tail : reads_to only k id sub st segs n fs bs st1 m mfs tail ->
  forall segs2 st2, reads only k id sub st1 segs2 m mfs tail st2 -> reads only k id sub st (segs ++ segs2) n fs bs st2.
Proof. induction 1; intros segs2 st2' R; [exact R|]. cbn [app]. eapply reads_cons; eauto. Qed.
Lemma reads_split only k id sub st segs n fs bs st' : reads only k id sub st segs n fs bs st' ->
  match segs with
  | [] => n = "" /\ st' = st
  | sg :: rest => (exists f l, sg = Look "IEND" (f :: l) bs /\ rest = [] /\ flt_eq f f0 = true) \/
      exists st1 m mfs tail, reads1 only k id sub st sg n fs bs st1 m mfs tail /\ reads only k id sub st1 rest m mfs tail st'
  end.
Proof.
  intros R. destruct R; [now split|left; do 2 eexists; now repeat split|right..]; do 4 eexists; (split; [|eassumption]).
  - eapply r1_run; eassumption.
  - eapply r1_tran; eassumption.
  - eapply r1_hierarch; eauto.
  - eapply r1_ident; eassumption.
  - eapply r1_irecsize; eassumption.
  - eapply r1_iend_more; eassumption.
  - eapply r1_pass; eassumption.
  - eapply r1_void; eassumption.
Qed.
(** Any part at the front of a well-formed file. *)
Lemma reads_front only k id sub : forall segs1 segs2 st n fs bs st', reads only k id sub st (segs1 ++ segs2) n fs bs st' -> segs2 <> [] ->
  exists st1 m mfs tail, reads_to only k id sub st segs1 n fs bs st1 m mfs tail.
Proof.
  induction segs1 as [|sg segs1 IH]; intros segs2 st n fs bs st' R N; [do 4 eexists; apply to_here|].
  apply reads_split in R. cbn [app] in R. destruct R as [(f & l & _ & E & _)|(st1 & m & mfs & tail & R1 & R)].
  - destruct segs1, segs2; try discriminate; contradiction.
  - destruct (IH _ _ _ _ _ _ R N) as (st2 & m2 & mfs2 & tail2 & T). exists st2, m2, mfs2, tail2. eapply to_next; eassumption.
Qed.

(** One turn of the loop. *)
Lemma turn only k id sub w st sg n fs bs st1 m mfs tail : reads1 only k id sub st sg n fs bs st1 m mfs tail -> id <> 0 ->
  forall g h fr, finv g h id w sub st -> n <> "" /\ exists g' h' fr',
    (if wanted only n then general_parser n fs else skip_same n fs) (mkP (mkIn k bs false fr) g h) = Ok ((m, mfs), mkP (mkIn k tail false fr') g' h') /\
    finv g' h' id w sub st1 /\ keeps g g' h h' w.
Proof.
  intros HR Hid.
  assert (W : forall n, asked only n -> wanted only n = true) by (intros; now apply wanted_asked).
  destruct HR; intros gg hh fr HI.
  - (* layout *) pose proof (laid_stored _ H0) as (_ & _ & Hne). split; [exact Hne|]. rewrite (W _ H).
    apply finv_name with (n := n) in HI.
    destruct (laid_step kinds k id w sub _ _ _ fr n it its c' m mfs bs tail con' Hid HI H0 H1 H4 H5)
      as (rd & g' & h' & fr' & R1 & R2 & R3 & R4).
    exists g', h', fr'. rewrite (general_stored n f fs rd) by auto. rewrite <- H2. split; [exact R2|]. split; [exact R3|]. eapply keeps_name; exact R4.
  - (* transformations *) pose proof (tran_facts _ H0) as (_ & _ & _ & Hr).
    split; [intros ->; destruct H0 as [X|[X|[]]]; discriminate|]. rewrite (W _ H).
    apply finv_name with (n := n) in HI.
    destruct (tran_step k id w sub _ _ _ fr n it its c' m mfs bs tail con' Hid HI H0 H1 H4 H5)
      as (g' & h' & fr' & R2 & R3 & R4).
    exists g', h', fr'. rewrite (general_stored n f fs rd_xsuptran) by auto. rewrite <- H2. split; [exact R2|]. split; [exact R3|]. eapply keeps_name; exact R4.
  - (* HIERARCH *) subst sub. split; [discriminate|]. rewrite (W _ H0).
    apply finv_name with (n := "HIERARCH") in HI.
    destruct (hier_step k id w _ _ _ fr it its c' x m mfs bs tail con' Hid HI) as (g' & h' & fr' & R2 & R3 & R4); auto.
    { now rewrite H1. }
    exists g', h', fr'. rewrite (general_stored "HIERARCH" f (g :: x :: fs) rd_hierarch) by auto. rewrite <- H1. split; [exact R2|]. split; [exact R3|]. eapply keeps_name; exact R4.
  - (* IDENT *) split; [discriminate|]. rewrite (W _ H).
    apply finv_name with (n := "IDENT") in HI.
    destruct (ident_step k id w sub _ _ _ fr f g x fs a b d con' m mfs bs tail Hid HI) as (g' & h' & fr' & R2 & R3 & R4); auto.
    exists g', h', fr'. rewrite (general_stored "IDENT" f (g :: x :: fs) rd_ident) by auto. split; [exact R2|]. split; [exact R3|]. eapply keeps_name; exact R4.
  - (* IRECSIZE *) split; [discriminate|]. rewrite (W _ H).
    rewrite (general_stored "IRECSIZE" f (g :: fs) rd_irecsize) by auto. unfold rd_irecsize. unfold sbind at 1.
    rewrite (lift_int (f :: g :: fs) 1 _ _ _ eq_refl H1). cbn [p_in p_g p_out].
    destruct (rheader_next k m mfs bs tail (mkP (mkIn k bs false fr) (add_name "IRECSIZE" gg) hh) H2 eq_refl eq_refl) as (fr' & E).
    exists (add_name "IRECSIZE" gg), hh, fr'. split; [exact E|]. split; [now apply finv_name|]. apply keeps_name with (n := "IRECSIZE"). apply keeps_refl.
  - (* IEND, not the end *) split; [discriminate|]. rewrite (W _ H).
    rewrite (general_stored "IEND" f fs rd_iend) by auto. unfold rd_iend. unfold sbind at 1. unfold liftR at 1, slift at 1. cbn [pyget nth_error].
    rewrite H1. cbn [p_in p_g p_out].
    destruct (rheader_next k m mfs bs tail (mkP (mkIn k bs false fr) (add_name "IEND" gg) hh) H2 eq_refl eq_refl) as (fr' & E).
    exists (add_name "IEND" gg), hh, fr'. split; [exact E|]. split; [now apply finv_name|]. apply keeps_name with (n := "IEND"). apply keeps_refl.
  - (* passed over *) split; [exact H|].
    destruct (enc_pass_fuel k n fs bs m mfs tail H1 H (length bs) (mkP (mkIn k bs false fr) gg hh) (le_n _) eq_refl eq_refl) as (fr' & E).
    exists gg, hh, fr'. split; [|split; [exact HI|apply keeps_refl]].
    destruct H0 as [H0|(H0 & f & l & -> & Hl)].
    + destruct (wanted only n) eqn:Ew; [apply wanted_asked in Ew; contradiction|]. exact E.
    + destruct (wanted only n); [|exact E]. unfold general_parser. unfold sbind at 1. unfold liftR at 1, slift at 1.
      cbn [pyget nth_error]. rewrite Hl.
      destruct (sget n readers) eqn:Er; [|exact E]. exfalso. apply H0. apply sget_in in Er.
      assert (Z : forallb (fun x => str_in x known_types) (map fst readers) = true) by (vm_compute; reflexivity).
      rewrite forallb_forall in Z. apply str_in_spec. apply Z. apply in_map_iff. eexists. split; [|exact Er]. reflexivity.
  - (* not to be read *) split; [exact H|]. rewrite (W _ H0).
    assert (X : exists fr', general_parser n (f :: fs) (mkP (mkIn k (b ++ bs) false fr) gg hh) = Ok ((m, mfs), mkP (mkIn k tail false fr') gg hh)).
    { unfold general_parser. unfold sbind at 1. unfold liftR at 1, slift at 1. cbn [pyget nth_error]. rewrite H1.
      destruct H2 as [(-> & ->)|(-> & c & Hc)].
      - unfold sbind at 1. cbn [sret app]. destruct (rheader_next k m mfs bs tail (mkP (mkIn k bs false fr) gg hh) H3 eq_refl eq_refl) as (fr' & E).
        unfold sret. rewrite E. eauto.
      - unfold sbind at 1. unfold sbind at 1. unfold liftF. cbn [p_in].
        pose proof (read_floatrec_enc k Lead0 c b bs false fr Hc) as E0. cbn [lead_n] in E0. rewrite E0. cbn [p_g p_out].
        unfold sret. match goal with |- context [rheader ?s] => destruct (rheader_next k m mfs bs tail s H3 eq_refl eq_refl) as (fr' & E) end.
        rewrite E. eauto. }
    destruct X as (fr' & E). exists gg, hh, fr'. split; [exact E|]. split; [exact HI|apply keeps_refl].
Qed.
Lemma reads1_short only k id sub st sg n fs bs st1 m mfs tail : reads1 only k id sub st sg n fs bs st1 m mfs tail -> n <> "" /\ (m <> "" -> (length tail < length bs)%nat).
Proof.
  intros H. destruct H; (split; [try discriminate; try assumption|]).
  - intros ->. match goal with H : In "" laid_types |- _ => apply laid_stored in H as (_ & _ & H); congruence end.
  - eauto using enc_run_short.
  - intros ->. match goal with H : In "" tran_types |- _ => destruct H as [H|[H|[]]]; discriminate end.
  - eauto using enc_run_short.
  - eauto using enc_run_short.
  - eauto using enc_next_short.
  - eauto using enc_next_short.
  - eauto using enc_next_short.
  - eauto using enc_pass_short.
  - intro Hm. rewrite app_length. match goal with H : enc_next _ _ _ _ _ |- _ => apply enc_next_short in H; [lia|exact Hm] end.
Qed.
Lemma reads_to_len only k id sub st segs n fs bs st1 m mfs tail : reads_to only k id sub st segs n fs bs st1 m mfs tail ->
  (length segs <= S (length bs))%nat /\ (n = "" -> segs = []).
Proof.
  induction 1 as [|st sg n fs bs st1 m mfs tail segs st2 p pfs rest H _ [I1 I2]]; [split; [cbn; lia|reflexivity]|].
  apply reads1_short in H. destruct H as [H1 H2]. split; [|intros ->; contradiction]. cbn [length].
  destruct (String.eqb_spec m "") as [->|Hm]; [rewrite I2 by reflexivity; cbn; lia|]. specialize (H2 Hm). lia.
Qed.
Lemma loop_to only k id sub w st segs n fs bs st' m mfs tail : reads_to only k id sub st segs n fs bs st' m mfs tail -> id <> 0 ->
  forall g h fr fuel, (length segs <= fuel)%nat -> finv g h id w sub st -> exists g' h' fr' fuel',
    e_parse_loop fuel only n fs (mkP (mkIn k bs false fr) g h) = e_parse_loop fuel' only m mfs (mkP (mkIn k tail false fr') g' h') /\
    finv g' h' id w sub st' /\ keeps g g' h h' w.
Proof.
  intros HR Hid. induction HR as [|st sg n fs bs st1 m mfs tail segs st2 p pfs rest H _ IH]; intros g h fr fuel Hf HI.
  - exists g, h, fr, fuel. split; [reflexivity|]. split; [exact HI|apply keeps_refl].
  - destruct fuel as [|fuel]; [cbn in Hf; lia|]. destruct (turn only k id sub w _ _ _ _ _ _ _ _ _ H Hid g h fr HI) as (Hne & g1 & h1 & fr1 & E & HI1 & K1).
    destruct (IH g1 h1 fr1 fuel) as (g2 & h2 & fr2 & fuel2 & E2 & HI2 & K2); [cbn in Hf; lia|exact HI1|].
    exists g2, h2, fr2, fuel2. split; [|split; [exact HI2|eapply keeps_trans; eassumption]].
    cbn [e_parse_loop]. apply String.eqb_neq in Hne. rewrite Hne. unfold ebind at 1.
    assert (X : (if wanted only n then e_general_parser n fs else stop (skip_same n fs)) (mkP (mkIn k bs false fr) g h) = (mkP (mkIn k tail false fr1) g1 h1, Ok (m, mfs))).
    { destruct (wanted only n).
      - pose proof (general_says n fs (mkP (mkIn k bs false fr) g h)) as S. rewrite E in S. destruct (e_general_parser n fs _) as [s' [a|e]]; [|discriminate]. now injection S as <- <-.
      - unfold stop. now rewrite E. }
    rewrite X. exact E2.
Qed.
Lemma reads_to_tabs only k id sub st segs n fs bs st' m mfs tail : reads_to only k id sub st segs n fs bs st' m mfs tail ->
  forall x, grown x st (entries_of x segs) st'.
Proof.
  induction 1 as [|st sg n fs bs st1 m mfs tail segs st2 p pfs rest H _ IH]; intros x; [reflexivity|]. specialize (IH x).
  destruct H; try exact IH; unfold entries_of; cbn [items_of flat_map]; rewrite map_app; cbn [map] in *; (eapply grown_run; [reflexivity|eassumption| |exact IH]); reflexivity.
Qed.

(** ** What is stored stays *)
Lemma holds_grows h h' w n c : holds h w n c -> grows h h' -> at_least h' w n c.
Proof.
  intros [T A] G. destruct (G _ _ T) as (x & E & X). destruct x as [|ds rs|]; try contradiction. destruct X as [-> [more ->]].
  assert (Q : exists arrs, Forall2 (fun at_ a => h5_find (fst at_) h' = Some (Arr (snd at_) a)) (combine (apaths w n) (elts_of n)) arrs /\ Forall2 starts (c_arrs c) arrs).
  { clear T E. induction A as [|[p t] a l la E1 _ IH]; [exists []; now split|]. destruct IH as (arrs & I1 & I2). cbn [fst snd] in E1.
    destruct (G _ _ E1) as (x & E2 & X). destruct x as [| |t' a']; try contradiction. destruct X as [-> X]. exists (a' :: arrs). now split; constructor. }
  destruct Q as (arrs & Q1 & Q2). exists (mkC (c_rows c ++ more) arrs). split; [split; [exact E|exact Q1]|]. split; [now exists more|exact Q2].
Qed.
Lemma holds_kept h h' ws w n c : holds h w n c -> kept_but ws h h' -> holds h' w n c.
Proof.
  intros [T A] K. split.
  - destruct (K _ _ T) as [X|(_ & l & l' & X & _)]; [exact X|discriminate].
  - induction A as [|x a l la E1 _ IH]; [constructor|]. constructor; [|exact IH]. destruct (K _ _ E1) as [X|(_ & y & y' & X & _)]; [exact X|discriminate].
Qed.
Lemma at_least_kept h h' ws w n c : at_least h w n c -> kept_but ws h h' -> at_least h' w n c.
Proof. intros (c' & H & X) K. exists c'. split; [eapply holds_kept; eassumption|exact X]. Qed.
Lemma has_imp (P Q : string -> content -> Prop) segs : (forall n c, P n c -> Q n c) -> has_tables P segs -> has_tables Q segs.
Proof. intros I H n Hn He. destruct (H n Hn He) as (con & X & Y). exists con. split; [exact X|now apply I]. Qed.
Lemma tables_has h w segs : tables h w segs -> has_tables (holds h w) segs.
Proof. intros T n Hn He. specialize (T n Hn). destruct (entries_of n segs); [congruence|exact T]. Qed.

(** The records before the place where reading the top file stops. *)
Lemma file_began only k id bs segs n g0 h pre ft : begins only k id false bs segs n -> id <> 0 -> 0 < g_batch g0 ->
  vacant h [pre ++ ft ++ str_of_Z id]%string ->
  has_tables (at_least (p_out (fst (e_parse_file only (mkP (mkIn k bs false []) (set_prefix pre (set_ftid ft (reset true g0))) h)))) [pre ++ ft ++ str_of_Z id]%string) segs.
Proof.
  intros (m & mfs & tail & st' & fs & rest & HN & HR) Hid Hb HV. set (w := [pre ++ ft ++ str_of_Z id]%string) in *. set (g := set_prefix _ _).
  pose proof (start_finv_top g0 h id pre ft w Hb eq_refl HV) as HI. fold g in HI.
  destruct (rheader_next k m mfs bs tail (mkP (mkIn k bs false []) g h) HN eq_refl eq_refl) as (fr' & E).
  destruct (loop_to only k id false w start segs m mfs tail st' n fs rest HR Hid g h fr' (S (fuel_of (mkP (mkIn k tail false fr') g h)))) as (g' & h' & fr2 & fuel' & E2 & FI & _).
  { unfold fuel_of. cbn [p_in f_rest]. apply reads_to_len in HR. lia. }
  { exact HI. }
  pose proof (finv_tables _ _ _ _ _ _ _ FI (reads_to_tabs _ _ _ _ _ _ _ _ _ _ _ _ _ HR)) as T. apply tables_has in T.
  unfold e_parse_file. unfold ebind at 1. unfold stop at 1. rewrite E. unfold ebind at 1. cbn [p_g p_out] in E2 |- *. rewrite E2.
  pose proof (parse_loop_eg only fuel' n fs (mkP (mkIn k rest false fr2) g' h')) as G.
  destruct (e_parse_loop fuel' only n fs _) as [s2 r]. cbn [fst] in G. apply go_grows in G. cbn [p_out] in G.
  assert (T2 : has_tables (at_least (p_out s2) w) segs).
  { eapply has_imp; [|exact T]. intros x c Hx. now apply (holds_grows h'). }
  destruct r as [u|e]; [|exact T2]. destruct (attributes_left s2) as [_ [->|(w' & f & _ & A & ->)]]; [exact T2|].
  eapply has_imp; [|exact T2]. intros x c Hx. eapply at_least_kept; [exact Hx|]. apply attr_kept; [exact A|apply kept_refl].
Qed.
Theorem convert_began d top fp letter no ext (usefp : bool) prefix pre only k id b bs segs n g h0 g' h' r :
  pre = (if usefp then prefix ++ fp else prefix)%string -> file_in d top = Some b -> contents k b bs -> begins only k id false bs segs n ->
  id <> 0 -> 0 < g_batch g -> unused (nm_of pre letter id) h0 ->
  e_convert d top (s2l fp, s2l letter, no, s2l ext) usefp prefix only g h0 = ((g', h'), r) ->
  has_tables (at_least h' [nm_of pre letter id]) segs.
Proof.
  intros Hpre HF CB HB Hid Hb HU. assert (V : vacant h0 [nm_of pre letter id]) by now apply (unused_vacant (nm_of pre letter id)).
  pose proof (file_began only k id bs segs n g h0 pre letter HB Hid Hb V) as T. fold (nm_of pre letter id) in T.
  unfold e_convert. rewrite !l2s_s2l, <- Hpre, HF, (contents_kind _ _ _ CB). cbv zeta.
  change (set_ftid letter (set_prefix pre (reset true g))) with (set_prefix pre (set_ftid letter (reset true g))).
  assert (EP : fst (e_parse_into k b only (eret tt) (set_prefix pre (set_ftid letter (reset true g)), h0)) =
    let s := fst (e_parse_file only (mkP (mkIn k bs false []) (set_prefix pre (set_ftid letter (reset true g))) h0)) in (p_g s, p_out s)).
  { unfold e_parse_into. rewrite (contents_open _ _ _ CB). cbn [fst snd]. unfold ebind, eret. destruct (e_parse_file only _) as [s r0]. reflexivity. }
  destruct (e_parse_into k b only (eret tt) _) as [gh r1]. cbn [fst] in EP. cbv zeta in EP.
  assert (T1 : has_tables (at_least (snd gh) [nm_of pre letter id]) segs) by (rewrite EP; exact T). clear EP T.
  assert (FIN : forall gh', leaves gh gh' -> gh' = (g', h') -> has_tables (at_least h' [nm_of pre letter id]) segs).
  { intros gh' [_ _ _ (ws & _ & K)] ->. eapply has_imp; [|exact T1]. intros x c Hx. eapply at_least_kept; [exact Hx|exact K]. }
  destruct r1 as [u|e].
  2:{ intros H. injection H as H _. apply (FIN gh); [apply leaves_refl|exact H]. }
  destruct (g_hashier (fst gh)).
  2:{ intros H. injection H as H _. apply (FIN gh); [apply leaves_refl|exact H]. }
  destruct (g_htab (fst gh)) as [p|].
  2:{ intros H. injection H as H _. apply (FIN gh); [apply leaves_refl|exact H]. }
  destruct (candidates _ _ _) as [names|e].
  2:{ intros H. injection H as H _. apply (FIN gh); [apply leaves_refl|exact H]. }
  pose proof (lower_left d k only names gh) as L.
  destruct (e_read_lower d k only names gh) as [gh2 [evs|e]]; cbn [fst] in L; intros H; injection H as H _; apply (FIN gh2); assumption.
Qed.

(** ** Lower files *)
Definition ev_name (e : event) : string := match e with Read n | Missing n => n end.
Definition skipped (e : event) : Prop := exists n, e = Missing n.
Lemma lower_skipped d k only : forall l gh gh1 evs, e_read_lower d k only l gh = (gh1, Ok evs) -> Forall skipped evs -> gh1 = gh.
Proof.
  induction l as [|[n i] l IH]; intros gh gh1 evs; cbn [e_read_lower]; [now intros [= -> _]|]. destruct (file_in d n).
  - destruct (e_parse_into _ _ _ _ _) as [gh2 [u|e]]; [|discriminate]. destruct (e_read_lower d k only l gh2) as [gh3 [es|e]]; [|discriminate].
    intros [= _ <-] F. inversion F as [|? ? [m X]]. discriminate.
  - destruct (e_read_lower d k only l gh) as [gh3 [es|e]] eqn:E; [|discriminate]. intros [= -> <-] F. inversion F. eapply IH; eassumption.
Qed.
Lemma lower_more d d' k only : forall l gh gh1 ea eb, e_read_lower d' k only l gh = (gh1, Ok (ea ++ eb)) ->
  Forall (fun e => file_in d (ev_name e) = file_in d' (ev_name e)) ea -> Forall skipped eb -> leaves gh1 (fst (e_read_lower d k only l gh)).
Proof.
  induction l as [|[n i] l IH]; intros gh gh1 ea eb H Fa Fb.
  - cbn [e_read_lower] in *. injection H as <- _. apply leaves_refl.
  - destruct ea as [|e ea].
    + cbn [app] in H. apply lower_skipped in H; [|exact Fb]. subst gh1. apply lower_left.
    + inversion Fa as [|? ? F1 F2]; subst. revert H. cbn [e_read_lower]. destruct (file_in d' n) as [bs|] eqn:E.
      * destruct (e_parse_into k bs only _ _) as [gh2 [u|x]] eqn:EP; [|discriminate]. destruct (e_read_lower d' k only l gh2) as [gh3 [es|x]] eqn:ER; [|discriminate].
        intros [= -> <- ->]. cbn [ev_name] in F1. rewrite F1, E, EP. specialize (IH gh2 gh1 ea eb ER F2 Fb).
        destruct (e_read_lower d k only l gh2) as [gh4 [es|x]]; exact IH.
      * destruct (e_read_lower d' k only l gh) as [gh3 [es|x]] eqn:ER; [|discriminate].
        intros [= -> <- ->]. cbn [ev_name] in F1. rewrite F1, E. specialize (IH gh gh1 ea eb ER F2 Fb).
        destruct (e_read_lower d k only l gh) as [gh4 [es|x]]; exact IH.
Qed.
Lemma convert_more d d' top x usefp prefix only g h0 gh1 ea eb : e_convert d' top x usefp prefix only g h0 = (gh1, Ok (Read top :: ea ++ eb)) ->
  file_in d top = file_in d' top -> Forall (fun e => file_in d (ev_name e) = file_in d' (ev_name e)) ea -> Forall skipped eb ->
  leaves gh1 (fst (e_convert d top x usefp prefix only g h0)).
Proof.
  intros H T Fa Fb. revert H. destruct x as [[[fp letter] no] ext]. unfold e_convert. rewrite T. destruct (file_in d' top) as [bs|]; [|discriminate]. cbv zeta.
  destruct (e_parse_into _ bs only _ _) as [gh [u|e]]; [|discriminate]. destruct (g_hashier (fst gh)); [|intros [= <- _]; apply leaves_refl].
  destruct (g_htab (fst gh)) as [p|]; [|discriminate]. destruct (candidates _ _ _) as [names|]; [|discriminate].
  destruct (e_read_lower d' _ only names gh) as [gh2 [es|e]] eqn:E; [|discriminate]. intros [= -> ->]. apply (lower_more d) in E; [|assumption..].
  destruct (e_read_lower d _ only names gh) as [gh3 [es|e]]; exact E.
Qed.
(** The files of [d'] are those of an assembly; those of [d], from some place on,
    are any. *)
Theorem convert_lower d d' top fp letter no ext (usefp : bool) prefix pre k id b segs ps ps1 ps2 g h0 g' h' r :
  pre = (if usefp then prefix ++ fp else prefix)%string -> upper_letter letter ->
  assembly d' fp letter ext pre k id b segs ps -> file_in d' top = Some b -> file_in d top = Some b -> 0 < g_batch g ->
  unused (nm_of pre letter id) h0 -> lower_places ext ps = ps1 ++ ps2 ->
  (forall p, In p ps1 -> file_in d (lower_file fp ext p) = file_in d' (lower_file fp ext p)) -> (forall p, In p ps2 -> file_in d' (lower_file fp ext p) = None) ->
  e_convert d top (s2l fp, s2l letter, no, s2l ext) usefp prefix [] g h0 = ((g', h'), r) ->
  has_tables (holds h' [nm_of pre letter id]) segs /\
  (forall p b', In p ps1 -> file_in d (lower_file fp ext p) = Some b' -> forall bs segs', contents k b' bs -> file_of [] k (pl_type p) true bs segs' ->
     some_record segs' -> has_tables (holds h' (lower_group pre letter id p)) segs').
Proof.
  intros Hpre U A F' F Hb HU EP P1 P2 E.
  destruct (convert_assembly d' top fp letter no ext usefp prefix pre k id b segs ps g h0 Hpre U A F' Hb HU) as (g1 & h1 & C & _ & T & L & _).
  pose proof (convert_says d' top (s2l fp, s2l letter, no, s2l ext) usefp prefix [] g h0) as S. rewrite C in S.
  destruct (e_convert d' top _ usefp prefix [] g h0) as [gh1 [evs|e]] eqn:E1; [|discriminate]. cbn [saysR] in S. injection S as <- <-.
  rewrite EP, map_app in E1. pose proof (convert_more d d' _ _ _ _ _ _ _ _ _ _ E1) as M. rewrite E in M. cbn [fst] in M.
  destruct M as [_ _ _ (ws & _ & K)].
  { congruence. }
  { apply Forall_forall. intros x Hx. apply in_map_iff in Hx as (p & <- & Hp). specialize (P1 p Hp). unfold seen. destruct (file_in d' (lower_file fp ext p)) eqn:X; cbn [ev_name]; now rewrite X. }
  { apply Forall_forall. intros x Hx. apply in_map_iff in Hx as (p & <- & Hp). unfold seen. rewrite (P2 p Hp). now eexists. }
  cbn [snd] in K. split.
  - apply tables_has in T. eapply has_imp; [|exact T]. intros n c Hc. eapply holds_kept; eassumption.
  - intros p b' Hp Hb' bs segs' Q1 Q2 Q3. assert (IP : In p (lower_places ext ps)) by (rewrite EP; apply in_or_app; now left).
    rewrite (P1 p Hp) in Hb'. specialize (L p b' IP Hb').
    destruct (L bs segs' Q1 Q2 Q3) as [Lt _]. apply tables_has in Lt.
    eapply has_imp; [|exact Lt]. intros n c Hc. eapply holds_kept; eassumption.
Qed.
