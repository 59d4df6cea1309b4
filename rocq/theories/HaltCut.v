(** * HaltCut: a well-formed file cut between two records is a well-formed file *)
From Verif Require Import Base Flt SeqFile H5 Schema Parsers SeqSpec StoreSpec ParserSpec LayoutSpec FileSpec ListFacts StoreProofs SeqProofs ParserRun ParserTerm LayoutProofs FileProofs ConvertFrame Data Files SifName Convert ConvertSpec ConvertProofs AssemblySpec AssemblyProofs HaltSpec HaltReads.
Open Scope string_scope.
Open Scope Z_scope.
Open Scope list_scope.

Lemma next_header_of k m mfs bs tail : enc_next k m mfs bs tail -> m <> "" -> exists hb, bs = hb ++ tail /\ enc_header k m mfs hb.
Proof. intros H Hm. inversion H; subst; [eauto|contradiction]. Qed.
Lemma header_same k m fs hb tl m' fs' hb' tl' : enc_header k m fs hb -> enc_header k m' fs' hb' -> hb ++ tl = hb' ++ tl' -> m = m'.
Proof.
  intros H H' E. pose proof (read_headerrec_enc k m fs hb tl false [] H) as A. pose proof (read_headerrec_enc k m' fs' hb' tl' false [] H') as B.
  rewrite E in A. rewrite A in B. injection B. congruence.
Qed.
(** Whatever follows a record: only cross sections look at it. *)
Lemma layout_retail kinds k c n it rest c' rest' : layout kinds k c n it rest c' ->
  (~ In n (map (fun x => fst (fst x)) section_types) \/ exists m fs hb tl tl', enc_header k m fs hb /\ rest = hb ++ tl /\ rest' = hb ++ tl') ->
  layout kinds k c n it rest' c'.
Proof.
  intros H N. destruct H; try (econstructor; eassumption).
  destruct N as [N|(m1 & fs1 & hb1 & tl1 & tl1' & Hh & E & ->)].
  - exfalso. apply N. change n with (fst (fst (n, nc, no))). now apply (in_map (fun x => fst (fst x))).
  - assert (m1 = m) as -> by (eapply (header_same k m1 fs1 hb1 tl1 m mfs hb tl); auto). eapply lay_section_without; eassumption.
Qed.

Definition heads (k : SeqFile.kind) (rest rest' : list ascii) : Prop := exists m fs hb tl tl', enc_header k m fs hb /\ rest = hb ++ tl /\ rest' = hb ++ tl'.
Definition kept_by (lay : SeqFile.kind -> ctx -> string -> item -> list ascii -> ctx -> Prop) : Prop := forall k c n it rest c' rest',
  lay k c n it rest c' -> heads k rest rest' -> lay k c n it rest' c'.
Lemma layout_kept kinds : kept_by (layout kinds).
Proof. intros k c n it rest c' rest' H N. eapply layout_retail; eauto. Qed.
Lemma tran_kept : kept_by tran_layout.
Proof. intros k c n it rest c' rest' H N. destruct H. econstructor; eassumption. Qed.
Lemma hier_kept : kept_by hier_layout.
Proof. intros k c n it rest c' rest' H N. destruct H. econstructor; eassumption. Qed.

Lemma run_retail lay k n c it its c' m mfs bs tail : kept_by lay -> enc_run lay k n c it its c' m mfs bs tail -> m <> "" ->
  exists front, bs = front ++ tail /\ forall tail', enc_run lay k n c it its c' m mfs (front ++ tail') tail'.
Proof.
  intros K H Hm. induction H as [c it c' m fs bs tail L N Hn|c it c1 it2 its c' m fs hb bs tail L Hh R IH].
  - destruct (next_header_of _ _ _ _ _ N Hm) as (hb & -> & Hh). exists (i_bs it ++ hb). split; [now rewrite app_assoc|].
    intro tail'. rewrite <- app_assoc. eapply run_last; [|now apply next_header|exact Hn]. eapply K; [exact L|]. exists m, fs, hb, tail, tail'. now repeat split.
  - destruct (IH Hm) as (front & -> & F). exists (i_bs it ++ hb ++ front). split; [now rewrite !app_assoc|].
    intro tail'. rewrite <- !app_assoc. eapply run_more; [|exact Hh|apply F]. eapply K; [exact L|]. do 5 eexists. split; [exact Hh|]. split; reflexivity.
Qed.
(** ... and ended here. *)
Lemma run_cut lay k n c it its c' m mfs bs tail : kept_by lay -> (forall c it rest c' rest', lay k c n it rest c' -> lay k c n it rest' c') -> n <> "" ->
  enc_run lay k n c it its c' m mfs bs tail -> m <> "" ->
  exists front hb, bs = front ++ hb ++ tail /\ enc_header k m mfs hb /\ forall e, at_end k e -> enc_run lay k n c it its c' "" [] (front ++ e) [].
Proof.
  intros K K2 Hne H Hm. induction H as [c it c' m fs bs tail L N Hn|c it c1 it2 its c' m fs hb bs tail L Hh R IH].
  - destruct (next_header_of _ _ _ _ _ N Hm) as (hb & -> & Hh). exists (i_bs it), hb. split; [reflexivity|]. split; [exact Hh|]. intros e He.
    eapply run_last; [eapply K2; exact L|now apply next_end|]. intros X. now apply Hne.
  - destruct (IH Hm) as (front & hb2 & -> & Hh2 & F). exists (i_bs it ++ hb ++ front), hb2. split; [now rewrite <- !app_assoc|]. split; [exact Hh2|]. intros e He.
    rewrite <- !app_assoc. eapply run_more; [eapply K2; exact L|exact Hh|now apply F].
Qed.
Lemma pass_retail k n fs bs m mfs tail : enc_pass k n fs bs m mfs tail -> m <> "" ->
  exists front, bs = front ++ tail /\ forall tail', enc_pass k n fs (front ++ tail') m mfs tail'.
Proof.
  intros H Hm. induction H as [fs rb bs m mfs tail R N Hn|fs rb fs2 hb bs m mfs tail R Hh P IH].
  - destruct (next_header_of _ _ _ _ _ N Hm) as (hb & -> & Hh). exists (rb ++ hb). split; [now rewrite app_assoc|].
    intro tail'. rewrite <- app_assoc. eapply pass_last; [exact R|now apply next_header|exact Hn].
  - destruct (IH Hm) as (front & -> & F). exists (rb ++ hb ++ front). split; [now rewrite <- !app_assoc|].
    intro tail'. rewrite <- !app_assoc. eapply pass_more; [exact R|exact Hh|apply F].
Qed.
Lemma next_retail k m mfs bs tail : enc_next k m mfs bs tail -> m <> "" -> exists front, bs = front ++ tail /\ enc_header k m mfs front /\ forall tail', enc_next k m mfs (front ++ tail') tail'.
Proof. intros H Hm. destruct (next_header_of _ _ _ _ _ H Hm) as (hb & -> & Hh). exists hb. split; [reflexivity|]. split; [exact Hh|]. intro. now apply next_header. Qed.

(** The same records, whatever a Look has seen after its header. *)
Definition same_seg (s t : seg) : Prop := match s, t with
  | Run n l, Run n' l' => n = n' /\ l = l' | Pass n, Pass n' => n = n' | Look n fs _, Look n' fs' _ => n = n' /\ fs = fs' | _, _ => False end.
Lemma same_refl s : same_seg s s. Proof. destruct s; cbn; auto. Qed.

Section Cut.
  Variables (only : list string) (k : SeqFile.kind) (id : Z) (sub : bool).
  Notation r1 := (reads1 only k id sub).
  Lemma reads1_retail st sg n fs bs st1 m mfs tail : r1 st sg n fs bs st1 m mfs tail -> m <> "" ->
    exists front, bs = front ++ tail /\ forall tail', exists sg', same_seg sg sg' /\ r1 st sg' n fs (front ++ tail') st1 m mfs tail'.
  Proof.
    intros H Hm. destruct H.
    - destruct (run_retail _ _ _ _ _ _ _ _ _ _ _ (layout_kept kinds) H4 Hm) as (front & -> & F). exists front. split; [reflexivity|]. intro tail'. eexists. split; [apply same_refl|]. eapply r1_run; eauto.
    - destruct (run_retail _ _ _ _ _ _ _ _ _ _ _ tran_kept H4 Hm) as (front & -> & F). exists front. split; [reflexivity|]. intro tail'. eexists. split; [apply same_refl|]. eapply r1_tran; eauto.
    - destruct (run_retail _ _ _ _ _ _ _ _ _ _ _ hier_kept H4 Hm) as (front & -> & F). exists front. split; [reflexivity|]. intro tail'. eexists. split; [apply same_refl|]. eapply r1_hierarch; eauto.
    - match goal with H : enc_next _ _ _ _ _ |- _ => destruct (next_retail _ _ _ _ _ H Hm) as (front & -> & _ & F) end. exists front. split; [reflexivity|]. intro tail'. eexists. split; [apply same_refl|]. eapply r1_ident; eauto.
    - match goal with H : enc_next _ _ _ _ _ |- _ => destruct (next_retail _ _ _ _ _ H Hm) as (front & -> & _ & F) end. exists front. split; [reflexivity|]. intro tail'. eexists. split; [|eapply r1_irecsize; eauto]. now split.
    - match goal with H : enc_next _ _ _ _ _ |- _ => destruct (next_retail _ _ _ _ _ H Hm) as (front & -> & _ & F) end. exists front. split; [reflexivity|]. intro tail'. eexists. split; [|eapply r1_iend_more; eauto]. now split.
    - destruct (pass_retail _ _ _ _ _ _ _ H1 Hm) as (front & -> & F). exists front. split; [reflexivity|]. intro tail'. eexists. split; [apply same_refl|]. eapply r1_pass; eauto.
    - match goal with H : enc_next _ _ _ _ _ |- _ => destruct (next_retail _ _ _ _ _ H Hm) as (front & -> & _ & F) end. exists (b ++ front). split; [now rewrite app_assoc|]. intro tail'. eexists. split; [apply same_refl|]. rewrite <- app_assoc. eapply r1_void; eauto.
  Qed.
  Lemma reads1_cut st sg n fs bs st1 m mfs tail : r1 st sg n fs bs st1 m mfs tail -> m <> "" -> ends_alone sg ->
    exists front hb, bs = front ++ hb ++ tail /\ enc_header k m mfs hb /\ forall e, at_end k e -> exists sg', same_seg sg sg' /\ r1 st sg' n fs (front ++ e) st1 "" [] [].
  Proof.
    intros H Hm A.
    assert (X : forall m mfs bs tail, enc_next k m mfs bs tail -> m <> "" -> exists hb, bs = [] ++ hb ++ tail /\ enc_header k m mfs hb /\ forall e, at_end k e -> enc_next k "" [] ([] ++ e) []).
    { intros m0 mfs0 bs0 tail0 N N0. destruct (next_header_of _ _ _ _ _ N N0) as (hb & -> & Hh). exists hb. split; [reflexivity|]. split; [exact Hh|]. intros e He. now apply next_end. }
    destruct H; cbn [ends_alone] in A; try contradiction.
    - assert (Hne : n <> "") by (apply laid_stored in H0; tauto).
      destruct (run_cut _ _ _ _ _ _ _ _ _ _ _ (layout_kept kinds) ltac:(intros; eapply layout_retail; eauto) Hne H4 Hm) as (front & hb & -> & Hh & F).
      exists front, hb. split; [reflexivity|]. split; [exact Hh|]. intros e He. eexists. split; [apply same_refl|]. eapply r1_run; eauto.
    - assert (Hne : n <> "") by (intros ->; destruct H0 as [Y|[Y|[]]]; discriminate).
      destruct (run_cut _ _ _ _ _ _ _ _ _ _ _ tran_kept ltac:(intros ? ? ? ? ? L; destruct L; econstructor; eassumption) Hne H4 Hm) as (front & hb & -> & Hh & F).
      exists front, hb. split; [reflexivity|]. split; [exact Hh|]. intros e He. eexists. split; [apply same_refl|]. eapply r1_tran; eauto.
    - assert (Hne : "HIERARCH" <> "") by discriminate. destruct (run_cut _ _ _ _ _ _ _ _ _ _ _ hier_kept ltac:(intros ? ? ? ? ? L; destruct L; econstructor; eassumption) Hne H4 Hm) as (front & hb & -> & Hh & F).
      exists front, hb. split; [reflexivity|]. split; [exact Hh|]. intros e He. eexists. split; [apply same_refl|]. eapply r1_hierarch; eauto.
    - match goal with H : enc_next _ _ _ _ _ |- _ => destruct (X _ _ _ _ H Hm) as (hb & -> & Hh & N) end. exists [], hb. split; [reflexivity|]. split; [exact Hh|]. intros e He. eexists. split; [apply same_refl|]. eapply r1_ident; eauto.
    - match goal with H : enc_next _ _ _ _ _ |- _ => destruct (X _ _ _ _ H Hm) as (hb & -> & Hh & N) end. exists [], hb. split; [reflexivity|]. split; [exact Hh|]. intros e He. eexists. split; [|eapply r1_irecsize; eauto]. now split.
    - match goal with H : enc_next _ _ _ _ _ |- _ => destruct (X _ _ _ _ H Hm) as (hb & -> & Hh & N) end. exists [], hb. split; [reflexivity|]. split; [exact Hh|]. intros e He. eexists. split; [|eapply r1_iend_more; eauto]. now split.
  Qed.

  Lemma no_reads st segs fs bs st' : reads only k id sub st segs "" fs bs st' -> segs = [].
  Proof.
    intros R. inversion R; subst; try reflexivity; try contradiction.
    - match goal with H : In "" laid_types |- _ => apply laid_stored in H as (_ & _ & H); congruence end.
    - match goal with H : In "" tran_types |- _ => destruct H as [H|[H|[]]]; discriminate end.
  Qed.
  Lemma reads_cut : forall segs1 segs2 st n fs bs st', reads only k id sub st (segs1 ++ segs2) n fs bs st' -> segs1 <> [] -> segs2 <> [] -> ends_alone (last segs1 (Pass "")) ->
    exists front m mfs hb tail, bs = front ++ hb ++ tail /\ enc_header k m mfs hb /\
      forall e, at_end k e -> exists segs' st1, Forall2 same_seg segs1 segs' /\ reads only k id sub st segs' n fs (front ++ e) st1.
  Proof.
    induction segs1 as [|sg segs1 IH]; intros segs2 st n fs bs st' R N1 N2 A; [contradiction|].
    apply reads_split in R. cbn [app] in R. destruct R as [(f & l & _ & E & _)|(st1 & m & mfs & tail & R1 & R)].
    { apply app_eq_nil in E. tauto. }
    assert (Hm : m <> ""). { intros ->. apply no_reads in R. apply app_eq_nil in R. tauto. }
    destruct segs1 as [|sg2 segs1].
    - destruct (reads1_cut _ _ _ _ _ _ _ _ _ R1 Hm A) as (front & hb & -> & Hh & F).
      exists front, m, mfs, hb, tail. split; [reflexivity|]. split; [exact Hh|]. intros e He. destruct (F e He) as (sg' & S & R1').
      exists [sg'], st1. split; [repeat constructor; exact S|]. eapply reads_cons; [exact R1'|]. apply reads_end.
    - destruct (reads1_retail _ _ _ _ _ _ _ _ _ R1 Hm) as (front & -> & F).
      destruct (IH segs2 st1 m mfs tail st' R ltac:(discriminate) N2 A) as (front2 & m2 & mfs2 & hb & tail2 & -> & Hh & F2).
      exists (front ++ front2), m2, mfs2, hb, tail2. split; [now rewrite app_assoc|]. split; [exact Hh|]. intros e He.
      destruct (F2 e He) as (segs' & st2 & S & R'). destruct (F (front2 ++ e)) as (sg' & S1 & R1').
      exists (sg' :: segs'), st2. split; [now constructor|]. rewrite <- app_assoc. eapply reads_cons; eassumption.
  Qed.
End Cut.
Lemma same_entries n segs segs' : Forall2 same_seg segs segs' -> entries_of n segs' = entries_of n segs.
Proof.
  intro H. unfold entries_of. f_equal. induction H as [|s t l l' S _ IH]; [reflexivity|]. unfold items_of in *. cbn [flat_map]. rewrite IH. f_equal.
  destruct s, t; cbn in S; try contradiction; try reflexivity. now destruct S as [-> ->].
Qed.
Lemma same_some segs segs' : Forall2 same_seg segs segs' -> some_record segs -> some_record segs'.
Proof.
  intros H (n & its & I). induction H as [|s t l l' S _ IH]; [destruct I|]. destruct I as [->|I].
  - destruct t; cbn in S; try contradiction. destruct S as [<- <-]. exists n, its. now left.
  - destruct (IH I) as (n' & its' & I'). exists n', its'. now right.
Qed.
Lemma same_tables h w segs segs' : Forall2 same_seg segs segs' -> tables h w segs' -> tables h w segs.
Proof. intros S T n I. specialize (T n I). now rewrite (same_entries n _ _ S) in T. Qed.
Lemma file_cut only k id sub bs segs1 segs2 : file_of only k id sub bs (segs1 ++ segs2) -> segs1 <> [] -> segs2 <> [] -> ends_alone (last segs1 (Pass "")) ->
  exists i segs', (i < length bs)%nat /\ Forall2 same_seg segs1 segs' /\ file_of only k id sub (firstn i bs) segs'.
Proof.
  intros (n & fs & tail & st' & N & R) N1 N2 A.
  assert (Hn : n <> ""). { intros ->. apply no_reads in R. apply app_eq_nil in R. tauto. }
  destruct (next_header_of _ _ _ _ _ N Hn) as (h0 & -> & Hh0).
  destruct (reads_cut only k id sub segs1 segs2 _ _ _ _ _ R N1 N2 A) as (front & m & mfs & hb & t2 & -> & Hh & F).
  assert (Hl : (9 <= length hb)%nat).
  { destruct Hh as [m nb mfs fb hb [nn i j H1 H2 H3] _ Hf]. assert (L : (length ((repeat blank i ++ s2l nn ++ repeat blank j) ++ fb) < length hb)%nat).
    { destruct Hf; cbn [length]; rewrite !app_length; cbn [length]; lia. }
    rewrite !app_length, !repeat_length in L. lia. }
  assert (D : forall e, at_end k e -> firstn (length e) hb = e -> (length e < length hb)%nat -> exists i segs', (i < length (h0 ++ front ++ hb ++ t2))%nat /\ Forall2 same_seg segs1 segs' /\ file_of only k id sub (firstn i (h0 ++ front ++ hb ++ t2)) segs').
  { intros e He Ee Le. destruct (F e He) as (segs' & st1 & S & R'). exists (length (h0 ++ front ++ e)), segs'. split; [rewrite !app_length; lia|]. split; [exact S|].
    assert (firstn (length (h0 ++ front ++ e)) (h0 ++ front ++ hb ++ t2) = h0 ++ front ++ e) as ->.
    { rewrite !app_length, firstn_app_2, firstn_app_2, firstn_app. rewrite Ee. replace (length e - length hb)%nat with 0%nat by lia. cbn [firstn]. now rewrite app_nil_r. }
    exists n, fs, (front ++ e), st1. split; [now apply next_header|exact R']. }
  destruct k.
  - destruct hb as [|c hb]; [cbn in Hl; lia|]. apply (D [c]); [constructor|reflexivity|cbn in *; lia].
  - apply (D []); [constructor|reflexivity|cbn; lia].
Qed.

Lemma unified_cut b bs : unified b bs -> forall i, (i < length bs)%nat -> exists j, (j < length b)%nat /\ unified (firstn j b) (firstn i bs).
Proof.
  induction 1 as [|b bs U IH|b bs Hd U IH|c b bs Hc U IH]; intros i Hi; [cbn in Hi; lia|..]; (destruct i as [|i]; [exists 0%nat; cbn [firstn length] in *; split; [lia|constructor]|]);
    cbn [length] in Hi; destruct (IH i) as (j & Hj & V); try lia.
  - exists (S (S j)). cbn [length firstn]. split; [lia|]. now constructor.
  - exists (S j). cbn [length firstn]. split; [lia|]. constructor; [|exact V]. destruct b, j; cbn in *; congruence.
  - exists (S j). cbn [length firstn]. split; [lia|]. now constructor.
Qed.
Lemma contents_cut k b bs i : contents k b bs -> (i < length bs)%nat -> exists j, (j < length b)%nat /\ contents k (firstn j b) (firstn i bs).
Proof.
  intros C Hi. destruct C as [bs|b bs Hk U].
  - exists (S i). cbn [length firstn]. split; [lia|]. constructor.
  - destruct (unified_cut _ _ U i Hi) as (j & Hj & V). exists j. split; [exact Hj|]. constructor; [|exact V]. destruct b, j; cbn in *; congruence.
Qed.
Lemma convert_cut d top fp letter no ext (usefp : bool) prefix pre k id b segs1 segs2 ps g h0 :
  pre = (if usefp then prefix ++ fp else prefix)%string -> upper_letter letter -> assembly d fp letter ext pre k id b (segs1 ++ segs2) ps ->
  entries_of "HIERARCH" segs2 = [] -> segs2 <> [] -> some_record segs1 -> ends_alone (last segs1 (Pass "")) -> 0 < g_batch g -> unused (nm_of pre letter id) h0 ->
  exists n, (n < length b)%nat /\ forall d2, file_in d2 top = Some (firstn n b) ->
    (forall p, In p (lower_places ext ps) -> file_in d2 (lower_file fp ext p) = file_in d (lower_file fp ext p)) ->
    exists g' h', convert d2 top (s2l fp, s2l letter, no, s2l ext) usefp prefix [] g h0 =
      Ok (g', h', Read top :: map (fun p => seen d2 (lower_file fp ext p)) (lower_places ext ps)) /\ tables h' [nm_of pre letter id] segs1.
Proof.
  intros Hp Hu A Hh N2 Sm Ea Hb Un. pose proof (as_top _ _ _ _ _ _ _ _ _ _ A) as (bs & C & F).
  assert (N1 : segs1 <> []) by (intros ->; destruct Sm as (? & ? & [])).
  destruct (file_cut _ _ _ _ _ _ _ F N1 N2 Ea) as (i & segs' & Hi & S & F').
  destruct (contents_cut _ _ _ _ C Hi) as (j & Hj & C'). exists j. split; [exact Hj|]. intros d2 Hd Hl.
  assert (A2 : assembly d2 fp letter ext pre k id (firstn j b) segs' ps).
  { destruct A as [A1 A2 A3 A4 A5 A6 A7]. constructor; auto.
    - now exists (firstn i bs).
    - eapply same_some; eassumption.
    - unfold hierarchy_of in *. rewrite (same_entries "HIERARCH" _ _ S). unfold entries_of, items_of in *. rewrite flat_map_app, map_app in A4. rewrite Hh, app_nil_r in A4. exact A4.
    - intros p b' I Hb'. apply A6; [exact I|]. now rewrite <- Hl. }
  destruct (convert_assembly d2 top fp letter no ext usefp prefix pre k id (firstn j b) segs' ps g h0 Hp Hu A2 Hd Hb Un) as (g' & h' & E & _ & T & _).
  exists g', h'. split; [exact E|]. eapply same_tables; eassumption.
Qed.
