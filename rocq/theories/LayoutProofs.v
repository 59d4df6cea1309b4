(** * LayoutProofs: the readers understand the layouts of LayoutSpec. *)
From Verif Require Import Base Flt SeqFile H5 Schema Parsers SeqSpec StoreSpec ParserSpec LayoutSpec
  ListFacts SeqProofs SeqTerm StoreProofs ParserRun.
From Coq Require Import ZifyBool ZifyNat Permutation.
Open Scope string_scope.
Open Scope Z_scope.
Open Scope list_scope.
Open Scope monad_scope.

(** ** Steps *)
Record at_ (k : kind) (ld : lead) (data pad : list flt) (rest : list ascii) (g : glob) (h : h5) (s : pst) : Prop := {
  at_in : reading k ld (p_in s) data pad rest; at_g : p_g s = g; at_h : p_out s = h }.

Lemma at_start k ld data bs rest g h fr : enc_data k ld data bs ->
  exists pad, at_ k ld data pad rest g h (mkP (mkIn k (bs ++ rest) false fr) g h).
Proof.
  intro H. destruct (reading_start _ _ _ _ rest fr H) as (pad & R). exists pad. split; auto.
Qed.
Lemma rf_step k ld data d1 d2 pad rest g h s n sk : at_ k ld data pad rest g h s ->
  data = d1 ++ d2 -> n = Zlen d1 -> sk = lead_n ld ->
  exists s', rfloats n sk s = Ok (d1, s') /\ at_ k ld d2 pad rest g h s'.
Proof.
  intros [A B C] -> -> ->. destruct (read_floats_reading _ _ _ _ _ _ _ A) as (s' & E & R).
  unfold rfloats, liftF. rewrite E. eexists. split; [reflexivity|]. split; cbn; auto.
Qed.
Lemma at_done k ld pad rest g h s : at_ k ld [] pad rest g h s ->
  f_kind (p_in s) = k /\ f_rest (p_in s) = rest /\ p_out s = h /\ p_g s = g.
Proof. intros [A B C]. apply reading_done in A. tauto. Qed.
Lemma at_modg k ld data pad rest g h s f : at_ k ld data pad rest g h s ->
  exists s', modg f s = Ok (tt, s') /\ at_ k ld data pad rest (f g) h s'.
Proof. intros [A B C]. eexists. split; [reflexivity|]. split; cbn; auto. now rewrite B. Qed.
Lemma at_getg k ld data pad rest g h s : at_ k ld data pad rest g h s -> getg s = Ok (g, s).
Proof. intros [A B C]. unfold getg. now rewrite B. Qed.
Lemma fr_step k ld fs b bs rest g h s sk : enc_cont k ld fs b ->
  f_kind (p_in s) = k -> f_rest (p_in s) = b ++ bs ++ rest -> p_g s = g -> p_out s = h -> sk = lead_n ld ->
  exists fr, liftF (read_floatrec sk) s = Ok (fs, mkP (mkIn k (bs ++ rest) false fr) g h).
Proof.
  intros H E1 E2 E3 E4 ->. destruct s as [[k0 r0 h0 fr0] g0 o0]. cbn in *. subst. unfold liftF. cbn [p_in].
  rewrite (read_floatrec_enc _ _ _ _ (bs ++ rest) h0 fr0 H). cbn. eauto.
Qed.
Lemma lift_int l i f z (s : pst) : nth_error l i = Some f -> trunc_is f z -> liftR (int_at l i) s = Ok (z, s).
Proof.
  intros H T. unfold liftR, slift, int_at, pyget, rbind. rewrite H. now rewrite (trunc_int_of _ _ T).
Qed.
Lemma lift_get {A} (l : list A) i f (s : pst) : nth_error l i = Some f -> liftR (pyget l i) s = Ok (f, s).
Proof. intro H. unfold liftR, slift, pyget. now rewrite H. Qed.
Lemma truthy_eq f : truthy f = negb (flt_eq f f0).
Proof.
  destruct f as [|[]|[]|s m e]; try reflexivity. unfold flt_eq. cbn [fcmp f0 truthy fexp scaled]. cbv zeta.
  assert (0 < Z.shiftl (Zpos m) (e - Z.min e 0)).
  { rewrite Z.shiftl_mul_pow2 by lia. apply Z.mul_pos_pos; [lia|]. apply Z.pow_pos_nonneg; lia. }
  destruct s; destruct (_ ?= 0) eqn:E; try reflexivity; rewrite Z.compare_eq_iff in E; lia.
Qed.

Definition Jany (_ : list (Z * Z)) : Prop := True.

(** The readers' bodies by record type. *)
Definition bodies : list (string * body) := 
  map (fun x => (fst (fst x), b_standard (length (columns (fst (fst x)))) (lead_n (snd x)))) fixed_types ++
  map (fun x => (fst (fst x), b_optional (length (columns (fst (fst x)))) 8 (snd x))) section_types ++
  [("GUSYI", b_optional 14 8 2)] ++
  map (fun n => (n, b_text)) text_types ++ map (fun n => (n, b_td)) name_types ++
  [("GELMNT1", b_gelmnt1); ("GELMNT2", b_gelmnt2); ("GELREF1", b_gelref1);
   ("GSETMEMB", b_gsetmemb); ("SCONCEPT", b_sconcept); ("SCONMESH", b_sconmesh); ("BNBCD", b_bnbcd);
   ("BLDEP", b_bldep); ("BEUSLO", b_beuslo); ("BRIGAC", b_brigac)] ++
  map (fun n => (fst n, b_compdef)) comp_types ++
  [("RDPOINTS", b_rdpoints); ("RDIELCOR", b_rdielcor); ("RDRESREF", b_rdresref)] ++
  map (fun n => (n, b_groups3)) combi_types ++ map (fun n => (n, b_rvnodres)) nodres_types ++
  map (fun n => (n, b_rvelmres)) elmres_types ++
  [("WDRESREF", b_wdresref); ("WGLOBDEF", b_wglobdef); ("WBODY", b_wbody); ("W1MATRIX", b_w1matrix)] ++
  map (fun n => (n, b_wcommon1)) six_types ++
  [("W1SFORCE", b_w1sforce); ("W2HDRIFT", b_drift 2); ("W2MDRIFT", b_drift 5); ("WFKPOINT", b_wfkpoint);
   ("WFLUIDKN", b_wfluidkn); ("WSECTION", b_wsection); ("WSURFACE", b_wsurface); ("WINPUT", b_winput);
   ("W1PANPRE", b_w1panpre)].

(** They are those of the dict `readers`. *)
Definition reader_for (n : string) (b : body) : reader :=
  if String.eqb n "SCONMESH" then rd_sconmesh
  else if String.eqb n "RDIELCOR" then rd_rdielcor else run_reader b.
Lemma bodies_readers : Forall (fun nb => sget (fst nb) readers = Some (reader_for (fst nb) (snd nb))) bodies.
Proof. unfold bodies. cbn [map app fixed_types section_types text_types name_types comp_types combi_types nodres_types elmres_types six_types fst snd].
  repeat (constructor; [reflexivity|]). constructor. Qed.

Lemma Zlen_length {A} (l : list A) : Zlen l = Z.of_nat (length l).
Proof. reflexivity. Qed.

Ltac zl := unfold Zlen in *; rewrite ?app_length, ?map_length; cbn [length] in *; lia.
Ltac start H A := intros g h fr HC; cbn [i_fs i_bs i_entry e_row e_data];
  let pad := fresh "pad" in
  match type of H with enc_data ?k ?ld ?d ?bs =>
    match goal with |- context [mkP (mkIn k (bs ++ ?rest) false fr) g h] =>
      destruct (at_start k ld d bs rest g h fr H) as (pad & A);
      set (s0 := mkP (mkIn k (bs ++ rest) false fr) g h) in *; clearbody s0 end end.
Ltac rd A d1 d2 :=
  match type of A with at_ ?k ?ld ?d ?pad ?rest ?g ?h ?s =>
    match goal with |- context [rfloats ?n ?sk s] =>
      let s' := fresh "s" in let E := fresh "E" in let A' := fresh "A" in
      destruct (rf_step k ld d d1 d2 pad rest g h s n sk A) as (s' & E & A');
      [ try reflexivity; cbn [app]; rewrite ?app_nil_r; try reflexivity; try (rewrite <- ?app_assoc; reflexivity)
      | try zl | reflexivity | rewrite E; clear E A; rename A' into A ] end end.
Ltac ii := match goal with T : trunc_is ?f ?z |- context [liftR (int_at ?l ?i) ?s] =>
  rewrite (lift_int l i f z s eq_refl T) end.
Ltac gg := match goal with |- context [liftR (pyget ?l ?i) ?s] =>
  rewrite (lift_get l i _ s eq_refl) end.
Ltac fin A := eexists _, _; split; [reflexivity|]; split; [unfold Jany; auto|];
  destruct (at_done _ _ _ _ _ _ _ A) as (F1 & F2 & F3 & F4); rewrite F4; repeat split; auto using gframe_refl.

Lemma ok_gelmnt2 k c fs t nn nods bs rest :
  length fs = 4%nat -> length t = 12%nat -> count nn (length nods) ->
  enc_data k Lead8 (t ++ nn :: nods) bs ->
  body_ok Jany b_gelmnt2 k c "GELMNT2" (mkItem fs bs
        (mkEntry (nums fs ++ [PT (nums t); PI (Z.of_nat (length nods))]) [nums nods])) rest c.
Proof.
  intros L1 L2 T H. unfold count in *. start H A. unfold b_gelmnt2, sbind.
  rd A t (nn :: nods). rd A [nn] nods. ii. rd A nods (@nil flt). fin A; apply HC.
Qed.

Lemma ok_plain_J : forall r : recd, Jany (marks r). Proof. intro. exact I. Qed.
Ltac okc HC := apply HC.

(** ** Groups, rows, pairs *)
Lemma at_times k ld w (F : list flt -> pyval) sk : sk = lead_n ld -> forall gs d2 pad rest g h s,
  all_len w gs -> at_ k ld (concat gs ++ d2) pad rest g h s ->
  exists s', times (length gs) (do l <- rfloats (Z.of_nat w) sk; sret (F l)) s = Ok (map F gs, s') /\
    at_ k ld d2 pad rest g h s'.
Proof.
  intros -> . induction gs as [|x gs IH]; intros d2 pad rest g h s Hl A.
  - exists s. split; [reflexivity|exact A].
  - cbn [length times map concat] in *. inversion Hl as [|? ? H1 H2]; subst. unfold sbind.
    rd A x (concat gs ++ d2). cbn [sret]. destruct (IH _ _ _ _ _ _ H2 A) as (s' & E & A').
    exists s'. unfold sret in *. unfold sbind in E. rewrite E. auto.
Qed.
Lemma at_timesZ k ld w (F : list flt -> pyval) sk gs d2 pad rest g h s z W : sk = lead_n ld ->
  all_len w gs -> at_ k ld (concat gs ++ d2) pad rest g h s -> z = Z.of_nat (length gs) -> W = Z.of_nat w ->
  exists s', timesZ z (do l <- rfloats W sk; sret (F l)) s = Ok (map F gs, s') /\
    at_ k ld d2 pad rest g h s'.
Proof.
  intros H1 H2 H3 -> ->. unfold timesZ. rewrite Nat2Z.id. eapply at_times; eauto.
Qed.
Lemma rows_of_matrix m n : forall rows, matrix (S m) n rows -> rows_of (S m) n (concat rows) = tuples rows.
Proof.
  induction m as [|m IH]; intros rows [L H].
  - destruct rows as [|r [|? ?]]; try discriminate. cbn [rows_of concat tuples map]. now rewrite app_nil_r.
  - destruct rows as [|r rows]; [discriminate|]. inversion H as [|? ? H1 H2]; subst.
    cbn [concat tuples map]. change (rows_of (S (S m)) (length r) (r ++ concat rows)) with
      (PT (pfs (firstn (length r) (r ++ concat rows))) :: rows_of (S m) (length r) (skipn (length r) (r ++ concat rows))).
    rewrite firstn_app_exact, skipn_app_exact by reflexivity. rewrite IH; [reflexivity|]. split; [cbn in L; lia|exact H2].
Qed.
Lemma matrix_length m n (rows : list (list flt)) : matrix m n rows -> length (concat rows) = (m * n)%nat.
Proof.
  intros [<- H]. induction H; [reflexivity|]. cbn [concat]. rewrite app_length. cbn [length]. lia.
Qed.
Lemma all_len_length n (rows : list (list flt)) : all_len n rows -> length (concat rows) = (length rows * n)%nat.
Proof. intro H. apply matrix_length. split; auto. Qed.
Lemma pairs_parts v : pairs (parts v) = complexes v.
Proof. induction v as [|[x y] v IH]; [reflexivity|].
  change (PC x y :: pairs (parts v) = PC x y :: complexes v). now rewrite IH. Qed.
Lemma parts_length v : length (parts v) = (2 * length v)%nat.
Proof. induction v as [|[x y] v IH]; [reflexivity|]. cbn. unfold parts in IH. lia. Qed.

(** ** Lines *)
Lemma strip_trim k t i j : trim k t ->
  strip (match k with Unf => is_space_b | Fmt => is_space_s end) (repeat blank i ++ t ++ repeat blank j) = t.
Proof.
  set (p := match k with Unf => is_space_b | Fmt => is_space_s end).
  assert (Pb : p blank = true) by (unfold p; destruct k; reflexivity).
  assert (Pn : forall a, ~ white k a -> p a = false).
  { intros a Ha. unfold p, white in *. pose proof (code_range a).
    assert (Q1 : ~ (9 <= code a <= 13)) by tauto. assert (Q2 : code a <> 32) by tauto.
    assert (Q3 : k = Fmt -> ~ (28 <= code a <= 31)) by tauto. clear Ha.
    destruct k; [|specialize (Q3 eq_refl)]; unfold is_space_b, is_space_s; lia. }
  assert (R : forall i l, dropwhile p (repeat blank i ++ l) = dropwhile p l).
  { induction i0; intro l; [reflexivity|]. cbn [repeat app dropwhile]. now rewrite Pb. }
  intro H. unfold strip. rewrite R. destruct t as [|a t].
  - cbn [app]. rewrite <- (app_nil_r (repeat blank j)) at 1. rewrite R. reflexivity.
  - destruct H as [H1 H2]. cbn [app dropwhile]. rewrite (Pn _ H1).
    change (a :: t ++ repeat blank j) with ((a :: t) ++ repeat blank j). rewrite rev_app_distr, rev_repeat, R.
    destruct (rev (a :: t)) as [|b r] eqn:E; [apply (f_equal (@length _)) in E; rewrite rev_length in E; discriminate|].
    assert (E2 : a :: t = rev r ++ [b]) by (rewrite <- (rev_involutive (a :: t)), E; reflexivity).
    rewrite E2, last_last in H2. cbn [dropwhile]. rewrite (Pn _ H2). now rewrite <- E, rev_involutive.
Qed.

Definition ready (k : kind) (rest : list ascii) (g : glob) (h : h5) (s : pst) : Prop :=
  f_kind (p_in s) = k /\ f_rest (p_in s) = rest /\ p_out s = h /\ p_g s = g.
Lemma line_step k p b rest g h s : frame k p b -> ready k (b ++ rest) g h s ->
  exists s', liftF read_stringrec s = Ok (p, s') /\ ready k rest g h s'.
Proof.
  intros H (E1 & E2 & E3 & E4). destruct s as [[k0 r0 h0 fr0] g0 o0]. cbn in *. subst. unfold liftF. cbn [p_in].
  rewrite (read_stringrec_frame _ _ _ h0 fr0 rest H). eexists. split; [reflexivity|]. repeat split.
Qed.
Lemma lines_step k : forall ps bs rest g h s, frames k ps bs -> ready k (bs ++ rest) g h s ->
  exists s', times (length ps) (liftF read_stringrec) s = Ok (ps, s') /\ ready k rest g h s'.
Proof.
  induction ps as [|p ps IH]; intros bs rest g h s H R; inversion H; subst.
  - exists s. auto.
  - cbn [length times]. unfold sbind. rewrite <- app_assoc in R.
    match goal with F : frame _ _ _ |- _ => destruct (line_step _ _ _ _ _ _ _ F R) as (s1 & E1 & R1) end. rewrite E1.
    match goal with F : frames _ _ _ |- _ => destruct (IH _ _ _ _ _ F R1) as (s2 & E2 & R2) end. rewrite E2.
    exists s2. auto.
Qed.
Lemma strip_step k t p b rest g h s : text_line k t p -> frame k p b -> ready k (b ++ rest) g h s ->
  exists s', strip_rec s = Ok (t, s') /\ ready k rest g h s'.
Proof.
  intros [i j Ht] F R. destruct (line_step _ _ _ _ _ _ _ F R) as (s1 & E1 & R1).
  exists s1. unfold strip_rec, sbind. rewrite E1. destruct R as (Ek & _). rewrite Ek, strip_trim by exact Ht. auto.
Qed.
Lemma strips_step k : forall ts ps bs rest g h s, Forall2 (text_line k) ts ps -> frames k ps bs ->
  ready k (bs ++ rest) g h s ->
  exists s', times (length ts) strip_rec s = Ok (ts, s') /\ ready k rest g h s'.
Proof.
  intros ts ps bs rest g h s H. revert bs s. induction H as [|t p ts ps H1 H2 IH]; intros bs s F R; inversion F; subst.
  - exists s. auto.
  - cbn [length times]. unfold sbind. rewrite <- app_assoc in R.
    match goal with F : frame _ _ _ |- _ => destruct (strip_step _ _ _ _ _ _ _ _ H1 F R) as (s1 & E1 & R1) end. rewrite E1.
    match goal with F : frames _ _ _ |- _ => destruct (IH _ _ F R1) as (s2 & E2 & R2) end. rewrite E2.
    exists s2. auto.
Qed.
Lemma decode_ascii t : Forall (fun x => code x < 128) t -> decode t = Ok t.
Proof.
  intro H. unfold decode. replace (forallb (fun c => code c <? 128) t) with true; [reflexivity|].
  symmetry. apply forallb_forall. intros x Hx. rewrite Forall_forall in H. apply H in Hx. lia.
Qed.
Lemma names_step k : forall ts ps bs rest g h s, Forall2 (text_line k) ts ps ->
  Forall (Forall (fun x => code x < 128)) ts -> frames k ps bs ->
  ready k (bs ++ rest) g h s ->
  exists s', times (length ts) name_line s = Ok (ts, s') /\ ready k rest g h s'.
Proof.
  intros ts ps bs rest g h s H. revert bs s. induction H as [|t p ts ps H1 H2 IH]; intros bs s Q F R; inversion F; subst.
  - exists s. auto.
  - inversion Q as [|? ? Q1 Q2]; subst.
    cbn [length times]. unfold sbind. rewrite <- app_assoc in R.
    match goal with F : frame _ _ _ |- _ => destruct (strip_step _ _ _ _ _ _ _ _ H1 F R) as (s1 & E1 & R1) end.
    assert (E : name_line s = Ok (t, s1)).
    { unfold name_line, sbind. rewrite E1. destruct (f_kind (p_in s)); [|reflexivity].
      unfold liftR, slift. now rewrite decode_ascii. }
    rewrite E.
    match goal with F : frames _ _ _ |- _ => destruct (IH _ _ Q2 F R1) as (s2 & E2 & R2) end. rewrite E2.
    exists s2. auto.
Qed.
