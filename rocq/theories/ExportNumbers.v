(** * ExportNumbers: the coordinates and node results of a file are numbers as they
    come from decoding, so that they are stored as singles. *)
From Verif Require Import Base Flt NumeralMore SeqFile H5 Schema SeqSpec SeqProofs StoreSpec ParserSpec LayoutSpec RecordSpec FileSpec.
From Verif Require Import StrucSpec StrucRes SaysSpec Vtu VtuSpec Export ExportSpec ExportItems.
Open Scope string_scope.
Open Scope Z_scope.
Open Scope list_scope.

Definition num_ok (v : pyval) : Prop := match v with PF f => canonical f | _ => True end.
Definition entry_ok (e : entry) : Prop := Forall num_ok (e_row e) /\ Forall (Forall num_ok) (e_data e).
(** The record types concerned. *)
Definition drawn_types : list string := ["GCOORD"; "RVNODDIS"; "RVNODVEL"; "RVNODACC"].
Definition numbers_ok (segs : list seg) : Prop := forall n e, In n drawn_types -> In e (entries_of n segs) -> entry_ok e.

Lemma enc_num_canonical k b v : enc_num k b v -> canonical v.
Proof. intros [bs w H|l w _ (s & m & x & _ & H)]; [exact (single_canonical _ _ H)|exact (rounded_canonical _ _ _ _ _ _ H)]. Qed.
Lemma enc_nums_canonical k fs b : enc_nums k fs b -> Forall canonical fs.
Proof. induction 1; constructor; eauto using enc_num_canonical. Qed.
Lemma enc_header_canonical k n fs b : enc_header k n fs b -> Forall canonical fs.
Proof. intros [? ? ? ? ? _ H _]. exact (enc_nums_canonical _ _ _ H). Qed.
Lemma enc_next_canonical k n fs b t : enc_next k n fs b t -> Forall canonical fs.
Proof. intros [? ? ? ? H|]; [exact (enc_header_canonical _ _ _ _ H)|constructor]. Qed.
Lemma enc_conts_canonical k ld cs b : enc_conts k ld cs b -> Forall canonical (concat cs).
Proof. induction 1 as [|c cs b bs [? ? ? H _] _ IH]; cbn [concat]; [constructor|]. apply Forall_app. split; [exact (enc_nums_canonical _ _ _ H)|exact IH]. Qed.
Lemma enc_data_canonical k ld data b : enc_data k ld data b -> Forall canonical data.
Proof. intros (pad & cs & (_ & E & _) & H). apply enc_conts_canonical in H. rewrite E in H. now apply Forall_app in H as [H _]. Qed.
Lemma nums_ok fs : Forall canonical fs -> Forall num_ok (nums fs).
Proof. intro H. unfold nums. now apply Forall_map. Qed.

Lemma layout_numbers kinds k c n it bs c' : In n drawn_types -> layout kinds k c n it bs c' -> Forall canonical (i_fs it) -> entry_ok (i_entry it).
Proof.
  intros HN HL. destruct HL;
  try (exfalso; cbn in HN; repeat (destruct HN as [HN|HN]; [try discriminate; subst; cbn in *; intuition discriminate|]); exact HN);
  cbn [i_fs i_entry]; intro HF; split; cbn [e_row e_data].
  - apply nums_ok. match goal with H : enc_data _ _ _ _ |- _ => apply enc_data_canonical in H end.
    apply Forall_forall. intros x Hx. assert (In x (fs ++ more ++ repeat f0 nc)) as HI by (rewrite <- (firstn_skipn nc); apply in_or_app; now left).
    rewrite Forall_forall in *. apply in_app_or in HI as [HI|HI]; [now apply HF|]. apply in_app_or in HI as [HI|HI]; [auto|]. apply repeat_spec in HI. subst x. exact I.
  - constructor.
  - match goal with H : enc_data _ _ _ _ |- _ => apply enc_data_canonical in H; inversion H end. subst. apply nums_ok. inversion HF as [|? ? ? HF1]; subst. inversion HF1 as [|? ? ? HF2]; subst. inversion HF2 as [|? ? ? HF3]; subst. inversion HF3; subst.
    repeat (constructor; [assumption|]). constructor.
  - match goal with H : enc_data _ _ _ _ |- _ => apply enc_data_canonical in H; inversion H end. subst. constructor; [now apply nums_ok|constructor].
Qed.
Lemma run_numbers kinds k n c it its c' m mfs bs tail : In n drawn_types -> enc_run (layout kinds) k n c it its c' m mfs bs tail ->
  Forall canonical (i_fs it) -> Forall entry_ok (map i_entry (it :: its)) /\ Forall canonical mfs.
Proof.
  intros HN H. induction H as [c it c' n' fs bs tail HL HX _|c it c1 it2 its c' n' fs hb bs tail HL HH HR IH]; intro HF.
  - split; [constructor; [exact (layout_numbers _ _ _ _ _ _ _ HN HL HF)|constructor]|exact (enc_next_canonical _ _ _ _ _ HX)].
  - destruct (IH (enc_header_canonical _ _ _ _ HH)) as [A B]. split; [|exact B]. constructor; [exact (layout_numbers _ _ _ _ _ _ _ HN HL HF)|exact A].
Qed.
Lemma run_next L k n c it its c' m mfs bs tail : enc_run L k n c it its c' m mfs bs tail -> Forall canonical mfs.
Proof. induction 1; [eapply enc_next_canonical; eassumption|assumption]. Qed.
Lemma pass_next k n fs bs m mfs tail : enc_pass k n fs bs m mfs tail -> Forall canonical mfs.
Proof. induction 1; [eapply enc_next_canonical; eassumption|assumption]. Qed.
Lemma numbers_cons s segs : (forall n its, s = Run n its -> In n drawn_types -> Forall entry_ok (map i_entry its)) -> numbers_ok segs -> numbers_ok (s :: segs).
Proof.
  intros HS H n e Hn He. unfold entries_of, items_of in He. cbn [flat_map] in He. rewrite map_app in He. apply in_app_or in He as [He|He]; [|now apply (H n)].
  destruct s as [m its| |]; try (destruct He). destruct (String.eqb_spec m n) as [->|]; [|destruct He]. specialize (HS n its eq_refl Hn). rewrite Forall_forall in HS. auto.
Qed.
Lemma reads_numbers only k id sub st segs n fs bs st' : reads only k id sub st segs n fs bs st' -> Forall canonical fs -> numbers_ok segs.
Proof.
  induction 1; intro HF.
  all: try (intros nn ee _ HH; exact (False_ind _ HH)).
  all: try (apply numbers_cons; [intros ? ? E1 _; discriminate|intros nn ee _ HH; exact (False_ind _ HH)]).
  all: try (apply numbers_cons; [|now apply IHreads; eauto using enc_next_canonical, run_next, pass_next]).
  all: try (intros ? ? E1 _; discriminate).
  all: intros nn ii EE HN; injection EE as <- <-.
  - match goal with HR : enc_run _ _ _ _ _ _ _ _ _ _ _ |- _ => apply (run_numbers _ _ _ _ _ _ _ _ _ _ _ HN HR) end.
    match goal with HI : i_fs it = _ |- _ => now rewrite HI end.
  - exfalso. match goal with HT : In _ tran_types |- _ => cbn in HT, HN end. intuition (subst; discriminate).
  - exfalso. cbn in HN. intuition discriminate.
  - exfalso. cbn in HN. intuition discriminate.
Qed.
Theorem file_numbers only k id sub bs segs : file_of only k id sub bs segs -> numbers_ok segs.
Proof. intros (n & fs & tail & st' & HX & HR). exact (reads_numbers _ _ _ _ _ _ _ _ _ _ HR (enc_next_canonical _ _ _ _ _ HX)). Qed.

(** Coordinates and results as singles. *)
Lemma entry_in (A : Type) segs n says (xs : list A) j x : listed n segs says xs -> nth_error xs j = Some x ->
  exists e, In e (entries_of n segs) /\ says j e x.
Proof.
  intros (_ & HL & H) HX. destruct (nth_error (entries_of n segs) j) as [e|] eqn:E.
  - exists e. split; [eapply nth_error_In; eassumption|now apply (H j)].
  - exfalso. apply nth_error_None in E. assert (nth_error xs j <> None) as Q by congruence. apply nth_error_Some in Q. lia.
Qed.
Lemma real_single e i c : entry_ok e -> real_at e i c -> exists v, single_cell c v.
Proof.
  intros [HR _] (f & HN & ->). exists (round32 f). split; [reflexivity|]. apply round32_in. rewrite Forall_forall in HR. exact (HR _ (nth_error_In _ _ HN)).
Qed.
Lemma coord_single segs ns j n : numbers_ok segs -> listed "GCOORD" segs coord_says ns -> nth_error ns j = Some n ->
  exists vs, Forall2 single_cell (n_xyz n) vs /\ length vs = 3%nat.
Proof.
  intros HK HL HN. destruct (entry_in _ _ _ _ _ _ _ HL HN) as (e & HI & _ & x & y & z & R1 & R2 & R3 & ->).
  pose proof (HK "GCOORD" e (or_introl eq_refl) HI) as OK.
  destruct (real_single _ _ _ OK R1) as (a & Ha). destruct (real_single _ _ _ OK R2) as (b & Hb). destruct (real_single _ _ _ OK R3) as (d & Hd).
  exists [a; b; d]. split; [repeat (constructor; [assumption|]); constructor|reflexivity].
Qed.
Lemma reals_single fs : Forall canonical fs -> exists vs, Forall2 single_cell (reals_ fs) vs.
Proof.
  induction 1 as [|f fs H _ (vs & IH)]; [exists []; constructor|]. exists (round32 f :: vs). unfold reals_ in *. cbn [map]. constructor; [|exact IH].
  split; [reflexivity|now apply round32_in].
Qed.
Lemma flat_in (bs : list block) i l j v : In (i, l) bs -> nth_error l j = Some v -> In (i, j, v) (flat bs).
Proof.
  intros HB HN. unfold flat. apply in_flat_map. exists (i, l). split; [exact HB|]. cbn [fst snd]. apply in_map_iff. exists (j, v). split; [reflexivity|].
  assert (HL : (j < length l)%nat) by (apply nth_error_Some; congruence).
  apply (nth_error_In _ j). rewrite (nth_error_nth' _ (0%nat, v)) by (rewrite combine_length, seq_length; lia). rewrite combine_nth by apply seq_length.
  rewrite seq_nth by exact HL. f_equal. f_equal. now apply nth_error_nth.
Qed.
Lemma value_single segs rn nn bs i j v : numbers_ok segs -> In rn ["RVNODDIS"; "RVNODVEL"; "RVNODACC"] -> noderes_on segs rn nn bs -> value_at bs i j v ->
  exists vs, Forall2 single_cell v vs.
Proof.
  intros HK HR (_ & HL) (l & HB & HN). pose proof (flat_in _ _ _ _ _ HB HN) as HI. destruct (In_nth_error _ _ HI) as (p & HP).
  destruct (entry_in _ _ _ _ _ _ _ HL HP) as (e & HE & _ & _ & (fs & ED & EV)). cbn [snd] in EV. rewrite EV. apply reals_single.
  destruct (HK rn e (or_intror HR) HE) as [_ OK]. rewrite ED in OK. inversion OK as [|? ? OK1 _]; subst. clear - OK1. unfold nums in OK1. rewrite Forall_map in OK1. exact OK1.
Qed.
