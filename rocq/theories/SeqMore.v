(** * SeqMore: statements closed in Props_Seq, and concrete cases. *)
From Verif Require Import Base Flt SeqFile SeqSpec ListFacts SeqProofs FltProofs SeqTerm NumProofs.
From Coq Require Import ZifyBool ZifyNat.
Open Scope string_scope.
Open Scope Z_scope.
Open Scope list_scope.

(** C01 *)
Lemma framing ps bs first :
  frames Unf ps bs ->
  exists s', read_stringrecs (length ps) (open_in Unf (first :: bs)) = Ok (ps, s')
    /\ read_stringrec s' = Err StructError.
Proof.
  intro H. destruct (read_stringrecs_frames _ _ _ false [] [] H) as (h & E & _).
  rewrite app_nil_r in E. eexists. split; [exact E|reflexivity].
Qed.
Lemma framing_lines ps bs :
  text_lines ps bs ->
  exists s', read_stringrecs (length ps) (open_in Fmt bs) = Ok (ps, s') /\ f_rest s' = [].
Proof.
  intro H. apply universal_newlines_lines in H.
  destruct (read_stringrecs_frames _ _ _ false [] [] H) as (h & E & _).
  rewrite app_nil_r in E. eexists. split; [exact E|reflexivity].
Qed.

Fixpoint all_frames (ps : list (list ascii)) : Forall (fun p => (length p <= 128)%nat) ps -> exists bs, frames Unf ps bs.
Proof.
  destruct ps as [|p ps]; intro H.
  - exists []. constructor.
  - inversion H as [|? ? H1 H2]; subst. destruct (all_frames ps H2) as [bs Hbs].
    destruct (frame_exists_unf p H1) as [b Hb]. exists (b ++ bs). now constructor.
Qed.

(** C02 *)
Lemma unf_numbers groups vs bs tail h fr :
  Forall2 single_bytes groups vs -> frame Unf (concat groups) bs ->
  read_floatrec 0 (mkIn Unf (bs ++ tail) h fr) = Ok (vs, mkIn Unf tail false fr).
Proof.
  intros H Hf. apply (read_floatrec_enc Unf Lead0). econstructor; [|exact Hf].
  clear Hf. induction H; cbn [concat]; constructor; auto. now constructor.
Qed.
Lemma unf_decode_unique bs : length bs = 4%nat -> exists! v, single_bytes bs v.
Proof.
  intro H. destruct (single_bytes_total bs H) as [v Hv]. exists v. split; [exact Hv|].
  intros w Hw. apply unpack_single in Hv, Hw. congruence.
Qed.

(** C03 *)
Lemma formatted_integer n l i fields vs nb nm bs tail h fr :
  Z.abs n < 10 ^ 9 -> e16 n l ->
  name8 nm nb -> Forall2 (enc_num Fmt) fields vs -> nth_error fields i = Some l ->
  frame Fmt (nb ++ concat fields) bs ->
  exists vs', read_headerrec (mkIn Fmt (bs ++ tail) h fr) = Ok ((nm, vs'), mkIn Fmt tail false fr)
    /\ nth_error vs' i = Some (f_of_Z n) /\ length vs' = length fields.
Proof.
  intros Hn He Hnm Hf Hi Hfr. exists vs.
  assert (Hen : enc_nums Fmt vs (concat fields)).
  { clear - Hf. induction Hf; cbn; constructor; auto. }
  repeat split.
  - apply read_headerrec_enc. econstructor; eauto.
  - clear - Hn He Hf Hi. revert i Hi. induction Hf as [|f v fs vs Hfv Hf IH]; intros i Hi.
    + destruct i; discriminate.
    + destruct i as [|i]; cbn in *; [|now apply IH].
      injection Hi as ->. f_equal.
      pose proof (e16_enc n l Hn He) as Hl.
      inversion Hfv as [|? ? _ (s & m & x & E1 & R1)]; subst.
      inversion Hl as [|? ? _ (s' & m' & x' & E1' & R2)]; subst.
      pose proof (field_parsed _ _ _ _ _ E1 R1). pose proof (field_parsed _ _ _ _ _ E1' R2). congruence.
  - symmetry. now apply Forall2_len in Hf.
Qed.
Lemma formatted_integer_cont n l i fields vs bs tail h fr :
  Z.abs n < 10 ^ 9 -> e16 n l ->
  Forall2 (enc_num Fmt) fields vs -> nth_error fields i = Some l ->
  frame Fmt (blanks8 ++ concat fields) bs ->
  exists vs', read_floatrec 8 (mkIn Fmt (bs ++ tail) h fr) = Ok (vs', mkIn Fmt tail false fr)
    /\ nth_error vs' i = Some (f_of_Z n) /\ length vs' = length fields.
Proof.
  intros Hn He Hf Hi Hfr. exists vs.
  assert (Hen : enc_nums Fmt vs (concat fields)).
  { clear - Hf. induction Hf; cbn; constructor; auto. }
  repeat split.
  - apply (read_floatrec_enc Fmt Lead8). econstructor; eauto.
  - clear - Hn He Hf Hi. revert i Hi. induction Hf as [|f v fs vs Hfv Hf IH]; intros i Hi.
    + destruct i; discriminate.
    + destruct i as [|i]; cbn in *; [|now apply IH].
      injection Hi as ->. f_equal.
      pose proof (e16_enc n l Hn He) as Hl.
      inversion Hfv as [|? ? _ (s & m & x & E1 & R1)]; subst.
      inversion Hl as [|? ? _ (s' & m' & x' & E1' & R2)]; subst.
      pose proof (field_parsed _ _ _ _ _ E1 R1). pose proof (field_parsed _ _ _ _ _ E1' R2). congruence.
  - symmetry. now apply Forall2_len in Hf.
Qed.

(** C04 *)
Lemma read_floats_chunking k ld data bs tail fr parts :
  enc_data k ld data bs -> concat parts = data ->
  exists s', read_floats_seq (map Zlen parts) (lead_n ld) (mkIn k (bs ++ tail) false fr) = Ok (parts, s')
    /\ f_kind s' = k /\ f_rest s' = tail.
Proof.
  intros H <-. destruct (reading_start _ _ _ _ tail fr H) as (pad & Hr).
  rewrite <- (app_nil_r (concat parts)) in Hr.
  destruct (read_floats_seq_reading _ _ _ _ _ _ _ Hr) as (s' & E & Hr').
  exists s'. apply reading_done in Hr'. tauto.
Qed.
Lemma read_floats_prefix k ld data bs tail fr parts more :
  enc_data k ld data bs -> concat parts ++ more = data ->
  exists s', read_floats_seq (map Zlen parts) (lead_n ld) (mkIn k (bs ++ tail) false fr) = Ok (parts, s').
Proof.
  intros H <-. destruct (reading_start _ _ _ _ tail fr H) as (pad & Hr).
  destruct (read_floats_seq_reading _ _ _ _ _ _ _ Hr) as (s' & E & Hr'). eauto.
Qed.

Lemma enc_data_exists k ld data cs pad :
  cut_of k data pad cs -> Forall (fun c => Forall (writable k) c /\ (length c <= 30)%nat) cs ->
  exists bs, enc_data k ld data bs.
Proof.
  intros H1 H2. destruct (enc_conts_exists k ld cs H2) as [b Hb]. exists b, pad, cs. auto.
Qed.

Ltac writables := cbn [map]; repeat (apply Forall_cons; [apply f_of_Z_writable; reflexivity|]); apply Forall_nil.

(** Five numbers and three fill-in numbers on two lines. *)
Example chunking_example : forall k ld, exists bs,
  enc_data k ld (map f_of_Z [1; 2; 3; 4; 5]) bs.
Proof.
  intros k ld.
  apply (enc_data_exists k ld _ [map f_of_Z [1; 2; 3; 4]; map f_of_Z [5; 0; 0; 0]] (map f_of_Z [0; 0; 0])).
  - split; [destruct k; cbn; auto|]. split; [reflexivity|]. right; cbn; lia.
  - constructor; [|constructor; [|constructor]]; (split; [writables|cbn; lia]).
Qed.

(** C06/C07: a small file, of both kinds: an unsupported record with a
    blank-led continuation line, a coordinate record, a name record with one
    text line, and the end record. *)
Definition small_records : list (string * list flt) :=
  [("BEUSLO", map f_of_Z [1; 2; 3; 4]);
   ("GCOORD", map f_of_Z [7; 10; 20; 30]);
   ("TDSETNAM", map f_of_Z [4; 1; 105; 0]);
   ("GCOORD", map f_of_Z [8; 10; 20; 31]);
   ("IEND", map f_of_Z [0; 0; 0; 0])].

Lemma graphic_dec s : forallb (fun c => (33 <=? code c) && (code c <=? 126)) (s2l s) = true ->
  Forall graphic (s2l s).
Proof.
  intro H. rewrite forallb_forall in H. apply Forall_forall. intros c Hc. apply H in Hc.
  unfold graphic. lia.
Qed.

Lemma small_header k n l : n <> "" ->
  forallb (fun c => (33 <=? code c) && (code c <=? 126)) (s2l n) = true ->
  (length (s2l n) <=? 8)%nat = true -> (length l <=? 4)%nat = true ->
  forallb (fun z => Z.abs z <? 2 ^ 24) l = true ->
  exists b, enc_header k n (map f_of_Z l) b.
Proof.
  intros H1 H2 H3 H4 H5. apply enc_header_exists; auto.
  - now apply graphic_dec.
  - now apply Nat.leb_le.
  - rewrite forallb_forall in H5. apply Forall_forall. intros v Hv. apply in_map_iff in Hv as (z & <- & Hz).
    apply H5 in Hz. apply f_of_Z_writable. lia.
  - rewrite map_length. apply Nat.leb_le in H4. lia.
Qed.

Lemma small_frame k p : Forall (fun c => graphic c \/ c = blank) p -> (length p <= 100)%nat -> exists b, frame k p b.
Proof.
  intros H Hl. destruct k.
  - apply frame_exists_unf. lia.
  - eexists. constructor. now apply graph_nonl.
Qed.

Example small_file : forall k, exists bs, enc_records k small_records bs.
Proof.
  intro k.
  destruct (small_header k "BEUSLO" [1; 2; 3; 4]) as [b1 H1]; try reflexivity; try discriminate.
  destruct (small_header k "GCOORD" [7; 10; 20; 30]) as [b2 H2]; try reflexivity; try discriminate.
  destruct (small_header k "TDSETNAM" [4; 1; 105; 0]) as [b3 H3]; try reflexivity; try discriminate.
  destruct (small_header k "GCOORD" [8; 10; 20; 31]) as [b4 H4]; try reflexivity; try discriminate.
  destruct (small_header k "IEND" [0; 0; 0; 0]) as [b5 H5]; try reflexivity; try discriminate.
  destruct (small_frame k (blanks8 ++ [])) as [c1 Hc1].
  { cbn. repeat constructor; now right. } { cbn; lia. }
  destruct (small_frame k (s2l "        DECK1")) as [c2 Hc2].
  { repeat (constructor; [first [now right | left; vm_compute; intuition discriminate]|]). constructor. } { cbn; lia. }
  assert (He : exists e, at_end k e).
  { destruct k; [exists ["130"%char]|exists []]; constructor. }
  destruct He as [e He].
  eexists. unfold small_records.
  eapply enc_records_cons; [exact H1| |].
  { eapply rest_blank with (p := blanks8 ++ []) (ps := []); try reflexivity.
    - intros q [<-|[]]. exists []. reflexivity.
    - constructor; [exact Hc1|constructor]. }
  eapply enc_records_cons; [exact H2| |].
  { apply rest_plain; try reflexivity. apply str_in_spec. destruct k; vm_compute; reflexivity. }
  eapply enc_records_cons; [exact H3| |].
  { eapply rest_td with (ma := 105) (mb := 0) (ps := [s2l "        DECK1"]); try reflexivity.
    constructor; [exact Hc2|constructor]. }
  eapply enc_records_cons; [exact H4| |].
  { apply rest_plain; try reflexivity. apply str_in_spec. destruct k; vm_compute; reflexivity. }
  eapply enc_records_cons; [exact H5| |].
  { apply rest_small with (z := 0); try reflexivity. lia. }
  constructor. exact He.
Qed.

Lemma get_recordcount_open k rs bs content :
  rs <> [] -> enc_records k rs bs -> f_rest (open_in k content) = bs ->
  exists d s', get_recordcount (open_in k content) = Ok (d, s') /\
    forall n, n <> "" -> lookup_count n d = Z.of_nat (count_occ string_dec (map fst rs) n).
Proof.
  intros Hne Hrs Hc. destruct (get_recordcount_spec k rs bs false [] Hne Hrs) as (d & s' & E & H).
  exists d, s'. split; [|exact H]. rewrite <- E. f_equal.
  destruct k; cbn in *; now rewrite Hc.
Qed.

(** Record types whose names are missing from the list of allowed names: a
    record without continuation lines followed by one of those. *)
Definition lost_text : list ascii := s2l
("GCOORD    5.00000000E+00  1.00000000E+00  2.00000000E+00  3.00000000E+00" ++ String nl
("W1MOTION  2.00000000E+01  1.00000000E+00  1.00000000E+00  1.00000000E+00" ++ String nl
("IEND      0.00000000E+00  0.00000000E+00  0.00000000E+00  0.00000000E+00" ++ String nl "")))%string.
Lemma lost_record :
  exists s1 s2 fs,
    read_headerrec (open_in Fmt lost_text) = Ok (("GCOORD", map f_of_Z [5; 1; 2; 3]), s1) /\
    read_headerrec s1 = Ok (("W1MOTION", map f_of_Z [20; 1; 1; 1]), s2) /\
    (exists s3, skip_restofrecord "GCOORD" (map f_of_Z [5; 1; 2; 3]) s1 = Ok (("IEND", fs), s3)).
Proof.
  set (st := fun (r : Res ((string * list flt) * infile)) =>
     match r with Ok (_, s) => s | Err _ => mkIn Fmt [] false [] end).
  exists (st (read_headerrec (open_in Fmt lost_text))).
  exists (st (read_headerrec (st (read_headerrec (open_in Fmt lost_text))))).
  exists (map f_of_Z [0; 0; 0; 0]).
  split; [vm_compute; reflexivity|]. split; [vm_compute; reflexivity|].
  exists (st (skip_restofrecord "GCOORD" (map f_of_Z [5; 1; 2; 3]) (st (read_headerrec (open_in Fmt lost_text))))).
  vm_compute. reflexivity.
Qed.
