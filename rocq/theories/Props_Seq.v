(** * Properties of the sequential files: C01-C04, C06, C07 *)
From Verif Require Import Base Flt SeqFile SeqSpec ListFacts SeqProofs FltProofs SeqTerm NumProofs SeqMore.
Open Scope string_scope.
Open Scope Z_scope.
Open Scope list_scope.

(** C01.  A file made of the byte [first] and framed payloads: reading
    physical records returns the payloads in order, then raises. *)
Theorem C01_framing : forall ps bs first,
  frames Unf ps bs ->
  exists s', read_stringrecs (length ps) (open_in Unf (first :: bs)) = Ok (ps, s')
    /\ read_stringrec s' = Err StructError.
Proof. exact framing. Qed.
Print Assumptions C01_framing.
(** Every sequence of payloads of at most 128 bytes can be framed. *)
Theorem C01_all_payloads : forall ps,
  Forall (fun p => (length p <= 128)%nat) ps -> exists bs, frames Unf ps bs.
Proof. exact all_frames. Qed.
Print Assumptions C01_all_payloads.
(** Formatted counterpart: lines, with LF or CRLF line ends. *)
Theorem C01_lines : forall ps bs,
  text_lines ps bs ->
  exists s', read_stringrecs (length ps) (open_in Fmt bs) = Ok (ps, s') /\ f_rest s' = [].
Proof. exact framing_lines. Qed.
Print Assumptions C01_lines.
Example C01_case : exists bs, frames Unf [[]; repeat "K"%char 128; s2l "GCOORD  "] bs.
Proof. apply C01_all_payloads. repeat constructor; cbn; lia. Qed.

(** C02.  The numbers of a record are the IEEE singles its bytes encode. *)
Theorem C02_decode : forall groups vs bs tail h fr,
  Forall2 single_bytes groups vs -> frame Unf (concat groups) bs ->
  read_floatrec 0 (mkIn Unf (bs ++ tail) h fr) = Ok (vs, mkIn Unf tail false fr).
Proof. exact unf_numbers. Qed.
Print Assumptions C02_decode.
(** Every 4-byte group encodes exactly one value... *)
Theorem C02_every_pattern : forall bs, length bs = 4%nat -> exists! v, single_bytes bs v.
Proof. exact unf_decode_unique. Qed.
Print Assumptions C02_every_pattern.
(** ... and every single precision number has an encoding. *)
Theorem C02_every_single : forall v, is_single v -> exists bs, single_bytes bs v.
Proof. exact is_single_bytes. Qed.
Print Assumptions C02_every_single.
Example C02_case : single_bytes (map chr [0; 0; 192; 191]) (FFin true 3 (-1)).
Proof.
  exists (chr 0), (chr 0), (chr 192), (chr 191), true, 127, 4194304.
  repeat split; try lia; try reflexivity.
  apply single_norm; try lia; try reflexivity.
Qed.

(** C03.  On a header line and on a continuation line. *)
Theorem C03_integer_header : forall n l i fields vs nb nm bs tail h fr,
  Z.abs n < 10 ^ 9 -> e16 n l ->
  name8 nm nb -> Forall2 (enc_num Fmt) fields vs -> nth_error fields i = Some l ->
  frame Fmt (nb ++ concat fields) bs ->
  exists vs', read_headerrec (mkIn Fmt (bs ++ tail) h fr) = Ok ((nm, vs'), mkIn Fmt tail false fr)
    /\ nth_error vs' i = Some (f_of_Z n) /\ length vs' = length fields.
Proof. exact formatted_integer. Qed.
Print Assumptions C03_integer_header.
Theorem C03_integer_continuation : forall n l i fields vs bs tail h fr,
  Z.abs n < 10 ^ 9 -> e16 n l ->
  Forall2 (enc_num Fmt) fields vs -> nth_error fields i = Some l ->
  frame Fmt (blanks8 ++ concat fields) bs ->
  exists vs', read_floatrec 8 (mkIn Fmt (bs ++ tail) h fr) = Ok (vs', mkIn Fmt tail false fr)
    /\ nth_error vs' i = Some (f_of_Z n) /\ length vs' = length fields.
Proof. exact formatted_integer_cont. Qed.
Print Assumptions C03_integer_continuation.
(** Every whole number in range can be printed, and reads back as an int. *)
Theorem C03_printable : forall n, Z.abs n < 10 ^ 9 -> exists l, e16 n l.
Proof. exact e16_exists. Qed.
Print Assumptions C03_printable.
Theorem C03_int : forall n, int_of (f_of_Z n) = Ok n.
Proof. exact int_of_f_of_Z. Qed.
Print Assumptions C03_int.
Example C03_case : e16 (-120450) (s2l " -1.20450000E+05").
Proof. apply (e16_intro (-120450) 5); [lia|left; cbn; lia]. Qed.

(** C04.  Any cutting of the data into continuation records, any partition
    into calls: the calls return the parts, and the next thing on the file is
    what followed the record. *)
Theorem C04_chunking : forall k ld data bs tail fr parts,
  enc_data k ld data bs -> concat parts = data ->
  exists s', read_floats_seq (map Zlen parts) (lead_n ld) (mkIn k (bs ++ tail) false fr) = Ok (parts, s')
    /\ f_kind s' = k /\ f_rest s' = tail.
Proof. exact read_floats_chunking. Qed.
Print Assumptions C04_chunking.
(** The same when only a first part of the data is asked for. *)
Theorem C04_prefix : forall k ld data bs tail fr parts more,
  enc_data k ld data bs -> concat parts ++ more = data ->
  exists s', read_floats_seq (map Zlen parts) (lead_n ld) (mkIn k (bs ++ tail) false fr) = Ok (parts, s').
Proof. exact read_floats_prefix. Qed.
Print Assumptions C04_prefix.
Example C04_case : forall k ld, exists bs, enc_data k ld (map f_of_Z [1; 2; 3; 4; 5]) bs.
Proof. exact chunking_example. Qed.

(** C06.  Passing over a record returns the header that follows it and leaves
    the file right behind that header, for every layout. *)
Theorem C06_skip : forall k n fs next nfs rb rest tail h fr,
  rest_of_record k n fs next rb -> enc_next k next nfs rest tail ->
  exists fr', skip_restofrecord n fs (mkIn k (rb ++ rest) h fr) = Ok ((next, nfs), mkIn k tail false fr').
Proof. exact skip_restofrecord_spec. Qed.
Print Assumptions C06_skip.
(** The restriction in [rest_plain] is needed: a record without continuation
    lines followed by a record whose name is missing in the list of allowed
    names (W1MOTION here) makes the latter disappear. *)
Theorem C06_refuted :
  exists s1 s2 fs,
    read_headerrec (open_in Fmt lost_text) = Ok (("GCOORD", map f_of_Z [5; 1; 2; 3]), s1) /\
    read_headerrec s1 = Ok (("W1MOTION", map f_of_Z [20; 1; 1; 1]), s2) /\
    (exists s3, skip_restofrecord "GCOORD" (map f_of_Z [5; 1; 2; 3]) s1 = Ok (("IEND", fs), s3)).
Proof. exact lost_record. Qed.
Print Assumptions C06_refuted.

(** C07.  [count_occ] counts the names on the file.  (The dictionary also has
    the key "" for the end of the file.) *)
Theorem C07_recordcount : forall k rs bs content,
  rs <> [] -> enc_records k rs bs -> f_rest (open_in k content) = bs ->
  exists d s', get_recordcount (open_in k content) = Ok (d, s') /\
    forall n, n <> "" -> lookup_count n d = Z.of_nat (count_occ string_dec (map fst rs) n).
Proof. exact get_recordcount_open. Qed.
Print Assumptions C07_recordcount.
Example C07_case : forall k, exists bs, enc_records k small_records bs.
Proof. exact small_file. Qed.
