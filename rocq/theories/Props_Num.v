(** * Properties of numbers: C54, and the single precision of C08

    [reads], [numeral] and [fields16] are in NumeralSpec, [rounded64] and
    [rounded32] in RoundSpec: the nearest number of the format, the even one of
    two that are as near, infinite beyond the largest. *)
From Verif Require Import Base Flt FltProofs RoundSpec RoundProofs SeqFile H5 SeqSpec StoreSpec ListFacts SeqProofs NumeralSpec NumeralProofs NumeralMore.
From Coq Require Import ZifyBool ZifyNat.
Open Scope string_scope.
Open Scope Z_scope.
Open Scope list_scope.

(** C54.  A field of text is read exactly if it is a numeral, and then as the
    nearest double. *)
Theorem C54_field : forall l v, parse_float l = Ok v <-> reads l v.
Proof. exact parse_float_reads. Qed.
Print Assumptions C54_field.
(** Any other text is refused. *)
Theorem C54_refused : forall l, (forall v, ~ reads l v) -> parse_float l = Err ValueError.
Proof. exact parse_float_error. Qed.
Print Assumptions C54_refused.
(** No text denotes two numbers, no number has two nearest doubles. *)
Theorem C54_one : forall l v w, reads l v -> reads l w -> v = w.
Proof. exact reads_unique. Qed.
Print Assumptions C54_one.
Theorem C54_one_nearest : forall prec emin emax x s f g,
  rounded prec emin emax x s f -> rounded prec emin emax x s g -> f = g.
Proof. exact rounded_unique. Qed.
Print Assumptions C54_one_nearest.
(** Every decimal number has one. *)
Theorem C54_some_nearest : forall s m x, 0 <= m -> exists f, rounded64 (dec_number m x) s f.
Proof. intros s m x H. eexists. exact (dec_to_flt_rounded s m x H). Qed.
Print Assumptions C54_some_nearest.
(** A line: eight columns of name, then fields of sixteen columns. *)
Theorem C54_line : forall nb ps vs tail h fr,
  length nb = 8%nat -> fields16 ps -> ~ In nl (nb ++ concat ps) ->
  ((exists s, read_floatrec 8 (mkIn Fmt ((nb ++ concat ps) ++ nl :: tail) h fr) = Ok (vs, s)) <-> Forall2 reads ps vs) /\
  ((exists n s, read_headerrec (mkIn Fmt ((nb ++ concat ps) ++ nl :: tail) h fr) = Ok ((n, vs), s)) <-> Forall2 reads ps vs).
Proof. exact line_reads. Qed.
Print Assumptions C54_line.
Theorem C54_cut : forall l, exists ps, fields16 ps /\ concat ps = l.
Proof. exact fields16_cut. Qed.
Print Assumptions C54_cut.
(** A tenth; a number between the largest double and the next power of two; half the smallest. *)
Example C54_case :
  reads (s2l "  1.00000000E-01") (FFin false 3602879701896397 (-55)) /\
  reads (s2l "-1.8E308") (FInf true) /\ reads (s2l ".2470328E-323") (FZero false) /\
  reads (s2l ".2470329E-323") (FFin false 1 (-1074)) /\ reads (s2l " +7. ") (FFin false 7 0) /\
  parse_float (s2l "1.0E") = Err ValueError /\ parse_float (s2l "  ") = Err ValueError.
Proof. repeat split; try apply parse_float_reads; vm_compute; reflexivity. Qed.

(** C08: what [stored] means for a real number.  The number read from a text
    or from four bytes is stored as the nearest single... *)
Theorem C08_single : forall v c, (exists l, reads l v) \/ (exists bs, single_bytes bs v) -> stored TF (PF v) c ->
  exists g, c = CF g /\ match v with FFin s m e => rounded32 (mkNum (Zpos m) 1 e) s g | _ => g = v end.
Proof.
  intros v c H Hc. destruct c; cbn [stored] in Hc; try contradiction. subst. eexists. split; [reflexivity|]. apply round32_rounded.
  destruct H as [(l & H)|(bs & H)]; [exact (reads_canonical _ _ H)|exact (single_canonical _ _ H)].
Qed.
Print Assumptions C08_single.
(** ... which is the number itself in an unformatted file. *)
Theorem C08_same_single : forall bs v c, single_bytes bs v -> stored TF (PF v) c -> c = CF v.
Proof. intros bs v c H Hc. destruct c; cbn [stored] in Hc; try contradiction. subst. f_equal. exact (round32_single _ _ H). Qed.
Print Assumptions C08_same_single.
Example C08_single_case : exists v, reads (s2l "  1.00000000E-01") v /\ stored TF (PF v) (CF (FFin false 13421773 (-27))).
Proof. exists (FFin false 3602879701896397 (-55)). split; [apply parse_float_reads|]; vm_compute; reflexivity. Qed.
