(** * Properties of the writer of formatted files: C50 *)
From Verif Require Import Base Flt SeqFile SeqSpec Write WriteSpec WriteNum WriteProofs.
Open Scope string_scope.
Open Scope Z_scope.
Open Scope list_scope.
Open Scope monad_scope.

(** C50.  No record can be written at all: write_record raises whatever the
    record and the state. *)
Theorem C50_refuted : forall name rec s, write_record no_write name rec s = Err AttributeError.
Proof. exact write_fails. Qed.
Print Assumptions C50_refuted.

(** If the class had the method it calls ([self.write] being self.f.write), all else
    is as it should be but for the last line: every sequence of records, their last
    line ended, is read with the names and numbers written.  Missing: the class has no
    such method, and does not end the last line (below). *)
Theorem C50_repaired_partial : forall rs, Forall good_record rs ->
  exists s back s', write_records (Some fwrite) rs open_out = Ok (tt, s) /\ Forall2 same_record rs back /\
    read_records (map (fun r => Zlen (snd r)) rs) (open_in Fmt (o_text s ++ if o_places s =? 0 then [] else [nl])) = Ok (back, s') /\
    f_rest s' = [].
Proof. exact file_read. Qed.
Print Assumptions C50_repaired_partial.
(** A record may be given in parts: its first numbers, then more. *)
Theorem C50_parts_partial : forall n a b s,
  (do _ <- write_record (Some fwrite) n a; write_floats (Some fwrite) b) s = write_record (Some fwrite) n (a ++ b) s.
Proof. exact record_parts. Qed.
Print Assumptions C50_parts_partial.
(** Every finite number of double precision takes sixteen columns, which read as nearly
    the same number. *)
Theorem C50_number : forall v, is_double v -> exists w, enc_num Fmt (format_e8 v) w /\ same_number v w.
Proof. exact format_again. Qed.
Print Assumptions C50_number.

(** Two records, of five and of two numbers: the first with a third and the largest
    number of double precision. *)
Definition two_records : list (string * list flt) :=
  [("GCOORD", [f_of_Z 5; FFin false 6004799503160661 (-54); f_of_Z (-20); FFin true 9007199254740991 971; f_of_Z 123456789]);
   ("IEND", [f_of_Z 0; f_of_Z 7])].
Example C50_case : Forall good_record two_records.
Proof.
  repeat match goal with
  | |- Forall good_record _ => constructor
  | |- good_record _ => split; cbn [fst snd]
  | |- good_name _ => split; [discriminate|split; [|cbn; lia]]
  | |- Forall graphic _ => apply Forall_forall; cbn; intros c H; unfold graphic; repeat destruct H as [<-|H]; try contradiction; vm_compute; split; discriminate
  | |- Forall is_double _ => constructor
  | |- is_double _ => first [exact Logic.I|vm_compute; repeat split; try discriminate; reflexivity]
  end.
Qed.
Example C50_text : (do _ <- write_records (Some fwrite) two_records; (fun s => Ok (l2s (o_text s), s))) open_out
  = Ok (String.concat (String nl "")
     ["GCOORD    5.00000000e+00  3.33333333e-01 -2.00000000e+01-1.79769313e+308";
      "          1.23456789e+08";
      "IEND      0.00000000e+00  7.00000000e+00"], mkOut (s2l (String.concat (String nl "")
     ["GCOORD    5.00000000e+00  3.33333333e-01 -2.00000000e+01-1.79769313e+308";
      "          1.23456789e+08";
      "IEND      0.00000000e+00  7.00000000e+00"])) 2).
Proof. vm_compute. reflexivity. Qed.

(** The end of the last line is needed: as the class leaves the file, reading drops the
    last digit, of 3.00000000e+10 here. *)
Theorem C50_last_line_refuted : exists s s', write_records (Some fwrite) [("GNODE", [f_of_Z 3; f_of_Z 30000000000])] open_out = Ok (tt, s) /\
  read_records [2] (open_in Fmt (o_text s)) = Ok ([("GNODE", [f_of_Z 3; f_of_Z 30])], s').
Proof. eexists. eexists. split; vm_compute; reflexivity. Qed.
Print Assumptions C50_last_line_refuted.
(** write_string ends an open line but does not note it: the next record ends it once
    more, and the reader takes the empty line for the end of the file. *)
Theorem C50_string_refuted : exists s s1 s2 s3,
  (do _ <- write_record (Some fwrite) (s2l "GNODE") [f_of_Z 3; f_of_Z 7]; do _ <- write_string (s2l "Text") 8;
   write_record (Some fwrite) (s2l "GCOORD") (map f_of_Z [7; 1; 2; 3])) open_out = Ok (tt, s) /\
  read_headerrec (open_in Fmt (o_text s)) = Ok (("GNODE", map f_of_Z [3; 7]), s1) /\
  read_stringrec s1 = Ok (s2l "        Text", s2) /\
  read_headerrec s2 = Ok (("", []), s3) /\ f_rest s3 <> [].
Proof.
  eexists. eexists. eexists. eexists. split; [vm_compute; reflexivity|]. split; [vm_compute; reflexivity|].
  split; [vm_compute; reflexivity|]. split; [vm_compute; reflexivity|]. vm_compute. discriminate.
Qed.
Print Assumptions C50_string_refuted.
