(** * Props_VtfTerm: reading a VTF file always finishes (C86) *)
From Verif Require Import Base Flt SeqTerm Vtf VtfTerm VtfSample.
Open Scope string_scope.
Open Scope Z_scope.
Open Scope list_scope.

(** ** C86: reading a VTF file always finishes *)

(** The loops over the lines are modelled with a number of turns.  Whatever the
    text, the turns do not run out: reading returns a model or raises. *)
Theorem C86_finishes : forall two t v, vtf_read two t v <> Err OutOfFuel.
Proof. exact vtf_read_nof. Qed.
Print Assumptions C86_finishes.

(** At any place in a file, one turn more than there are lines left is enough for
    each loop, the outer one and those within the blocks. *)
Theorem C86_turns : forall n loc line ls v, (length ls < n)%nat -> read_blocks n loc line ls v <> Err OutOfFuel.
Proof. exact blocks_ok. Qed.
Print Assumptions C86_turns.

(** With more turns allowed the outcome is the same: it is that of loops without a
    number of turns. *)
Theorem C86_same : forall n m loc line ls v, (length ls < n)%nat -> (length ls < m)%nat -> read_blocks n loc line ls v = read_blocks m loc line ls v.
Proof. exact blocks_eq. Qed.
Print Assumptions C86_same.

(** Cases: no line at all, a file broken off within a block, a block name with no
    number, a number that is none, and blocks that are never filled. *)
Definition ended (r : Res vtf) : option exn := match r with Ok _ => None | Err e => Some e end.
Definition nl : string := String (Ascii.ascii_of_nat 10) "".
Example C86_case : forall v, vtf_init true [] [] [] = Ok v ->
  ended (vtf_read true [] v) = Some StopIteration /\
  ended (vtf_read true (s2l ("*VTF-1.00" ++ nl ++ "*NODES 1" ++ nl ++ "%NO_ID" ++ nl)) v) = None /\
  ended (vtf_read true (s2l ("*NODES 1" ++ nl ++ "1 2 x" ++ nl)) v) = Some ValueError /\
  ended (vtf_read true (s2l ("*NODES" ++ nl ++ "1 2 3" ++ nl)) v) = Some ValueError /\
  ended (vtf_read true (s2l ("*NODES 1" ++ nl ++ "*NODES 1" ++ nl ++ "*NODES 1" ++ nl ++ "*ELEMENTS 2" ++ nl ++ "*RESULTS 7" ++ nl)) v) = None.
Proof. intros v E. vm_compute in E. injection E as <-. vm_compute. repeat split; reflexivity. Qed.
