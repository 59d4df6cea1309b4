(** * Element types of earlier files: C20, for every reference record. *)
From Verif Require Import Base Flt SeqFile H5 Schema Parsers SeqSpec StoreSpec ParserSpec LayoutSpec FileSpec Sample2 Sample ParseMore.
Open Scope string_scope.
Open Scope Z_scope.
Open Scope list_scope.
Open Scope monad_scope.

(** A GELREF1 record whose element is not in the file being read (no GELMNT1 before
    it).  Read after files that have an element of that number, whatever they are, it
    is stored; the same record after files without one raises KeyError. *)
Theorem C20_element_refuted : forall name rec i h g0 g1 elno out s,
  int_at rec 0 = Ok elno -> b_gelref1 name rec (mkP i (reset true g1) h) = Ok (out, s) -> dget Z.eqb elno (g_elem g0) = None ->
  b_gelref1 name rec (mkP i (reset true g0) h) = Err KeyError.
Proof.
  intros name rec i h g0 g1 elno out s HE E N. unfold b_gelref1, liftF, liftR, slift, getg, sbind, sret, sraise in *. cbn [p_in] in *.
  destruct (read_floatrec 8 i) as [[r2 i2]|]; [|discriminate]. cbn [p_in] in *.
  destruct (read_floatrec 8 i2) as [[r3 i3]|]; [|discriminate]. rewrite HE in *. cbn [p_g reset g_elem]. unfold dictZ. now rewrite N.
Qed.
Print Assumptions C20_element_refuted.

(** Element 5, a beam with two nodes in an earlier file; two sections for it. *)
Definition h_in := open_in Fmt (dlines [0; 0; 0; 0; -1; 0; 0; 0; 1; 2; 0; 0]).
Example C20_element_case : exists s, int_at (fl [5; 1; 0; 0]) 0 = Ok 5 /\
  b_gelref1 "GELREF1" (fl [5; 1; 0; 0]) (mkP h_in (reset true (add_elem 5 15 glob0)) []) =
    Ok ((map PF (fl [5; 1; 0; 0; 0; 0; 0; 0; -1; 0; 0; 0]), [(0%nat, map PF (fl [1; 2])); (1%nat, []); (2%nat, []); (3%nat, [])]), s) /\
  dget Z.eqb 5 (g_elem glob0) = None.
Proof. eexists. split; [vm_compute; reflexivity|]. split; vm_compute; reflexivity. Qed.
