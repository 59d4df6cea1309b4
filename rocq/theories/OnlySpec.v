(** * OnlySpec: files read with a list of record types (C19), two data sets
    compared (C10, C19, C20). *)
From Verif Require Import Base Flt SeqFile H5 Schema SeqSpec StoreSpec ParserSpec LayoutSpec FileSpec.
Open Scope string_scope.
Open Scope Z_scope.
Open Scope list_scope.

(** Name of the first record of the segments; "" at the end of the file. *)
Definition hd_name (segs : list seg) : string :=
  match segs with [] => "" | Run n _ :: _ | Pass n :: _ | Look n _ _ :: _ => n end.

(** Records that are not asked for can be told from what follows without
    knowing their type (see [rest_of_record]). *)
(* IEND with 0 as its first number: nothing behind it is read *)
Definition ends (n : string) (fs : list flt) : bool :=
  String.eqb n "IEND" && match fs with f :: _ => flt_eq f f0 | [] => false end.
Fixpoint skippable (only : list string) (k : kind) (segs : list seg) : Prop :=
  match segs with
  | [] => True
  | s :: tl =>
      match s with
      | Run n its => asked only n \/
          forall it nxt, In it its -> nxt = n \/ nxt = hd_name tl -> rest_of_record k n (i_fs it) nxt (i_bs it)
      | Look n fs rest => asked only n \/ (ends n fs = true /\ at_end k rest) \/
          (ends n fs = false /\ forall nxt, nxt = n \/ nxt = hd_name tl -> rest_of_record k n fs nxt [])
      | Pass _ => True
      end /\ skippable only k tl
  end.

(** Record types that cannot be read without others. *)
Definition needs : list (string * string) :=
  [("GELREF1", "GELMNT1"); ("RDIELCOR", "RDPOINTS");
   ("RVNODACC", "RDRESREF"); ("RVNODDIS", "RDRESREF"); ("RVNODVEL", "RDRESREF");
   ("RVFORCES", "RDRESREF"); ("RVSTRAIN", "RDRESREF"); ("RVSTRESS", "RDRESREF");
   ("RVFORCES", "RDPOINTS"); ("RVSTRAIN", "RDPOINTS"); ("RVSTRESS", "RDPOINTS");
   ("RVFORCES", "RDFORCES"); ("RVSTRAIN", "RDSTRAIN"); ("RVSTRESS", "RDSTRESS")].
Definition self_contained (only : list string) (segs : list seg) : Prop :=
  asked only "IDENT" /\ (items_of "HIERARCH" segs = [] \/ asked only "HIERARCH") /\
  forall a b, In (a, b) needs -> asked only a -> asked only b.

(** The same tables and arrays for record type [n] in both stores. *)
Definition same_data (h1 h2 : h5) (w : path) (n : string) : Prop :=
  forall p, In p (own w n) -> h5_find p h1 = h5_find p h2.
Definition no_data (h : h5) (w : path) (n : string) : Prop := forall p, In p (own w n) -> h5_find p h = None.
