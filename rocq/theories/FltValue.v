(** * FltValue: the real number that is a float, and what it means to be close to one. *)
From Coq Require Import Reals.
From Verif Require Import Base Flt.
Open Scope R_scope.

Definition number_of (f : flt) : Prop := match f with FZero _ | FFin _ _ _ => True | _ => False end.
Definition value (f : flt) : R :=
  match f with FFin s m e => (if s then -1 else 1) * IZR (Zpos m) * powerRZ 2 e | _ => 0 end.
