(** * ThickSpec: eigenvalues known up to an error. *)
From Coq Require Import Reals List Permutation.
From Verif Require Import CalcSpec.
Import ListNotations.
Open Scope list_scope.
Open Scope R_scope.

(** [l]: the numbers [a], [b], [c] in some order, each with an error of at most
    [eps]. *)
Definition nearly (eps a b c : R) (l : list R) : Prop :=
  exists m, Permutation [a; b; c] m /\ Forall2 (fun x y => Rabs (y - x) <= eps) m l.
(** [p1], [p2] are the two of the three of largest absolute value, larger first, and
    the third is smaller by more than [d]. *)
Definition two_clear (d a b c p1 p2 : R) : Prop :=
  exists q, Permutation [a; b; c] [p1; p2; q] /\ Rabs q + d < Rabs p1 /\ Rabs q + d < Rabs p2 /\ p2 <= p1.
(** A point of an array for stresses of thick shells, and its eigenvalues. *)
Definition point_eigen (p : list R) (a b c : R) : Prop :=
  exists sxx syy txy txz tyz more, p = sxx :: syy :: txy :: txz :: tyz :: more /\ eigenvalues3 sxx syy 0 txy txz tyz a b c.
