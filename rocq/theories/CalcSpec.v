(** * CalcSpec: largest absolute values, eigenvalues. *)
From Coq Require Import Reals List Permutation.
From Verif Require Import Nd.
Import ListNotations.
Open Scope list_scope.
Open Scope R_scope.

(** [v] is one of [l], and none is larger in absolute value. *)
Definition abs_largest (l : list R) (v : R) : Prop := In v l /\ forall y, In y l -> Rabs y <= Rabs v.
(** The entries of [a] at indices which agree with [idx] but for axis [k]. *)
Definition on_line (a : nd R) (k : nat) (idx : list nat) (y : R) : Prop :=
  exists i, at_ a (firstn k idx ++ i :: skipn k idx) = Some y.

(** Eigenvalues of symmetric matrices: the characteristic polynomial is the
    product of its linear factors. *)
Definition eigenvalues2 (sxx syy txy a b : R) : Prop :=
  forall x, (x - sxx) * (x - syy) - txy * txy = (x - a) * (x - b).
Definition det3 (a b c d e f g h i : R) : R := a * (e * i - f * h) - b * (d * i - f * g) + c * (d * h - e * g).
Definition eigenvalues3 (sxx syy szz txy txz tyz a b c : R) : Prop :=
  forall x, det3 (x - sxx) (- txy) (- txz) (- txy) (x - syy) (- tyz) (- txz) (- tyz) (x - szz) = (x - a) * (x - b) * (x - c).
(** [p1], [p2]: two of the three of which none is smaller in absolute value than
    the third, larger first *)
Definition two_largest (p : list R) (p1 p2 : R) : Prop :=
  exists q, Permutation p [p1; p2; q] /\ Rabs q <= Rabs p1 /\ Rabs q <= Rabs p2 /\ p2 <= p1.
