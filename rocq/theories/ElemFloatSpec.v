(** * ElemFloatSpec: how far element results at nodes may be from the exact ones. *)
From Coq Require Import Reals List ZArith String.
From Verif Require Import IeeeSpec DotSpec.
Import ListNotations.
Open Scope string_scope.
Open Scope R_scope.

(** [M] bounds the numbers of the record.  Thick shells pass through single
    precision; beams of three nodes and decomposed stresses of thin shells are
    calculated in double precision; everything else is copied. *)
Definition tolerance (eltyp : Z) (restype : string) (M : R) : R :=
  if ((eltyp =? 26) || (eltyp =? 28))%Z%bool then 37 * (powerRZ 2 (-24) * M + powerRZ 2 (-149))
  else if ((eltyp =? 23)%Z || String.eqb restype "decomposedstress")%bool then 18 * (powerRZ 2 (-53) * M + powerRZ 2 (-1074))
  else 0.
Definition agree (e : R) (exact computed : list R) : Prop := Forall2 (fun x y => Rabs (y - x) <= e) exact computed.
(** Roundings to single and double; that of operations between a double precision
    number and an array of single precision, which depends on the version of NumPy;
    and sums of products in double precision, in whatever order they are taken. *)
Definition numpy (rs rd ra : R -> R) (dot : nat -> nat -> nat -> list R -> list R -> R) : Prop :=
  rounds single rs /\ rounds double rd /\ (ra = rs \/ ra = rd) /\ forall site i j v w, computes rd (combine v w) (dot site i j v w).
