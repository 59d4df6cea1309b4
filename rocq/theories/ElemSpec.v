(** * ElemSpec: where result points and nodes lie, and what the fields are.

    The numbers are those of any field [F] with a square root [s3] of three.
    Nothing here refers to the matrices of the code. *)
From Coq Require Import List ZArith.
From Verif Require Import Base Nd.
Import ListNotations.
Open Scope list_scope.

Section Places.
  Context {F : Type}.
  Variables (zero one : F) (add mul sub : F -> F -> F) (opp : F -> F) (div : F -> F -> F) (s3 : F).
  Notation "x + y" := (add x y).
  Notation "x * y" := (mul x y).
  Notation "x - y" := (sub x y).
  Notation "x / y" := (div x y).
  Notation "- x" := (opp x).
  Notation "0" := zero.
  Notation "1" := one.
  Definition int2 : F := 1 + 1.
  Definition int3 : F := 1 + 1 + 1.
  Definition int6 : F := int2 * int3.
  (** The integration points lie at minus and plus one over the root of three. *)
  Definition gauss : F := 1 / s3.

  (** Places in an element: in the plane [xi], [eta] from -1 to 1 for
      quadrilaterals, three area coordinates for triangles; [zeta] from -1 (lower
      surface) to 1 (upper) through the thickness. *)
  Definition quad_points : list (F * F) := [(- gauss, - gauss); (gauss, - gauss); (- gauss, gauss); (gauss, gauss)].
  Definition quad_nodes : list (F * F) :=
    [(- (1), - (1)); (0, - (1)); (1, - (1)); (1, 0); (1, 1); (0, 1); (- (1), 1); (- (1), 0)].
  Definition tri_points : list (F * F * F) :=
    [(int2 / int3, 1 / int6, 1 / int6); (1 / int6, int2 / int3, 1 / int6); (1 / int6, 1 / int6, int2 / int3)].
  Definition tri_nodes : list (F * F * F) :=
    [(1, 0, 0); (1 / int2, 1 / int2, 0); (0, 1, 0); (0, 1 / int2, 1 / int2); (0, 0, 1); (1 / int2, 0, 1 / int2)].
  Definition beam_points : list F := [- gauss; gauss].
  Definition beam_nodes : list F := [- (1); 0; 1].

  (** Linear through the thickness and bilinear, linear in the plane; linear
      along a beam. *)
  Definition bilinear (f : F * F -> F) : Prop := exists a b c d, forall x y, f (x, y) = a + b * x + c * y + d * (x * y).
  Definition linear3 (f : F * F * F -> F) : Prop := exists a b c, forall x y z, f (x, y, z) = a * x + b * y + c * z.
  Definition linear1 (f : F -> F) : Prop := exists a b, forall x, f x = a + b * x.
  Definition through {P} (lin : (P -> F) -> Prop) (f : P -> F -> F) : Prop :=
    exists m b, lin m /\ lin b /\ forall p z, f p z = m p + z * b p.

  (** The record of a thick shell: for both levels of integration points (lower,
      upper), for each point, five components. *)
  Definition thick_record {P} (points : list P) (f : nat -> P -> F -> F) : list F :=
    flat_map (fun z => flat_map (fun p => map (fun c => f c p z) (seq 0 5)) points) [- gauss; gauss].
  (** Decomposed at a place: the three stresses at mid-thickness, what is added up
      to the upper surface, and the two transverse shears of the lower integration
      point with the factor 3/2 of a parabola. *)
  Definition decomposed {P} (f : nat -> P -> F -> F) (p : P) : list F :=
    [f 0%nat p 0; f 1%nat p 0; f 2%nat p 0; f 0%nat p 1 - f 0%nat p 0; f 1%nat p 1 - f 1%nat p 0; f 2%nat p 1 - f 2%nat p 0;
     int3 / int2 * f 3%nat p (- gauss); int3 / int2 * f 4%nat p (- gauss)].
  (** The record of a thin shell with [n] corners: lower surface, then upper; for
      each the corners and the centre, three components.  [place] gives the order:
      corner number or centre. *)
  Definition thin_record (place : list (option nat)) (f : option nat -> bool -> nat -> F) : list F :=
    flat_map (fun upper => flat_map (fun p => map (fun c => f p upper c) (seq 0 3)) place) [false; true].
  Definition quad_place : list (option nat) := [Some 0; Some 1; None; Some 3; Some 2]%nat.
  Definition tri_place : list (option nat) := [Some 0; Some 1; None; Some 2]%nat.

  (** In [g] (nodes, surfaces, components) and [q] (nodes, parts): membrane minus
      bending is the lower surface, membrane plus bending the upper. *)
  Definition recombine (g q : nd F) (i c : nat) : Prop := exists m b, at_ q [i; c] = Some m /\ at_ q [i; (3 + c)%nat] = Some b /\
    at_ g [i; 0%nat; c] = Some (m - b) /\ at_ g [i; 1%nat; c] = Some (m + b).
End Places.
(** Shells: type, numbers in a record, nodes, components, parts. *)
Definition shell_sizes : list (Z * (nat * nat * nat * nat)) :=
  [(24%Z, (30, 4, 3, 6)); (25%Z, (24, 3, 3, 6)); (26%Z, (30, 6, 5, 8)); (28%Z, (40, 8, 5, 8))]%nat.
