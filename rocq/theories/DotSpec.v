(** * DotSpec: sums of products in floating-point arithmetic, in any order. *)
From Coq Require Import Reals List Permutation.
From Verif Require Import IeeeSpec.
Import ListNotations.
Open Scope R_scope.

(** What a library may return for the sum of the products of the pairs: products
    and sums are rounded, or a product and the sum to which it is added together. *)
Inductive computes (rnd : R -> R) : list (R * R) -> R -> Prop :=
| c_none : computes rnd [] 0
| c_product a b : computes rnd [(a, b)] (rnd (a * b))
| c_sum l1 l2 v1 v2 : computes rnd l1 v1 -> computes rnd l2 v2 -> computes rnd (l1 ++ l2) (rnd (v1 + v2))
| c_fused a b l v : computes rnd l v -> computes rnd ((a, b) :: l) (rnd (a * b + v))
| c_order l1 l2 v : Permutation l1 l2 -> computes rnd l1 v -> computes rnd l2 v.
