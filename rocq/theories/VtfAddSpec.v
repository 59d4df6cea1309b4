(** * VtfAddSpec: what adding elements to a VTF model must do *)
From Coq Require Import Sorted.
From Verif Require Import Base Vtf.
Open Scope string_scope.
Open Scope Z_scope.
Open Scope list_scope.

(** The types of elements: their numbers in SESAM and their names in VTF files. *)
Definition type_names : list (Z * string) :=
  [(15, "%BEAMS"); (23, "%BEAMS_3"); (24, "%QUADS"); (25, "%TRIANGLES"); (26, "%TRIANGLES_6"); (28, "%QUADS_8")].

(** An element: its SESAM type, the positions of its nodes, its number. *)
Record element : Set := mkElement { el_type : Z; el_nodes : list Z; el_number : Z }.

(** Elements laid out one after the other: where each one ends. *)
Fixpoint ends (o : Z) (es : list element) : list Z :=
  match es with
  | [] => []
  | e :: r => (o + Zlen (el_nodes e)) :: ends (o + Zlen (el_nodes e)) r
  end.
Definition connectivity (es : list element) : list Z := concat (map el_nodes es).

(** The number of the node in position [p]. *)
Definition node_number (ns : nodes) (p n : Z) : Prop :=
  match n_ids ns with
  | Some ids => 0 <= p /\ nth_error ids (Z.to_nat p) = Some n
  | None => n = p + 1
  end.
Definition has_node (ns : nodes) (p : Z) : Prop := match n_ids ns with Some ids => 0 <= p < Zlen ids | None => True end.
(** The node at place [j] of the VTF element is that at place [vtf_place s j] of the
    SESAM element: in an eight-node quadrilateral the corners come first (SESAM goes
    around), then the middles of the sides. *)
Definition vtf_place (s : string) (n j : nat) : nat :=
  if String.eqb s "%QUADS_8" && Nat.eqb n 8 then if Nat.ltb j 4 then 2 * j else 2 * (j - 4) + 1 else j.
Definition vtf_row (ns : nodes) (s : string) (e : element) (r : list Z) : Prop :=
  length r = length (el_nodes e) /\
  forall j n, nth_error r j = Some n -> exists p, nth_error (el_nodes e) (vtf_place s (length r) j) = Some p /\ node_number ns p n.

(** The elements of a type, in the order given. *)
Definition of_type (t : Z) (es : list element) : list element := filter (fun e => el_type e =? t) es.
(** One entry for each type that occurs, in the order of the SESAM types. *)
Definition grouped {A} (es : list element) (R : string -> list element -> A -> Prop) (d : list (string * A)) : Prop :=
  exists types, StronglySorted Z.lt types /\ (forall t, In t types <-> exists e, In e es /\ el_type e = t) /\
    Forall2 (fun t p => In (t, fst p) type_names /\ R (fst p) (of_type t es) (snd p)) types d.

(** [d'] is the dictionary [d] with [x] under the key [k]: in the place of the entry
    of that key, else at the end. *)
Inductive put {K V} (k : K) (x : V) : list (K * V) -> list (K * V) -> Prop :=
| put_new d : ~ In k (map fst d) -> put k x d (d ++ [(k, x)])
| put_old a y b : ~ In k (map fst a) -> put k x (a ++ (k, y) :: b) (a ++ (k, x) :: b).
