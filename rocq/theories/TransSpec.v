(** * TransSpec: superelement hierarchies and their transformations. *)
From Verif Require Import Base Flt H5 Schema StoreSpec ParserSpec.
Open Scope string_scope.
Open Scope Z_scope.
Open Scope list_scope.

(** A superelement in a hierarchy: reference number, type, index, level,
    number of its transformation into the next superelement, reference number
    of that one (0 for none). *)
Record super : Set := mkSup { s_ref : Z; s_type : Z; s_index : Z; s_level : Z; s_trans : Z; s_parent : Z }.
Definition super_row (s : super) (row : list cell) : Prop := exists a b r1 r2,
  row = [CI a; CI (s_ref s); CI (s_type s); CI (s_index s); CI (s_level s); CI (s_trans s); CI (s_parent s); CI b; CI r1; CI r2].
Definition hier_in (h : h5) (w : path) (ss : list super) : Prop :=
  exists rows arr, holds h w "HIERARCH" (mkC rows [arr]) /\ Forall2 super_row ss rows.
(** Transformations: number and rows of the matrix *)
Definition trans_row (t : Z * list (list cell)) (row : list cell) : Prop := exists a,
  row = [CI a; CI (fst t); CV (map CV (snd t))].
Definition trans_in (h : h5) (w : path) (ts : list (Z * list (list cell))) : Prop :=
  exists rows, holds h w "HSUPTRAN" (mkC rows []) /\ Forall2 trans_row ts rows.

(** The one with a property *)
Definition the {A} (P : A -> Prop) (l : list A) (x : A) : Prop := In x l /\ P x /\ forall y, In y l -> P y -> y = x.
Definition parent (ss : list super) (s p : super) : Prop := the (fun x => s_ref x = s_parent s) ss p.
Definition moved {A} (num : cell -> A) (ts : list (Z * list (list cell))) (s : super) (m : list (list A)) : Prop :=
  exists t, the (fun x => fst x = s_trans s) ts t /\ m = map (map num) (snd t).

(** [ms]: the transformations from a superelement up to the superelement at
    the level, which is one of its ancestors. *)
Inductive up {A} (num : cell -> A) (ss : list super) (ts : list (Z * list (list cell))) (lev : Z) : super -> list (list (list A)) -> Prop :=
| up_last s p m : moved num ts s m -> parent ss s p -> s_level p = lev -> up num ss ts lev s [m]
| up_next s p m ms : moved num ts s m -> parent ss s p -> s_level p < lev -> s_parent p <> 0 ->
    up num ss ts lev p ms -> up num ss ts lev s (m :: ms).
(** No ancestor at that level: one below and the next above. *)
Inductive passes (ss : list super) (lev : Z) : super -> Prop :=
| pass_here s p : parent ss s p -> lev < s_level p -> passes ss lev s
| pass_next s p : parent ss s p -> s_level p < lev -> s_parent p <> 0 -> passes ss lev p -> passes ss lev s.

(** A hierarchy: numbers and (type, index) pairs are not repeated, the first
    superelement is the top; the others have a parent, at a higher level and
    not above the top; and transformations for those. *)
Definition hierarchy (ss : list super) (ts : list (Z * list (list cell))) (top : super) : Prop :=
  NoDup (map s_ref ss) /\ NoDup (map (fun s => (s_type s, s_index s)) ss) /\ NoDup (map fst ts) /\
  hd_error ss = Some top /\ s_parent top = 0 /\
  (forall s, In s ss -> s <> top -> s_parent s <> 0 /\ s_level s < s_level top /\
     (exists p, In p ss /\ s_ref p = s_parent s /\ s_level s < s_level p) /\
     exists t, In t ts /\ fst t = s_trans s).

(** Affine transformations: the last column is 0, 0, 0, 1. *)
Definition affine {A} (zero one : A) (m : list (list A)) : Prop :=
  exists a b c d e f g h i j k l, m = [[a; b; c; zero]; [d; e; f; zero]; [g; h; i; zero]; [j; k; l; one]].
(** A point moved by one *)
Definition move {A} (add mul : A -> A -> A) (p : list A) (m : list (list A)) : list A :=
  match p, m with
  | [x; y; z], [[a; b; c; _]; [d; e; f; _]; [g; h; i; _]; [j; k; l; _]] =>
      [add (add (mul x a) (mul y d)) (add (mul z g) j);
       add (add (mul x b) (mul y e)) (add (mul z h) k);
       add (add (mul x c) (mul y f)) (add (mul z i) l)]
  | _, _ => []
  end.
