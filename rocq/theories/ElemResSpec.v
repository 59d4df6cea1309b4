(** * ElemResSpec: element results of a data set, by case and element. *)
From Verif Require Import Base H5 StoreSpec ParserSpec Struc StrucSpec Nd.
Open Scope string_scope.
Open Scope Z_scope.
Open Scope list_scope.

(** Internal case number and the records of the case: element (by position) and
    numbers. *)
Definition eblock := (Z * list (nat * list cell))%type.
Definition eflat (bs : list eblock) : list (Z * (nat * list cell)) := flat_map (fun b => map (pair (fst b)) (snd b)) bs.
(** The records of a data set, in the order of the file; each refers to the
    element type of its element. *)
Definition elemres_in (h : h5) (w : path) (rn : string) (es : list melem) (bs : list eblock) : Prop :=
  exists rows arr, holds h w rn (mkC rows [arr]) /\
    Forall2 (fun x row => exists a b e r1 r2, nth_error es (fst (snd x)) = Some e /\
      row = [CI a; CI (fst x); CI (no_of (fst (snd x))); CI b; CI (el_typ e); CI r1; CI r2] /\ 0 <= r1 <= r2 /\ r2 <= Zlen arr /\
      firstn (Z.to_nat (r2 - r1)) (skipn (Z.to_nat r1) arr) = snd (snd x)) (eflat bs) rows.
(** [w]: the numbers of a record [v], pairs of which are complex numbers *)
Definition numbers (complex : Z) (v w : list cell) : Prop :=
  if complex =? 0 then w = v else exists ps, v = flat_map (fun p => [CF (fst p); CF (snd p)]) ps /\ w = map (fun p => CC (fst p) (snd p)) ps.
(** Kinds of result: record, array, elements.  Element types: numbers in a
    record, nodes, dimensions at a node. *)
Definition result_kinds : list (string * (string * string * string)) :=
  [("beamforce", ("RVFORCES", "force", "beam")); ("generalstress", ("RVSTRESS", "stress", "shell")); ("decomposedstress", ("RVSTRESS", "stress", "shell"))].
Definition elem_sizes (restype : string) : list (Z * (nat * nat * list nat)) :=
  (if String.eqb restype "beamforce" then [(15%Z, (18, 2, [6])); (23%Z, (12, 3, [6]))]
   else if String.eqb restype "generalstress" then [(24%Z, (30, 4, [2; 3])); (25%Z, (24, 3, [2; 3])); (26%Z, (30, 6, [2; 5])); (28%Z, (40, 8, [2; 5]))]
   else [(24%Z, (30, 4, [6])); (25%Z, (24, 3, [6])); (26%Z, (30, 6, [8])); (28%Z, (40, 8, [8]))])%nat.
(** The array with an axis for the cases if there are several. *)
Definition with_cases {A} (n : nat) (sh : list nat) (flat : list A) : nd A := mkNd (match n with 1%nat => sh | _ => n :: sh end) flat.
