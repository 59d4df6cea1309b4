(** * DataSpec: reading a data set back.

    What the tables hold for given records, by row and range. *)
From Verif Require Import Base Flt SeqFile H5 Schema SeqSpec StoreSpec ParserSpec LayoutSpec FileSpec.
Open Scope string_scope.
Open Scope Z_scope.
Open Scope list_scope.

(** Python slice of a companion array. *)
Definition slice (r : Z * Z) (l : list cell) : list cell :=
  firstn (Z.to_nat (snd r - fst r)) (skipn (Z.to_nat (fst r)) l).
Definition range_cells (rs : list (Z * Z)) : list cell := flat_map (fun r => [CI (fst r); CI (snd r)]) rs.

(** Data of a record for its [m]-th companion array; how much of it precedes
    the [j]-th record. *)
Definition data (m : nat) (e : entry) : list pyval := nth m (e_data e) [].
Definition offset (es : list entry) (j m : nat) : Z := Zlen (flat_map (data m) (firstn j es)).
(** Ranges follow each other; without data the range is 0..0. *)
Definition range_at (es : list entry) (j m : nat) (e : entry) : Z * Z :=
  match data m e with [] => (0, 0) | d => (offset es j m, offset es j m + Zlen d) end.

(** The columns of a record itself. *)
Definition own_cells (n : string) (e : entry) (cs : list cell) : Prop :=
  length (columns n) = length (e_row e) /\
  Forall2 (fun tv c => stored (fst tv) (snd tv) c) (combine (map snd (columns n)) (e_row e)) cs.

Definition laid_out (n : string) (es : list entry) (con : content) : Prop :=
  length (c_rows con) = length es /\ length (c_arrs con) = length (elts_of n) /\
  (forall j e, nth_error es j = Some e ->
     length (e_data e) = length (elts_of n) /\
     exists cs, own_cells n e cs /\
       nth_error (c_rows con) j = Some (cs ++ range_cells (map (fun m => range_at es j m e) (seq 0 (length (elts_of n)))))) /\
  (forall m t arr, nth_error (elts_of n) m = Some t -> nth_error (c_arrs con) m = Some arr ->
     Forall2 (stored t) (flat_map (data m) es) arr).

(** Row [j] of the table of [n] is [cs] and the ranges [rs]. *)
Definition row_at (h : h5) (w : path) (n : string) (j : nat) (cs : list cell) (rs : list (Z * Z)) : Prop :=
  nth_error (tab_rows (tpath w n) h) j = Some (cs ++ range_cells rs).
Definition array_of (h : h5) (w : path) (n : string) (m : nat) : list cell :=
  match nth_error (apaths w n) m with Some p => arr_items p h | None => [] end.
(** Record [j] of type [n] is stored as [e]: its own columns, and its data found
    with its ranges. *)
Definition has_record (h : h5) (w : path) (n : string) (j : nat) (e : entry) : Prop :=
  exists cs rs, row_at h w n j cs rs /\ own_cells n e cs /\ length rs = length (elts_of n) /\
    forall m t r, nth_error (elts_of n) m = Some t -> nth_error rs m = Some r ->
      0 <= fst r <= snd r /\ snd r <= Zlen (array_of h w n m) /\
      Forall2 (stored t) (data m e) (slice r (array_of h w n m)) /\
      (data m e = [] -> fst r = snd r).
