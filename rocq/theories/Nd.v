(** * Nd: NumPy arrays of several dimensions.

    An array is its shape and its entries in C order.  Only what the getters of
    hydrodynamic data use: setting the shape, rollaxis, moveaxis. *)
From Verif Require Import Base Flt H5.
Open Scope Z_scope.
Open Scope list_scope.
Open Scope monad_scope.

Record nd (A : Type) : Type := mkNd { n_shape : list nat; n_flat : list A }.
Arguments mkNd {A} n_shape n_flat.
Arguments n_shape {A} n.
Arguments n_flat {A} n.

Definition size (sh : list nat) : nat := fold_right Nat.mul 1%nat sh.
(** All indices, the last axis running fastest. *)
Fixpoint indices (sh : list nat) : list (list nat) :=
  match sh with
  | [] => [[]]
  | n :: r => flat_map (fun i => map (cons i) (indices r)) (seq 0 n)
  end.
(** Position of an index. *)
Fixpoint ravel (sh idx : list nat) : nat :=
  match sh, idx with
  | n :: r, i :: s => (i * size r + ravel r s)%nat
  | _, _ => 0%nat
  end.
(** arr[i, j, ...] *)
Fixpoint inside (sh idx : list nat) : bool :=
  match sh, idx with
  | [], [] => true
  | n :: r, i :: s => Nat.ltb i n && inside r s
  | _, _ => false
  end.
Definition at_ {A} (a : nd A) (idx : list nat) : option A :=
  if inside (n_shape a) idx then nth_error (n_flat a) (ravel (n_shape a) idx) else None.
(** The array with given entries. *)
Fixpoint optmap {A B} (f : A -> option B) (l : list A) : list B :=
  match l with [] => [] | x :: r => match f x with Some y => y :: optmap f r | None => optmap f r end end.

(** arr.shape = sh: same entries; ValueError if their number differs.  The
    arrays whose shape is set are columns of a table, of which only the first
    axis is split; that can always be done in place. *)
Definition set_shape {A} (a : nd A) (sh : list nat) : Res (nd A) :=
  if Nat.eqb (size (n_shape a)) (size sh) then Ok (mkNd sh (n_flat a)) else Err ValueError.

(** np.transpose(a, axes): axis k of the result is axis axes[k] of [a]. *)
Fixpoint find_pos (x : nat) (l : list nat) : nat :=
  match l with [] => 0%nat | y :: r => if Nat.eqb x y then 0%nat else S (find_pos x r) end.
Definition transpose {A} (a : nd A) (axes : list nat) : nd A :=
  let sh := map (fun k => nth k (n_shape a) 0%nat) axes in
  mkNd sh (optmap (fun idx => at_ a (map (fun k => nth (find_pos k axes) idx 0%nat) (seq 0 (length axes)))) (indices sh)).

(** numpy.rollaxis(a, axis, start): the axis removed from the list of axes and
    put back at start (one less when it lay before). *)
Definition without (x : nat) (l : list nat) : list nat := filter (fun y => negb (Nat.eqb y x)) l.
Definition insert_at {A} (i : nat) (x : A) (l : list A) : list A := firstn i l ++ x :: skipn i l.
Definition rollaxis {A} (a : nd A) (axis start : nat) : nd A :=
  let n := length (n_shape a) in
  let start' := if Nat.ltb axis start then (start - 1)%nat else start in
  transpose a (insert_at start' axis (without axis (seq 0 n))).
(** numpy.moveaxis(a, source, destination): the other axes, and into them each
    source inserted at its destination, in order of the destinations. *)
Definition moveaxis {A} (a : nd A) (moves : list (nat * nat)) : nd A := (* (destination, source), sorted *)
  let n := length (n_shape a) in
  let order := filter (fun y => negb (existsb (fun ds => Nat.eqb y (snd ds)) moves)) (seq 0 n) in
  transpose a (fold_left (fun o ds => insert_at (fst ds) (snd ds) o) moves order).

(** Arithmetic on every entry. *)
Definition nd_map {A B} (f : A -> B) (a : nd A) : nd B := mkNd (n_shape a) (map f (n_flat a)).
