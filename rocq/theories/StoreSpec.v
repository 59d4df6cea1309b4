(** * StoreSpec: what is stored for a record.

    Specification side: how a value appears in a column, which range of the
    companion array belongs to a record, what a table holds after a number of
    records.  Shared with the model: the types of numbers, values, cells and
    columns. *)
From Verif Require Import Base Flt SeqFile H5 Schema SeqSpec.
Open Scope string_scope.
Open Scope Z_scope.
Open Scope list_scope.

(** [z] is [f] without its fractional part. *)
Definition trunc_is (f : flt) (z : Z) : Prop :=
  match f with
  | FZero _ => z = 0
  | FFin s m e => exists a, 0 <= a /\ z = (if s then - a else a) /\
      (0 <= e -> a = Zpos m * 2 ^ e) /\
      (e < 0 -> a * 2 ^ (- e) <= Zpos m < (a + 1) * 2 ^ (- e))
  | _ => False
  end.

Definition int32 (z : Z) : Prop := -2147483648 <= z <= 2147483647.

(** A text in a column of [n] characters: cut off, and without trailing NULs. *)
Definition text_of (n : nat) (s t : list ascii) : Prop :=
  exists z, firstn n s = t ++ repeat nul z /\ (t = [] \/ last t blank <> nul).

(** How a value appears in a column: whole numbers truncated, reals in single
    precision ([round32], see C08_single), texts of ASCII characters, complex
    numbers by parts, fixed-shape entries by components. *)
Fixpoint stored (t : ctype) (v : pyval) (c : cell) : Prop :=
  match t, v, c with
  | TI, PF f, CI z => trunc_is f z /\ int32 z
  | TI, PI i, CI z => i = z /\ int32 z
  | TF, PF f, CF g => g = round32 f
  | TS n, PS s, CS x => Forall (fun a => code a < 128) s /\ text_of n s x
  | TC, PC a b, CC x y => x = round32 a /\ y = round32 b
  | TC, PF a, CC x y => x = round32 a /\ y = f0
  | TV n t', PT l, CV cs => length l = n /\ Forall2 (stored t') l cs
  | _, _, _ => False
  end.

(** A record as far as storing is concerned: the values of its own columns and
    its variable-length data, one list per companion array. *)
Record entry : Set := mkEntry { e_row : list pyval; e_data : list (list pyval) }.

(** The range columns: (0,0) without data, otherwise the place where the data
    goes in the companion array. *)
Definition range (base : Z) (d : list pyval) : list pyval :=
  match d with [] => [PI 0; PI 0] | _ => [PI base; PI (base + Zlen d)] end.
Fixpoint ranges (bases : list Z) (ds : list (list pyval)) : list pyval :=
  match bases, ds with
  | b :: bs, d :: ds' => range b d ++ ranges bs ds'
  | _, _ => []
  end.

(** Rows and companion arrays of a table. *)
Record content : Set := mkC { c_rows : list (list cell); c_arrs : list (list cell) }.

Inductive app2 {A} : list (list A) -> list (list A) -> list (list A) -> Prop :=
| app2_nil : app2 [] [] []
| app2_cons a b l m n : app2 l m n -> app2 (a :: l) (b :: m) ((a ++ b) :: n).

(** [cs]: cells of the columns, [ds]: cells of the data. *)
Inductive put_entry (cols : list ctype) (elts : list ctype) : content -> entry -> content -> Prop :=
| put_entry_intro rows arrs r cs ds arrs' :
    length (e_data r) = length elts -> length arrs = length elts ->
    Forall2 (fun tv c => stored (fst tv) (snd tv) c)
            (combine cols (e_row r ++ ranges (map Zlen arrs) (e_data r))) cs ->
    length cols = length (e_row r ++ ranges (map Zlen arrs) (e_data r)) ->
    Forall2 (fun td cs => Forall2 (stored (fst td)) (snd td) cs) (combine elts (e_data r)) ds ->
    app2 arrs ds arrs' ->
    put_entry cols elts (mkC rows arrs) r (mkC (rows ++ [cs]) arrs').
Inductive put_entries (cols elts : list ctype) : content -> list entry -> content -> Prop :=
| put_nil c : put_entries cols elts c [] c
| put_cons c r c1 rs c2 :
    put_entry cols elts c r c1 -> put_entries cols elts c1 rs c2 ->
    put_entries cols elts c (r :: rs) c2.
