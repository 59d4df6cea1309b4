(** * H5: the part of PyTables/NumPy used for storing records.

    A store maps paths to groups (with attributes), tables and extendable
    arrays.  Python values offered for storage are [pyval]; stored values are
    [cell]. *)
From Verif Require Import Base Flt.
Open Scope string_scope.
Open Scope Z_scope.
Open Scope list_scope.
Open Scope monad_scope.

(** Column and element types: Int32Col/Int32Atom, Float32Col/Float32Atom,
    StringCol(n)/StringAtom(n), ComplexCol(itemsize=8)/ComplexAtom(itemsize=8)
    and a fixed shape of n entries of a type (nested for matrices). *)
Inductive ctype : Set :=
| TI | TF | TS (n : nat) | TC | TV (n : nat) (t : ctype).

(** Python values handed to NumPy. *)
Inductive pyval : Set :=
| PF (f : flt) | PI (z : Z) | PS (s : list ascii) | PC (re im : flt) | PT (l : list pyval).

Inductive cell : Set :=
| CI (z : Z) | CF (f : flt) | CS (s : list ascii) | CC (re im : flt) | CV (l : list cell).

(** A fixed-width bytes entry: truncated, and trailing NULs are not part of
    the value read back. *)
Definition nul : ascii := "000"%char.
Definition fix_bytes (n : nat) (s : list ascii) : list ascii :=
  rev (dropwhile (fun c => Ascii.eqb c nul) (rev (firstn n s))).

(** `arr[i] = tuple` on a structured array, one field (NumPy setitem rules):
    int32 fields take int(x) with a range check, float32 fields round, a
    sub-array field takes a sequence of its length (or of length one, which is
    repeated); anything else raises. *)
Definition set_int (z : Z) : Res cell :=
  if (-2147483648 <=? z) && (z <=? 2147483647) then Ok (CI z) else Err OverflowError.
Fixpoint conv_cell (t : ctype) (v : pyval) : Res cell :=
  match t with
  | TI => match v with
          | PF f => match int_of f with Ok z => set_int z | Err e => Err e end
          | PI z => set_int z
          | PS _ => Err ValueError | PC _ _ => Err TypeError | PT _ => Err TypeError
          end
  | TF => match v with
          | PF f => Ok (CF (round32 f))
          | PI z => Ok (CF (round32 (f_of_Z z)))
          | PS _ => Err ValueError | PC _ _ => Err TypeError | PT _ => Err TypeError
          end
  | TS n => match v with
            | PS s => if forallb (fun c => code c <? 128) s then Ok (CS (fix_bytes n s))
                      else Err UnicodeDecodeError
            | _ => Err TypeError
            end
  | TC => match v with
          | PF f => Ok (CC (round32 f) f0)
          | PI z => Ok (CC (round32 (f_of_Z z)) f0)
          | PC a b => Ok (CC (round32 a) (round32 b))
          | PS _ => Err ValueError | PT _ => Err TypeError
          end
  | TV n t' => match v with
               | PT l => dor cs <- rmap (conv_cell t') l;
                         if Nat.eqb (length cs) n then Ok (CV cs)
                         else match cs with
                              | [c] => Ok (CV (repeat c n))
                              | _ => Err ValueError
                              end
               | _ => Err TypeError
               end
  end.

(** A whole row: the tuple must have one entry per column. *)
Definition descr := list (string * ctype).
Fixpoint conv_row (ts : list ctype) (vs : list pyval) : Res (list cell) :=
  match ts, vs with
  | [], [] => Ok []
  | t :: ts', v :: vs' => dor c <- conv_cell t v; dor r <- conv_row ts' vs'; Ok (c :: r)
  | _, _ => Err ValueError
  end.

(** `earray.append(np.array(data))`: the array of the data (float64, complex
    or text) is cast to the element type (astype: no range check) and its shape
    must agree. *)
Fixpoint conv_elem (t : ctype) (v : pyval) : Res cell :=
  match t with
  | TI => match v with
          | PF f => Ok (CI (int32_cast f))
          | PI z => Ok (CI z)
          | _ => Err ValueError
          end
  | TF => match v with
          | PF f => Ok (CF (round32 f))
          | PI z => Ok (CF (round32 (f_of_Z z)))
          | _ => Err ValueError
          end
  | TS n => match v with
            | PS s => Ok (CS (fix_bytes n s))
            | _ => Err ValueError
            end
  | TC => match v with
          | PF f => Ok (CC (round32 f) f0)
          | PI z => Ok (CC (round32 (f_of_Z z)) f0)
          | PC a b => Ok (CC (round32 a) (round32 b))
          | _ => Err ValueError
          end
  | TV n t' => match v with
               | PT l => if Nat.eqb (length l) n then
                           dor cs <- rmap (conv_elem t') l; Ok (CV cs)
                         else Err ValueError
               | _ => Err ValueError
               end
  end.

(** ** Nodes and paths.  The path of a node is the list of names from the root;
    '/a/b' is ["a"; "b"]. *)
Inductive aval : Set := AStr (s : string) | AStrs (l : list string) | AInt (z : option Z).
Inductive node : Set :=
| Group (attrs : list (string * aval))
| Table (d : descr) (rows : list (list cell))
| Arr (t : ctype) (items : list cell).
Definition path := list string.
Fixpoint path_eqb (p q : path) : bool :=
  match p, q with
  | [], [] => true
  | a :: p', b :: q' => String.eqb a b && path_eqb p' q'
  | _, _ => false
  end.
Definition h5 := list (path * node).

Definition h5_find (p : path) (h : h5) : option node := dget path_eqb p h.
Definition h5_add (p : path) (n : node) (h : h5) : h5 := h ++ [(p, n)].
Definition h5_upd (p : path) (f : node -> node) (h : h5) : h5 :=
  map (fun qn => if path_eqb p (fst qn) then (fst qn, f (snd qn)) else qn) h.

(** createparents=True: make the groups [pre ++ first], [pre ++ first ++
    second], ... that do not exist; a leaf in the way raises. *)
Fixpoint mkgroups (pre p : path) (h : h5) : Res h5 :=
  match p with
  | [] => Ok h
  | a :: r =>
      let q := pre ++ [a] in
      match h5_find q h with
      | None => mkgroups q r (h5_add q (Group []) h)
      | Some (Group _) => mkgroups q r h
      | Some _ => Err NodeError
      end
  end.
(** create_table / create_earray: NodeError when the name is taken. *)
Definition h5_create (where_ : path) (name : string) (n : node) (h : h5) : Res h5 :=
  dor h1 <- mkgroups [] where_ h;
  match h5_find (where_ ++ [name]) h1 with
  | Some _ => Err NodeError
  | None => Ok (h5_add (where_ ++ [name]) n h1)
  end.

Definition tab_rows (p : path) (h : h5) : list (list cell) :=
  match h5_find p h with Some (Table _ rs) => rs | _ => [] end.
Definition arr_items (p : path) (h : h5) : list cell :=
  match h5_find p h with Some (Arr _ xs) => xs | _ => [] end.
Definition append_rows (rs : list (list cell)) (n : node) : node :=
  match n with Table d rows => Table d (rows ++ rs) | _ => n end.
Definition append_items (xs : list cell) (n : node) : node :=
  match n with Arr t items => Arr t (items ++ xs) | _ => n end.
Fixpoint set_attr (k : string) (v : aval) (l : list (string * aval)) : list (string * aval) :=
  match l with
  | [] => [(k, v)]
  | (k', v') :: r => if String.eqb k k' then (k, v) :: r else (k', v') :: set_attr k v r
  end.
(** group._f_setattr *)
Definition put_attr (k : string) (v : aval) (n : node) : node :=
  match n with Group l => Group (set_attr k v l) | _ => n end.

(** Column of a stored row by position; integer columns. *)
Definition col_int (i : nat) (row : list cell) : Res Z :=
  match nth_error row i with Some (CI z) => Ok z | _ => Err IndexError end.
