(** * Data: reading records back (data/sifdata.py, data/helpers.py).

    Reading side of PyTables and NumPy as far as the getters use it, and the
    base class of the data objects. *)
From Verif Require Import Base Flt H5 Schema.
Open Scope string_scope.
Open Scope Z_scope.
Open Scope list_scope.
Open Scope monad_scope.

(** ** Tables and arrays *)

(** tables.Table: description and rows.  A companion array is its list of
    items. *)
Record table : Set := mkTab { t_descr : descr; t_rows : list (list cell) }.

(** Field of a row by name. *)
Fixpoint col_index (n : string) (d : descr) : option nat :=
  match d with
  | [] => None
  | (m, _) :: r => if String.eqb n m then Some O else option_map S (col_index n r)
  end.
Definition field (t : table) (n : string) (row : list cell) : Res cell :=
  match col_index n (t_descr t) with
  | None => Err KeyError
  | Some i => match nth_error row i with Some c => Ok c | None => Err IndexError end
  end.
Definition as_int (c : cell) : Res Z := match c with CI z => Ok z | _ => Err TypeError end.
Definition ifield (t : table) (n : string) (row : list cell) : Res Z :=
  dor c <- field t n row; as_int c.
(** Table.col(name) *)
Definition col (t : table) (n : string) : Res (list cell) := rmap (field t n) (t_rows t).
Definition icol (t : table) (n : string) : Res (list Z) := rmap (ifield t n) (t_rows t).
Definition ints_of (l : list cell) : Res (list Z) := rmap as_int l.

(** Table.where(condition): the rows fulfilling it, in order. *)
Fixpoint rfilter {A} (p : A -> Res bool) (l : list A) : Res (list A) :=
  match l with
  | [] => Ok []
  | x :: r => dor b <- p x; dor ys <- rfilter p r; Ok (if b then x :: ys else ys)
  end.
Definition int_is (t : table) (n : string) (z : Z) (row : list cell) : Res bool :=
  dor x <- ifield t n row; Ok (x =? z).
(** Conditions name==b'...' : the bytes are compared without trailing NULs. *)
Definition text_is (t : table) (n : string) (s : list ascii) (row : list cell) : Res bool :=
  dor c <- field t n row;
  match c with CS x => Ok (lascii_eqb x s) | _ => Err TypeError end.
Definition both (p q : list cell -> Res bool) (row : list cell) : Res bool :=
  dor a <- p row; dor b <- q row; Ok (a && b).

(** helpers.getrow, helpers.py:12-18: the first row fulfilling a condition. *)
Definition getrow (t : table) (p : list cell -> Res bool) : Res (list cell) :=
  dor rs <- rfilter p (t_rows t);
  match rs with r :: _ => Ok r | [] => Err ConditionError end.

(** ** NumPy *)

(** arr[indices] and arr.take(indices): negative indices count from the end. *)
Definition take {A} (l : list A) (idx : list Z) : Res (list A) := rmap (pygetZ l) idx.
(** np.concatenate of a list of 1d arrays *)
Definition concatenate {A} (ls : list (list A)) : Res (list A) :=
  match ls with [] => Err ValueError | _ => Ok (concat ls) end.
(** np.unique of whole numbers: sorted, without repetition *)
Fixpoint insert (x : Z) (l : list Z) : list Z :=
  match l with
  | [] => [x]
  | y :: r => if x <? y then x :: l else if x =? y then l else y :: insert x r
  end.
Definition unique (l : list Z) : list Z := fold_right insert [] l.
(** np.arange(n) *)
Definition arange (n : nat) : list Z := map Z.of_nat (seq 0 n).
(** np.isin / membership in a set of whole numbers *)
Definition zmem (z : Z) (l : list Z) : bool := existsb (Z.eqb z) l.

(** ** The base class of data objects *)

(** SifData.__init__, sifdata.py:16-35, with StrucData.__init__,
    strucdata.py:18-28: a data object.  [d_file] is the object given as
    fileinstance: the file, or another data object (by its group); [d_top] the
    top level data object (by its group).  [d_index] is only present on results
    data of structures.  The attribute name is the last part of the
    group; __str__ and __repr__ are in Listing.v. *)
Inductive owner : Set := OFile | OData (p : path) | ONone.
Record sdata : Set := mkSD {
  d_group : path; d_names : list string; d_seltyp : option Z; d_level : string;
  d_filetype : string; d_datatype : string; d_index : option Z;
  d_file : owner; d_top : option path; d_open : bool }.

(** Node._f_getattr: AttributeError when missing. *)
Definition attrs_at (h : h5) (p : path) : list (string * aval) :=
  match h5_find p h with Some (Group a) => a | _ => [] end.
Definition attr_str (h : h5) (p : path) (k : string) : Res string :=
  match sget k (attrs_at h p) with Some (AStr s) => Ok s | _ => Err AttributeError end.
Definition attr_strs (h : h5) (p : path) (k : string) : Res (list string) :=
  match sget k (attrs_at h p) with Some (AStrs s) => Ok s | _ => Err AttributeError end.
Definition attr_int (h : h5) (p : path) (k : string) : Res (option Z) :=
  match sget k (attrs_at h p) with Some (AInt z) => Ok z | _ => Err AttributeError end.
Definition sif_init (h : h5) (p : path) (fileinstance : owner) (toplevel : option path) : Res sdata :=
  dor names <- attr_strs h p "RECORDS";
  dor seltyp <- attr_int h p "SELTYP";
  dor level <- attr_str h p "LEVEL";
  dor ft <- attr_str h p "FILETYPE";
  dor dt <- attr_str h p "DATATYPE";
  Ok (mkSD p names seltyp level ft dt None fileinstance toplevel true).

(** SifData._check_isopen, sifdata.py:61-64. *)
Definition check_isopen (d : sdata) : Res unit := if d_open d then Ok tt else Err ClosedFileError.

(** SifData._get_record, sifdata.py:66-91.  The table and, if there are any, its
    companion arrays; a missing companion array is a NoSuchNodeError. *)
Definition get_child_table (h : h5) (p : path) : Res table :=
  match h5_find p h with Some (Table ds rows) => Ok (mkTab ds rows) | _ => Err NoSuchRecordError end.
Definition get_child_array (h : h5) (p : path) : Res (list cell) :=
  match h5_find p h with Some (Arr _ xs) => Ok xs | _ => Err NoSuchNodeError end.
Definition get_record (h : h5) (d : sdata) (n : string) : Res (table * list (list cell)) :=
  dor _ <- check_isopen d;
  dor t <- get_child_table h (d_group d ++ [lower_s n]);
  dor arrs <- rmap (fun a => get_child_array h (d_group d ++ [(lower_s n ++ "_" ++ fst a)%string])) (atoms_of n);
  Ok (t, arrs).
(** The two usual ways of unpacking the result: a table without companion
    arrays, and a table with exactly one. *)
Definition record0 (h : h5) (d : sdata) (n : string) : Res table :=
  dor (t, _) <- get_record h d n; Ok t.
Definition record1 (h : h5) (d : sdata) (n : string) : Res (table * list cell) :=
  dor (t, arrs) <- get_record h d n;
  match arrs with [a] => Ok (t, a) | _ => Err ValueError end.

(** SifData._get_varlendata, sifdata.py:93-108. *)
Fixpoint running (o : Z) (l : list (Z * Z)) : list Z :=
  match l with
  | [] => []
  | (a, b) :: r => (o + (b - a)) :: running (o + (b - a)) r
  end.
Definition get_varlendata (t : table) (colname : string) (arr : list cell) (indices : list Z)
  : Res (list cell * list Z) :=
  dor starts0 <- icol t (colname ++ "_start");
  dor starts <- take starts0 indices;
  dor stops0 <- icol t (colname ++ "_stop");
  dor stops <- take stops0 indices;
  dor data <- concatenate (map (fun ab => slice (fst ab) (snd ab) arr) (combine starts stops));
  Ok (data, running 0 (combine starts stops)).

(** SifData._has_record, sifdata.py:110-112. *)
Definition has_record_name (d : sdata) (n : string) : bool := str_in n (d_names d).
