(** * Vtu: writing VTK XML files (utils/writers.py). *)
From Verif Require Import Base.
Open Scope string_scope.
Open Scope Z_scope.
Open Scope list_scope.

Definition bytes := list ascii.
Definition B (s : string) : bytes := s2l s.

(** A NumPy array of one or more dimensions: dtype.name, itemsize, shape[1:], and
    along the first axis the items, in C order, each as its bytes.  (The bytes
    are those of the array's own byte order; nothing in writers.py looks at it.) *)
Record arr : Set := mkA { a_dtype : string; a_isize : nat; a_tail : list nat; a_rows : list (list bytes) }.
Definition prod (l : list nat) : nat := fold_right Nat.mul 1%nat l.
(** arr.size *)
Definition a_size (a : arr) : Z := Z.of_nat (length (a_rows a)) * Z.of_nat (prod (a_tail a)).
(** arr.ravel().tostring() *)
Definition a_bytes (a : arr) : bytes := concat (concat (a_rows a)).
(** Little-endian two's complement. *)
Fixpoint le_bytes (n : nat) (z : Z) : bytes :=
  match n with O => [] | S k => chr (z mod 256) :: le_bytes k (z / 256) end.
(** One-dimensional integer arrays: their values matter for offsets and types. *)
Record iarr : Set := mkI { i_dtype : string; i_isize : nat; i_vals : list Z }.
Definition of_ints (a : iarr) : arr := mkA (i_dtype a) (i_isize a) [] (map (fun z => [le_bytes (i_isize a) z]) (i_vals a)).

(** sesam2vtk_connectivity, writers.py:14-15 *)
Definition vtk_connectivity (t : Z) : option (list nat) :=
  if t =? 23 then Some [0; 2; 1]%nat else if t =? 28 then Some [0; 2; 4; 6; 1; 3; 5; 7]%nat else None.
(** sesam2vtk_elemresults, writers.py:18 *)
Definition vtk_elemresults (t : Z) : option (list nat) :=
  if t =? 26 then Some [0; 2; 4; 1; 3; 5]%nat else None.
(** sesam2vtk_elementtypeid, writers.py:21-26 *)
Definition vtk_typeid (t : Z) : option Z :=
  if t =? 15 then Some 3 else if t =? 23 then Some 21 else if t =? 24 then Some 9 else if t =? 25 then Some 5
  else if t =? 26 then Some 22 else if t =? 28 then Some 23 else None.
(** typeidmapper, writers.py:29: np.vectorize raises ValueError on an empty array,
    the dict KeyError.  The result has dtype int64 (int32 on platforms with a
    32-bit C long). *)
Fixpoint map_types (ts : list Z) : Res (list Z) :=
  match ts with
  | [] => Ok []
  | t :: r => match vtk_typeid t with
              | Some v => rbind (map_types r) (fun vs => Ok (v :: vs))
              | None => Err KeyError
              end
  end.
Definition typeidmapper (ts : iarr) : Res iarr :=
  match i_vals ts with
  | [] => Err ValueError
  | _ => rbind (map_types (i_vals ts)) (fun vs => Ok (mkI "int64" 8 vs))
  end.
(** numpy2vtk_datatype, writers.py:32-41 *)
Definition vtk_datatype (n : string) : option string :=
  dget String.eqb n [("int8", "Int8"); ("uint8", "UInt8"); ("int16", "Int16"); ("uint16", "UInt16"); ("int32", "Int32");
    ("uint32", "UInt32"); ("int64", "Int64"); ("uint64", "UInt64"); ("float32", "Float32"); ("float64", "Float64")].

(** _reorder_data, writers.py:43-49.  The rows of the array as they stand at the
    end, also when an exception is raised: IndexError by a slice with too few
    rows, ValueError by the assignment to a slice with too many. *)
Fixpoint reorder {R : Type} (tbl : Z -> option (list nat)) (start : Z) (ots : list (Z * Z)) (rows : list R) : list R * Res unit :=
  match ots with
  | [] => (rows, Ok tt)
  | (stop, typ) :: rest =>
      match tbl typ with
      | None => reorder tbl stop rest rows
      | Some ind =>
          let part := slice start stop rows in
          match rmap (pyget part) ind with
          | Err e => (rows, Err e)
          | Ok part' =>
              if Nat.eqb (length part') (length part) then
                let lo := Z.to_nat (clamp (Zlen rows) start) in
                reorder tbl stop rest (firstn lo rows ++ part' ++ skipn (lo + length part) rows)
              else (rows, Err ValueError)
          end
      end
  end.
Definition with_rows (a : arr) (rows : list (list bytes)) : arr := mkA (a_dtype a) (a_isize a) (a_tail a) rows.
(** _reorder_connectivity_vtk, _reorder_cellpointdata_vtk, writers.py:51-60: the
    array is changed in place. *)
Definition reorder_arr (tbl : Z -> option (list nat)) (a : arr) (offsets types : list Z) : arr * Res unit :=
  let (rows, r) := reorder tbl 0 (combine offsets types) (a_rows a) in (with_rows a rows, r).

(** base64.b64encode *)
Definition alphabet : bytes := B "ABCDEFGHIJKLMNOPQRSTUVWXYZabcdefghijklmnopqrstuvwxyz0123456789+/".
Definition b64char (z : Z) : ascii := nth (Z.to_nat z) alphabet "?"%char.
Fixpoint b64encode (bs : bytes) : bytes :=
  match bs with
  | [] => []
  | [a] => let n := code a * 16 in [b64char (n / 64); b64char (n mod 64); "="%char; "="%char]
  | [a; b] => let n := (code a * 256 + code b) * 4 in [b64char (n / 4096); b64char (n / 64 mod 64); b64char (n mod 64); "="%char]
  | a :: b :: c :: r =>
      let n := (code a * 256 + code b) * 256 + code c in
      b64char (n / 262144) :: b64char (n / 4096 mod 64) :: b64char (n / 64 mod 64) :: b64char (n mod 64) :: b64encode r
  end.

(** ** The writer *)

(** VtuWriter: bytes written so far, whether the file is closed, _piece_open,
    _pointdata_open, _celldata_open, _elements (innermost first),
    _current_offsets with _current_types.  writers.py:86-95 *)
Record vtu : Set := mkV { v_out : bytes; v_closed : bool; v_piece : bool; v_point : bool; v_cell : bool;
  v_elems : list string; v_cur : option (list Z * list Z) }.
Definition set_piece (b : bool) (s : vtu) : vtu := mkV (v_out s) (v_closed s) b (v_point s) (v_cell s) (v_elems s) (v_cur s).
Definition set_point (b : bool) (s : vtu) : vtu := mkV (v_out s) (v_closed s) (v_piece s) b (v_cell s) (v_elems s) (v_cur s).
Definition set_cell (b : bool) (s : vtu) : vtu := mkV (v_out s) (v_closed s) (v_piece s) (v_point s) b (v_elems s) (v_cur s).
Definition set_elems (l : list string) (s : vtu) : vtu := mkV (v_out s) (v_closed s) (v_piece s) (v_point s) (v_cell s) l (v_cur s).
Definition set_cur (c : list Z * list Z) (s : vtu) : vtu := mkV (v_out s) (v_closed s) (v_piece s) (v_point s) (v_cell s) (v_elems s) (Some c).

(** Steps which change the writer also when they raise. *)
Definition VM := vtu -> vtu * Res unit.
Definition vok : VM := fun s => (s, Ok tt).
Definition vraise (e : exn) : VM := fun s => (s, Err e).
Definition vupd (f : vtu -> vtu) : VM := fun s => (f s, Ok tt).
Definition vthen (m k : VM) : VM := fun s => match m s with (s', Ok _) => k s' | (s', Err e) => (s', Err e) end.
Notation "m ;; k" := (vthen m k) (at level 61, right associativity).

(** self._file.write *)
Definition vwrite (bs : bytes) : VM :=
  fun s => if v_closed s then (s, Err ValueError) else (mkV (v_out s ++ bs) false (v_piece s) (v_point s) (v_cell s) (v_elems s) (v_cur s), Ok tt).
Definition indent (n : nat) : bytes := concat (repeat (B "  ") n).
(** b'%s="%s"', values as encoded text *)
Definition attr_text (kv : string * bytes) : bytes := B (fst kv) ++ B "=""" ++ snd kv ++ B """".
Fixpoint joined (sep : bytes) (l : list bytes) : bytes :=
  match l with [] => [] | [x] => x | x :: r => x ++ sep ++ joined sep r end.
Definition attrs_text (kvs : list (string * bytes)) : bytes :=
  match kvs with [] => [] | _ => B " " ++ joined (B " ") (map attr_text kvs) end.
(** _open_element, writers.py:225-237; it is never called with selfclosing. *)
Definition open_element (tag : string) (kwargs : list (string * bytes)) : VM :=
  fun s =>
    let text := indent (length (v_elems s)) ++ B "<" ++ B tag ++ attrs_text kwargs ++ B ">" ++ [nl] in
    vwrite text (set_elems (tag :: v_elems s) s).
(** _close_element, writers.py:239-244 *)
Definition close_element (tag : string) : VM :=
  fun s =>
    match v_elems s with
    | [] => (s, Err IndexError)
    | t :: r =>
        if String.eqb tag t then vwrite (indent (length r) ++ B "</" ++ B tag ++ B ">" ++ [nl]) (set_elems r s)
        else (set_elems r s, Err VtkError)
    end.
(** compname_dict, writers.py:172-176; [compnames]: the encoded names, none for
    None. *)
Fixpoint comp_attrs (i : Z) (names : list bytes) : list (string * bytes) :=
  match names with [] => [] | n :: r => ("ComponentName" ++ str_of_Z i, n)%string :: comp_attrs (i + 1) r end.
(** _write_array, writers.py:161-200 *)
Definition write_array (a : arr) (name : bytes) (compnames : list bytes) : VM :=
  match (match a_tail a with [] => Some 1%nat | [n] => Some n | _ => None end) with
  | None => vraise VtkError
  | Some ncomps =>
      match vtk_datatype (a_dtype a) with
      | None => vraise KeyError
      | Some t =>
          open_element "DataArray" (("type", B t) :: ("Name", name) :: ("NumberOfComponents", B (str_of_Z (Z.of_nat ncomps))) :: ("format", B "binary") :: comp_attrs 0 compnames) ;;
          (fun s => vwrite (indent (length (v_elems s))) s) ;;
          (let nbytes := a_size a * Z.of_nat (a_isize a) in
           if nbytes <? 2 ^ 64 then vwrite (b64encode (le_bytes 8 nbytes ++ a_bytes a)) else vraise StructError) ;;
          vwrite [nl] ;;
          close_element "DataArray"
      end
  end.
(** _close_piece, writers.py:202-205 *)
Definition close_piece : VM := fun s => if v_piece s then (close_element "Piece" ;; vupd (set_piece false)) s else (s, Ok tt).
(** _close_data, writers.py:217-223 *)
Definition close_data : VM :=
  fun s => if v_point s then (close_element "PointData" ;; vupd (set_point false)) s
           else if v_cell s then (close_element "CellData" ;; vupd (set_cell false)) s else (s, Ok tt).
(** _open_data, writers.py:207-215 *)
Definition open_data (datatype : string) : VM :=
  fun s =>
    if v_piece s then
      (close_data ;; open_element datatype [] ;;
       (if String.eqb datatype "PointData" then vupd (set_point true) else if String.eqb datatype "CellData" then vupd (set_cell true) else vok)) s
    else (s, Err VtkError).
(** add_data, writers.py:139-144 *)
Definition add_data (a : arr) (name : bytes) (compnames : list bytes) : VM :=
  fun s => if negb (v_point s) && negb (v_cell s) then (s, Err VtkError) else write_array a name compnames s.
(** __init__, writers.py:97-99 *)
Definition v_init : vtu :=
  fst ((open_element "VTKFile" [("type", B "UnstructuredGrid"); ("version", B "1.0"); ("byte_order", B "LittleEndian"); ("header_type", B "UInt64")] ;;
        open_element "UnstructuredGrid" []) (mkV [] false false false false [] None)).
(** new_piece, writers.py:102-131, with the connectivity array as it is left. *)
Definition new_piece (points con : arr) (offsets types : iarr) (s : vtu) : vtu * arr * Res unit :=
  match (close_data ;; close_piece ;; vupd (set_piece true)) s with
  | (s1, Err e) => (s1, con, Err e)
  | (s1, Ok _) =>
      let (con', r) := reorder_arr vtk_connectivity con (i_vals offsets) (i_vals types) in
      match r with
      | Err e => (s1, con', Err e)
      | Ok _ =>
          let s2 := set_cur (i_vals offsets, i_vals types) s1 in
          match typeidmapper types with
          | Err e => (s2, con', Err e)
          | Ok vtypes =>
              let (s3, r3) :=
                (open_element "Piece" [("NumberOfPoints", B (str_of_Z (Zlen (a_rows points)))); ("NumberOfCells", B (str_of_Z (Zlen (i_vals offsets))))] ;;
                 open_element "Points" [] ;; write_array points (B "points") [] ;; close_element "Points" ;;
                 open_element "Cells" [] ;; write_array con' (B "connectivity") [] ;; write_array (of_ints offsets) (B "offsets") [] ;;
                 write_array (of_ints vtypes) (B "types") [] ;; close_element "Cells") s2 in
              (s3, con', r3)
          end
      end
  end.
(** add_data_cellpoints, writers.py:146-151, with the array as it is left. *)
Definition add_data_cellpoints (a : arr) (name : bytes) (compnames : list bytes) (s : vtu) : vtu * arr * Res unit :=
  match v_cur s with
  | None => (s, a, Err TypeError) (* zip(None, None) *)
  | Some (offsets, types) =>
      let (a', r) := reorder_arr vtk_elemresults a offsets types in
      match r with
      | Err e => (s, a', Err e)
      | Ok _ => let (s', r') := add_data a' name compnames s in (s', a', r')
      end
  end.
(** close, writers.py:154-159 *)
Definition v_close : VM :=
  close_data ;; close_piece ;; close_element "UnstructuredGrid" ;; close_element "VTKFile" ;;
  vupd (fun s => mkV (v_out s) true (v_piece s) (v_point s) (v_cell s) (v_elems s) (v_cur s)).

(** ** Calls *)
Inductive call : Set :=
| NewPiece (points con : arr) (offsets types : iarr)
| StartPointdata
| StartCelldata
| AddData (a : arr) (name : bytes) (compnames : list bytes)
| AddCellpoints (a : arr) (name : bytes) (compnames : list bytes)
| CloseFile.
Definition v_step (s : vtu) (c : call) : vtu * Res unit :=
  match c with
  | NewPiece p con o t => let '(s', _, r) := new_piece p con o t s in (s', r)
  | StartPointdata => open_data "PointData" s
  | StartCelldata => open_data "CellData" s
  | AddData a n cs => add_data a n cs s
  | AddCellpoints a n cs => let '(s', _, r) := add_data_cellpoints a n cs s in (s', r)
  | CloseFile => v_close s
  end.
(** Calls up to the first one that raises. *)
Fixpoint v_run (s : vtu) (cs : list call) : vtu * Res unit :=
  match cs with
  | [] => (s, Ok tt)
  | c :: r => match v_step s c with (s', Ok _) => v_run s' r | (s', Err e) => (s', Err e) end
  end.
