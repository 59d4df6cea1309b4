(** * Export: mesh and node results of a data set written to a VTK file, as in
    examples/struc_example.py:20-31, tests/test_vtuwriter.py:49-58 and the docstring of VtuWriter
    (utils/writers.py:66-82). *)
From Verif Require Import Base Flt H5 Schema Data Struc Vtu.
Open Scope string_scope.
Open Scope Z_scope.
Open Scope list_scope.
Open Scope monad_scope.

(** ** Items of the arrays, as bytes *)

(** An item of an array of dtype float32, little-endian.  (A NaN keeps its bits in
    the code; here it becomes the quiet NaN.) *)
Definition sign_bit (s : bool) : Z := if s then 2147483648 else 0.
Definition float_word (v : flt) : Z :=
  match v with
  | FNan => 2143289344
  | FInf s => sign_bit s + 255 * 8388608
  | FZero s => sign_bit s
  | FFin s m e =>
      let q := Z.max (nbits m + e - 24) (-149) in (* exponent of the last place *)
      let n := Zpos m * 2 ^ (e - q) in
      sign_bit s + (if n <? 8388608 then n else (q + 150) * 8388608 + (n - 8388608))
  end.
Definition float_item (v : flt) : bytes := le_bytes 4 (float_word v).
Definition item (c : cell) : bytes :=
  match c with
  | CF v => float_item v
  | CC a b => float_item a ++ float_item b
  | CI z => le_bytes 4 z
  | _ => [] (* texts and vectors do not occur *)
  end.

(** ** The arrays of the getters *)

(** get_nodes: the columns of gcoord_rec are Float32Col (parsers.py:758-762), the
    last column is cut off (strucdata.py:450-453, 483). *)
Definition points_arr (rows : list (list cell)) : arr := mkA "float32" 4 [3%nat] (map (map item) rows).
(** get_elements: con and offsets are int32 as read from the file (strucdata.py:684,
    685), int64 from np.arange and np.vectorize (677, 679, 682); the offsets of a
    selection (sifdata.py:107) are one or the other, depending on the version of
    NumPy.  The types are int32 (675, 686). *)
Inductive width := W32 | W64.
Definition w_name (w : width) : string := match w with W32 => "int32" | W64 => "int64" end.
Definition w_size (w : width) : nat := match w with W32 => 4%nat | W64 => 8%nat end.
Definition int_arr (w : width) (l : list Z) : iarr := mkI (w_name w) (w_size w) l.
(** get_noderesults: 'res' is a Float32Atom array; complex64 when the results are
    complex (strucdata.py:559).  With several result cases there is a first axis for
    them (strucdata.py:566). *)
Definition has_complex (rows : list (list cell)) : bool := existsb (existsb (fun c => match c with CC _ _ => true | _ => false end)) rows.
Definition rows_arr (tail : list nat) (cplx : bool) (rows : list (list cell)) : arr :=
  if cplx then mkA "complex64" 8 tail (map (map item) rows) else mkA "float32" 4 tail (map (map item) rows).
Definition noderes_arr (r : noderes) : arr :=
  match r with
  | One a => rows_arr [6%nat] (has_complex a) a
  | Many l => rows_arr [length (hd [] l); 6%nat] (existsb has_complex l) (map (@concat cell) l)
  end.
(** res[:, :3] (struc_example.py:30): the first three along the second axis. *)
Definition first3 (r : noderes) : arr :=
  match r with
  | One a => rows_arr [3%nat] (has_complex a) (map (firstn 3) a)
  | Many l => rows_arr [Nat.min 3 (length (hd [] l)); 6%nat] (existsb has_complex l) (map (fun a => concat (firstn 3 a)) l)
  end.

(** ** The script *)

(** A field of results: type, run, result cases, whether cut to x, y, z, name *)
Record fld : Set := mkFld { f_type : string; f_run : Z; f_cases : cases; f_cut : bool; f_name : bytes }.
Definition field_call (h : h5) (d : sdata) (sets : list name) (kind : string) (disconnected : bool) (f : fld) : Res call :=
  dor r <- get_noderesults h d (f_type f) (f_run f) (f_cases f) sets kind disconnected;
  Ok (AddData (if f_cut f then first3 r else noderes_arr r) (f_name f) []).
(** The calls, in order; [cw], [ow]: dtype of connectivity and offsets. *)
Definition export_calls (cw ow : width) (h : h5) (d : sdata) (sets : list name) (kind : string) (disconnected : bool) (fs : list fld) : Res (list call) :=
  dor pts <- get_coords h d sets kind disconnected;
  dor cells <- get_elements h d sets kind disconnected;
  let '(con, off, typ) := cells in
  dor adds <- rmap (field_call h d sets kind disconnected) fs;
  Ok (NewPiece (points_arr pts) (of_ints (int_arr cw con)) (int_arr ow off) (int_arr W32 typ) :: StartPointdata :: adds ++ [CloseFile]).
(** What is then in the file. *)
Definition export (cw ow : width) (h : h5) (d : sdata) (sets : list name) (kind : string) (disconnected : bool) (fs : list fld) : Res bytes :=
  dor cs <- export_calls cw ow h d sets kind disconnected fs;
  match v_run v_init cs with
  | (s, Ok _) => Ok (v_out s)
  | (_, Err e) => Err e
  end.

(** Bytes of 1.0, of the smallest subnormal, of -infinity. *)
Example float_item_ex : float_item f1 = map chr [0; 0; 128; 63] /\ float_item (FFin false 1 (-149)) = map chr [1; 0; 0; 0] /\
  float_item (FInf true) = map chr [0; 0; 128; 255] /\ float_item (fmk true 3 (-1)) = map chr [0; 0; 192; 191] /\ unpack_f (float_item FNan) = FNan.
Proof. repeat split; vm_compute; reflexivity. Qed.
