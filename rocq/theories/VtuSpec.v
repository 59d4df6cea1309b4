(** * VtuSpec: XML text, base64, and the document a sequence of calls stands for. *)
From Verif Require Import Base Vtu.
Open Scope string_scope.
Open Scope Z_scope.
Open Scope list_scope.

(** ** Base64 (RFC 4648), the reading side *)
Fixpoint index_of (c : ascii) (l : bytes) : option Z :=
  match l with [] => None | x :: r => if Ascii.eqb c x then Some 0 else option_map Z.succ (index_of c r) end.
Definition b64val (c : ascii) : option Z :=
  index_of c (B "ABCDEFGHIJKLMNOPQRSTUVWXYZabcdefghijklmnopqrstuvwxyz0123456789+/").
(** Groups of four characters; the last may end in one or two '=', and then the
    bits not used are zero. *)
Fixpoint b64decode (t : bytes) : option bytes :=
  match t with
  | [] => Some []
  | a :: b :: c :: d :: r =>
      match b64val a, b64val b, b64val c, b64val d with
      | Some va, Some vb, Some vc, Some vd =>
          let n := ((va * 64 + vb) * 64 + vc) * 64 + vd in
          option_map (fun rest => chr (n / 65536) :: chr (n / 256 mod 256) :: chr (n mod 256) :: rest) (b64decode r)
      | Some va, Some vb, Some vc, None =>
          let n := (va * 64 + vb) * 64 + vc in
          if Ascii.eqb d "=" && (n mod 4 =? 0) then match r with [] => Some [chr (n / 1024); chr (n / 4 mod 256)] | _ => None end else None
      | Some va, Some vb, None, None =>
          let n := va * 64 + vb in
          if Ascii.eqb c "=" && Ascii.eqb d "=" && (n mod 16 =? 0) then match r with [] => Some [chr (n / 16)] | _ => None end else None
      | _, _, _, _ => None
      end
  | _ => None
  end.

(** An unsigned number in n bytes, least significant first. *)
Inductive unsigned : bytes -> Z -> Prop :=
| unsigned_nil : unsigned [] 0
| unsigned_cons c r z : unsigned r z -> unsigned (c :: r) (code c + 256 * z).

(** ** XML 1.0 text: elements without comments, references or declarations *)
Definition letter (c : ascii) : bool := ((65 <=? code c) && (code c <=? 90)) || ((97 <=? code c) && (code c <=? 122)).
Definition name_char (c : ascii) : bool := letter c || ((48 <=? code c) && (code c <=? 57)) || (code c =? 95).
Definition xml_name (n : bytes) : Prop := exists c r, n = c :: r /\ letter c = true /\ forallb name_char r = true.
(** Characters that XML allows; bytes from 128 are left to the encoding. *)
Definition xml_char (c : ascii) : bool := (32 <=? code c) || (code c =? 9) || (code c =? 10) || (code c =? 13).
(** In attribute values (in double quotes), and in text. *)
Definition value_char (c : ascii) : bool := xml_char c && negb (Ascii.eqb c "<") && negb (Ascii.eqb c "&") && negb (Ascii.eqb c """").
Definition text_char (c : ascii) : bool := xml_char c && negb (Ascii.eqb c "<") && negb (Ascii.eqb c "&") && negb (Ascii.eqb c ">").
Inductive attributes : bytes -> list bytes -> Prop :=
| att_nil : attributes [] []
| att_cons n v r ns : xml_name n -> forallb value_char v = true -> attributes r ns -> attributes (B " " ++ n ++ B "=" ++ B """" ++ v ++ B """" ++ r) (n :: ns).
Inductive element : bytes -> Prop :=
| elem tag atts ns body : xml_name tag -> attributes atts ns -> NoDup ns -> content body ->
    element (B "<" ++ tag ++ atts ++ B ">" ++ body ++ B "</" ++ tag ++ B ">")
with content : bytes -> Prop :=
| cont_nil : content []
| cont_text c r : text_char c = true -> content r -> content (c :: r)
| cont_elem e r : element e -> content r -> content (e ++ r).
(** A document: one root element, then white space. *)
Definition white (c : ascii) : bool := (code c =? 32) || (code c =? 9) || (code c =? 10) || (code c =? 13).
Definition xml_document (t : bytes) : Prop := exists e w, t = e ++ w /\ element e /\ forallb white w = true.

(** ** Documents as trees, and how they are laid out *)
Inductive xml : Set :=
| Node (tag : string) (attrs : list (string * bytes)) (kids : list xml)
| Text (tag : string) (attrs : list (string * bytes)) (text : bytes).
Definition margin (d : nat) : bytes := concat (repeat (B "  ") d).
Definition open_tag (d : nat) (tag : string) (attrs : list (string * bytes)) : bytes :=
  margin d ++ B "<" ++ B tag ++ concat (map (fun kv => B " " ++ B (fst kv) ++ B "=" ++ B """" ++ snd kv ++ B """") attrs) ++ B ">" ++ [nl].
Definition close_tag (d : nat) (tag : string) : bytes := margin d ++ B "</" ++ B tag ++ B ">" ++ [nl].
Fixpoint render (d : nat) (x : xml) : bytes :=
  match x with
  | Node tag attrs kids => open_tag d tag attrs ++ concat (map (render (S d)) kids) ++ close_tag d tag
  | Text tag attrs text => open_tag d tag attrs ++ margin (S d) ++ text ++ [nl] ++ close_tag d tag
  end.

(** ** What calls stand for *)

(** VTK's names of NumPy's types. *)
Inductive vtk_name : string -> string -> Prop :=
| vtk_int b : In b ["8"; "16"; "32"; "64"] -> vtk_name ("int" ++ b) ("Int" ++ b)
| vtk_uint b : In b ["8"; "16"; "32"; "64"] -> vtk_name ("uint" ++ b) ("UInt" ++ b)
| vtk_float b : In b ["32"; "64"] -> vtk_name ("float" ++ b) ("Float" ++ b).
(** Sesam's element types and VTK's: line, quadratic edge, quad, triangle,
    quadratic triangle, quadratic quad. *)
Inductive vtk_cell : Z -> Z -> Prop :=
| vc_15 : vtk_cell 15 3 | vc_23 : vtk_cell 23 21 | vc_24 : vtk_cell 24 9 | vc_25 : vtk_cell 25 5 | vc_26 : vtk_cell 26 22 | vc_28 : vtk_cell 28 23.
Fixpoint numbered (i : Z) (ns : list bytes) : list (string * bytes) :=
  match ns with [] => [] | n :: r => ("ComponentName" ++ str_of_Z i, n)%string :: numbered (i + 1) r end.
(** A one- or two-dimensional array; its payload decodes to the count of the
    bytes (8 bytes) and the bytes. *)
Definition shaped (a : arr) : Prop := Forall (fun r => length r = prod (a_tail a) /\ Forall (fun i => length i = a_isize a) r) (a_rows a).
Definition array_xml (a : arr) (name : bytes) (comps : list bytes) (x : xml) : Prop :=
  exists t nc header payload,
    vtk_name (a_dtype a) t /\ (a_tail a = [] /\ nc = 1%nat \/ a_tail a = [nc]) /\
    x = Text "DataArray" ([("type", B t); ("Name", name); ("NumberOfComponents", B (str_of_Z (Z.of_nat nc))); ("format", B "binary")] ++ numbered 0 comps) payload /\
    b64decode payload = Some (header ++ concat (concat (a_rows a))) /\ length header = 8%nat /\
    (shaped a -> unsigned header (Zlen (concat (concat (a_rows a))))).
(** Arrays added to a section of a piece with the given cells. *)
Inductive arrays_xml (offsets types : list Z) : list call -> list xml -> Prop :=
| ax_nil : arrays_xml offsets types [] []
| ax_data a n cs x calls xs : array_xml a n cs x -> arrays_xml offsets types calls xs -> arrays_xml offsets types (AddData a n cs :: calls) (x :: xs)
| ax_cellpoints a n cs a' x calls xs : reorder_arr vtk_elemresults a offsets types = (a', Ok tt) -> array_xml a' n cs x ->
    arrays_xml offsets types calls xs -> arrays_xml offsets types (AddCellpoints a n cs :: calls) (x :: xs).
Inductive sections_xml (offsets types : list Z) : list call -> list xml -> Prop :=
| sx_nil : sections_xml offsets types [] []
| sx_point adds xs calls ys : arrays_xml offsets types adds xs -> sections_xml offsets types calls ys ->
    sections_xml offsets types (StartPointdata :: adds ++ calls) (Node "PointData" [] xs :: ys)
| sx_cell adds xs calls ys : arrays_xml offsets types adds xs -> sections_xml offsets types calls ys ->
    sections_xml offsets types (StartCelldata :: adds ++ calls) (Node "CellData" [] xs :: ys).
Inductive pieces_xml : list call -> list xml -> Prop :=
| px_nil : pieces_xml [] []
| px_piece p con o t con' ts xp xc xo xt secs xs calls ys :
    reorder_arr vtk_connectivity con (i_vals o) (i_vals t) = (con', Ok tt) -> Forall2 vtk_cell (i_vals t) ts ->
    array_xml p (B "points") [] xp -> array_xml con' (B "connectivity") [] xc -> array_xml (of_ints o) (B "offsets") [] xo ->
    array_xml (of_ints (mkI "int64" 8 ts)) (B "types") [] xt ->
    sections_xml (i_vals o) (i_vals t) secs xs -> pieces_xml calls ys ->
    pieces_xml (NewPiece p con o t :: secs ++ calls)
      (Node "Piece" [("NumberOfPoints", B (str_of_Z (Zlen (a_rows p)))); ("NumberOfCells", B (str_of_Z (Zlen (i_vals o))))]
         (Node "Points" [] [xp] :: Node "Cells" [] [xc; xo; xt] :: xs) :: ys).
Definition document (calls : list call) (x : xml) : Prop :=
  exists ps, pieces_xml calls ps /\
    x = Node "VTKFile" [("type", B "UnstructuredGrid"); ("version", B "1.0"); ("byte_order", B "LittleEndian"); ("header_type", B "UInt64")] [Node "UnstructuredGrid" [] ps].

(** Names that need no escaping. *)
Definition plain_names (c : call) : Prop :=
  match c with
  | AddData _ n cs | AddCellpoints _ n cs => forallb value_char n = true /\ Forall (fun m => forallb value_char m = true) cs
  | _ => True
  end.

(** ** Reordering *)

(** Corner nodes and nodes at the middle of sides, by place in Sesam's numbering
    (alternating along the sides). *)
Definition corners (t : Z) : list nat :=
  if t =? 23 then [0; 2]%nat else if t =? 26 then [0; 2; 4]%nat else if t =? 28 then [0; 2; 4; 6]%nat else [].
Definition middles (t : Z) : list nat :=
  if t =? 23 then [1]%nat else if t =? 26 then [1; 3; 5]%nat else if t =? 28 then [1; 3; 5; 7]%nat else [].
(** [seg'] holds the entries of [seg] with the positions [ind]. *)
Definition pick_at {R} (ind : list nat) (seg seg' : list R) : Prop := map Some seg' = map (nth_error seg) ind.
(** Offsets are the running totals of the sizes. *)
Fixpoint ends {A} (start : Z) (segs : list (list A)) : list Z :=
  match segs with [] => [] | s :: r => (start + Zlen s) :: ends (start + Zlen s) r end.
