(** * ExportSpec: what a VTK file of an unstructured grid says, and when it shows the
    mesh and the node results of a Sesam file. *)
From Verif Require Import Base Flt H5 Schema Data Struc SeqSpec FileSpec StrucSpec StrucRes SaysSpec Vtu VtuSpec Export.
Open Scope string_scope.
Open Scope Z_scope.
Open Scope list_scope.

(** ** Arrays *)
(** Numbers in single precision, one after the other. *)
Inductive singles : bytes -> list flt -> Prop :=
| singles_nil : singles [] []
| singles_cons b v bs vs : single_bytes b v -> singles bs vs -> singles (b ++ bs) (v :: vs).
(** Whole numbers in [n] bytes, two's complement. *)
Definition signed (n : nat) (b : bytes) (z : Z) : Prop :=
  length b = n /\ exists u, unsigned b u /\ (z = u /\ 2 * u < 256 ^ Z.of_nat n \/ z = u - 256 ^ Z.of_nat n /\ 256 ^ Z.of_nat n <= 2 * u).
Inductive integers (n : nat) : bytes -> list Z -> Prop :=
| integers_nil : integers n [] []
| integers_cons b z bs zs : signed n b z -> integers n bs zs -> integers n (b ++ bs) (z :: zs).
(** A DataArray element: base64 of the count of the bytes (in 8 bytes) and the
    bytes. *)
Definition data_array (t : string) (name : bytes) (nc : nat) (data : bytes) (x : xml) : Prop :=
  exists header payload,
    x = Text "DataArray" [("type", B t); ("Name", name); ("NumberOfComponents", B (str_of_Z (Z.of_nat nc))); ("format", B "binary")] payload /\
    b64decode payload = Some (header ++ data) /\ length header = 8%nat /\ unsigned header (Zlen data).
Definition real_array (name : bytes) (nc : nat) (rows : list (list flt)) (x : xml) : Prop :=
  exists data, data_array "Float32" name nc data x /\ singles data (concat rows) /\ Forall (fun r => length r = nc) rows.
Definition whole_array (name : bytes) (zs : list Z) (x : xml) : Prop :=
  exists t n data, In (t, n) [("Int32", 4%nat); ("Int64", 8%nat)] /\ data_array t name 1 data x /\ integers n data zs.

(** ** Grids *)
(** Points, cells (VTK's type, points by number), named data of the points. *)
Record grid : Set := mkGrid { g_points : list (list flt); g_cells : list (Z * list Z); g_data : list (bytes * nat * list (list flt)) }.
(** The bytes of the file, up to the arrays [xs] of data of the points. *)
Definition vtu_parts (text : bytes) (points : list (list flt)) (cells : list (Z * list Z)) (xs : list xml) : Prop :=
  exists xp xc xo xt,
    text = render 0 (Node "VTKFile" [("type", B "UnstructuredGrid"); ("version", B "1.0"); ("byte_order", B "LittleEndian"); ("header_type", B "UInt64")]
      [Node "UnstructuredGrid" []
        [Node "Piece" [("NumberOfPoints", B (str_of_Z (Zlen points))); ("NumberOfCells", B (str_of_Z (Zlen cells)))]
          [Node "Points" [] [xp]; Node "Cells" [] [xc; xo; xt]; Node "PointData" [] xs]]]) /\
    real_array (B "points") 3 points xp /\
    whole_array (B "connectivity") (flat_map snd cells) xc /\
    whole_array (B "offsets") (totals (map snd cells)) xo /\
    whole_array (B "types") (map fst cells) xt.
Definition vtu_file (text : bytes) (g : grid) : Prop :=
  exists xs, vtu_parts text (g_points g) (g_cells g) xs /\
    Forall2 (fun d x => real_array (fst (fst d)) (snd (fst d)) (snd d) x) (g_data g) xs.

(** ** Showing a mesh *)
(** The element types with straight sides have VTK's order of nodes; the others have
    the corners first. *)
Definition in_vtk_order (t : Z) (l l' : list Z) : Prop :=
  if (t =? 23) || (t =? 26) || (t =? 28) then pick_at (corners t ++ middles t) l l' else l' = l.
(** [nd]: the nodes of the points, by position in the file; [order]: the order of the
    nodes in the cells. *)
Definition shows_by (order : Z -> list Z -> list Z -> Prop) (ns : list mnode) (es : list melem) (nd : list nat) (g : grid) : Prop :=
  Forall2 (fun j p => exists n, nth_error ns j = Some n /\ n_xyz n = map CF p) nd (g_points g) /\
  Forall2 (fun e c => vtk_cell (el_typ e) (fst c) /\
      exists l, order (el_typ e) (el_nodes e) l /\
        Forall2 (fun z i => 0 <= i /\ exists j, nth_error nd (Z.to_nat i) = Some j /\ z = no_of j) l (snd c)) es (g_cells g).
Definition shows_mesh := shows_by in_vtk_order.

(** ** Showing results *)
(** A field asked for: the records it comes from, the results by case, the one
    result case asked for. *)
Record source : Set := mkSource { q_fld : fld; q_rn : string; q_cn : string; q_blocks : list block; q_cs : option (list Z); q_ref : ref }.
Definition source_on (segs : list seg) (nn : nat) (rs : list ref) (q : source) : Prop :=
  In (f_type (q_fld q), q_rn q, q_cn q) [("displacement", "RVNODDIS", "dis"); ("velocity", "RVNODVEL", "vel"); ("acceleration", "RVNODACC", "acc")] /\
  noderes_on segs (q_rn q) nn (q_blocks q) /\ cases_arg (q_cs q) (f_cases (q_fld q)) /\ asked_refs (f_run (q_fld q)) (q_cs q) rs [q_ref q] /\
  rf_complex (q_ref q) = 0 /\
  exists l1 vs l2, q_blocks q = l1 ++ (rf_ires (q_ref q), vs) :: l2 /\ ~ In (rf_ires (q_ref q)) (map fst (l1 ++ l2)) /\ Forall (fun v => length v = 6%nat) vs.
Definition shows_field (nd : list nat) (q : source) (d : bytes * nat * list (list flt)) : Prop :=
  fst (fst d) = f_name (q_fld q) /\ snd (fst d) = (if f_cut (q_fld q) then 3%nat else 6%nat) /\
  Forall2 (fun j w => exists v, value_at (q_blocks q) (rf_ires (q_ref q)) j v /\ map CF w = firstn (snd (fst d)) v) nd (snd d).

(** Element types that are drawn in the right order, with their numbers of nodes. *)
Definition drawn (e : melem) : Prop :=
  In (el_typ e, length (el_nodes e)) [(15, 2%nat); (23, 3%nat); (24, 4%nat); (25, 3%nat); (28, 8%nat)].
(** Triangles with six nodes are left in Sesam's order. *)
Definition six_nodes (e : melem) : Prop := el_typ e = 26 /\ length (el_nodes e) = 6%nat.
Definition in_given_order (t : Z) (l l' : list Z) : Prop :=
  if (t =? 23) || (t =? 28) then pick_at (corners t ++ middles t) l l' else l' = l.
