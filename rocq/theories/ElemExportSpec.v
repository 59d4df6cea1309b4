(** * ElemExportSpec: when a VTK file shows element results at the nodes. *)
From Verif Require Import Base Flt H5 Schema Data Struc SeqSpec FileSpec StrucSpec StrucRes SaysSpec Nd ElemSpec ElemResSpec ElemValuesSpec Vtu VtuSpec Export ExportSpec ElemExport.
Open Scope string_scope.
Open Scope Z_scope.
Open Scope list_scope.

(** ** The mesh *)
(** The first element has the first points, the second the following ones, and so
    on: those of an element in VTK's order. *)
Inductive own_points : nat -> list melem -> list (Z * list Z) -> Prop :=
| own_nil k : own_points k [] []
| own_cons k e c es cells : vtk_cell (el_typ e) (fst c) -> in_vtk_order (el_typ e) (map Z.of_nat (seq k (length (el_nodes e)))) (snd c) ->
    own_points (k + length (el_nodes e)) es cells -> own_points k (e :: es) (c :: cells).
(** The points are where the nodes of the elements are, element by element. *)
Definition at_their_nodes (ns : list mnode) (es : list melem) (points : list (list flt)) : Prop :=
  Forall2 (fun z p => exists j n, z = no_of j /\ nth_error ns j = Some n /\ n_xyz n = map CF p) (flat_map el_nodes es) points.

(** ** The results *)
Definition item_array {F} (t : string) (item : F -> bytes) (name : bytes) (nc : nat) (rows : list (list F)) (x : xml) : Prop :=
  data_array t name nc (flat_map item (concat rows)) x /\ Forall (fun r => length r = nc) rows.
(** Of the numbers at a node those of a surface. *)
Definition on_surface {F} (s : option nat) (nc : nat) (row : list F) : list F :=
  match s with None => row | Some i => firstn nc (skipn (i * nc) row) end.

(** A field asked for: where it comes from, the one result case, the axes of the
    numbers at a node, the number of components shown, VTK's name of the type. *)
Record esource (F : Type) : Type := mkEsource {
  es_fld : efld F; es_rn : string; es_cn : string; es_blocks : list eblock; es_cs : option (list Z); es_ref : ref;
  es_shape : list nat; es_comps : nat; es_vtk : string }.
Arguments mkEsource {F}.
Arguments es_fld {F}. Arguments es_rn {F}. Arguments es_cn {F}. Arguments es_blocks {F}. Arguments es_cs {F}.
Arguments es_ref {F}. Arguments es_shape {F}. Arguments es_comps {F}. Arguments es_vtk {F}.
Definition esource_on {F} (segs : list seg) (es : list melem) (rs : list ref) (idx : list nat) (kind : string) (q : esource F) : Prop :=
  In (ef_type (es_fld q), (es_rn q, es_cn q, kind)) result_kinds /\
  elemres_on segs (es_rn q) es (es_blocks q) /\ cases_arg (es_cs q) (ef_cases (es_fld q)) /\ asked_refs (ef_run (es_fld q)) (es_cs q) rs [es_ref q] /\
  rf_complex (es_ref q) = 0 /\
  (* one block of the case, the elements in the order of the mesh *)
  (exists l1 vs l2, es_blocks q = l1 ++ (rf_ires (es_ref q), vs) :: l2 /\ ~ In (rf_ires (es_ref q)) (map fst (l1 ++ l2)) /\
    map fst (filter (fun ev => existsb (Nat.eqb (fst ev)) idx) vs) = idx) /\
  (* as many numbers in a record as its element asks for *)
  (forall j e, In j idx -> nth_error es j = Some e -> exists len, In (el_typ e, (len, length (el_nodes e), es_shape q)) (elem_sizes (ef_type (es_fld q))) /\
     forall b v, In b (es_blocks q) -> fst b = rf_ires (es_ref q) -> In (j, v) (snd b) -> exists w, numbers 0 v w /\ length w = len) /\
  (* all numbers of a node or those of one of the surfaces *)
  match ef_surface (es_fld q) with
  | None => es_shape q = [es_comps q]
  | Some i => exists k, es_shape q = [k; es_comps q] /\ (i < k)%nat
  end /\
  In (dt_name (ef_dtype (es_fld q)), dt_size (ef_dtype (es_fld q)), es_vtk q) [("float32", 4%nat, "Float32"); ("float64", 8%nat, "Float64")] /\
  forall v, length (dt_item (ef_dtype (es_fld q)) v) = dt_size (ef_dtype (es_fld q)).

Section Shows.
  Context {F : Type}.
  Variables (zero one : F) (add mul sub : F -> F -> F) (opp : F -> F) (div : F -> F -> F) (s3 : F) (num : cell -> F).
  (** For each element, for each of its nodes, a row of numbers: those of the field
      that has the numbers of the element's record at the result points. *)
  Definition shows_elem (es : list melem) (idx : list nat) (q : esource F) (x : xml) : Prop :=
    exists rows : list (list (list F)),
      Forall2 (fun j r => exists e b v w, nth_error es j = Some e /\ In b (es_blocks q) /\ fst b = rf_ires (es_ref q) /\ In (j, v) (snd b) /\ numbers 0 v w /\
        length r = length (el_nodes e) /\ Forall (fun p => length p = fold_right Nat.mul 1%nat (es_shape q)) r /\
        node_values zero one add mul sub opp div s3 (el_typ e) (ef_type (es_fld q)) (map num w) (concat r)) idx rows /\
      item_array (es_vtk q) (dt_item (ef_dtype (es_fld q))) (ef_name (es_fld q)) (es_comps q)
        (map (on_surface (ef_surface (es_fld q)) (es_comps q)) (concat rows)) x.
End Shows.
