(** * ParserSpec: runs of records on a file.

    [layout] (see LayoutSpec) says how a record of some type is laid out on the
    file and which values it carries; here only its place in a run of records
    of the same type is described. *)
From Verif Require Import Base Flt SeqFile H5 Schema SeqSpec StoreSpec.
Open Scope string_scope.
Open Scope Z_scope.
Open Scope list_scope.

(** What later records may depend on: element types by internal number
    (GELMNT1), result point data by coordinate reference and by (alternative,
    element) (RDPOINTS), complex flag by result reference (RDRESREF), number of
    components by component record (RDxxx). *)
Record ctx : Type := mkX {
  x_elem : Z -> option Z;
  x_points : Z -> option (Z * Z * Z * Z);
  x_nsp : Z * Z -> option Z;
  x_compl : Z -> option Z;
  x_lenrec : string * Z -> option Z }.

(** A record: header numbers, continuation bytes, what it says. *)
Record item : Set := mkItem { i_fs : list flt; i_bs : list ascii; i_entry : entry }.

Section Run.
  (** [layout k c name it rest c']: after [c], a record of type [name] on a file
      of kind [k] with these bytes, followed by [rest], says [i_entry it]. *)
  Variable layout : kind -> ctx -> string -> item -> list ascii -> ctx -> Prop.

  (** A run of records of one type, the header of the first one already read;
      then the header of another record (or the end), then [tail]. *)
  Inductive enc_run (k : kind) (name : string) :
    ctx -> item -> list item -> ctx -> string -> list flt -> list ascii -> list ascii -> Prop :=
  | run_last c it c' n fs bs tail :
      layout k c name it bs c' -> enc_next k n fs bs tail -> n <> name ->
      enc_run k name c it [] c' n fs (i_bs it ++ bs) tail
  | run_more c it c1 it2 its c' n fs hb bs tail :
      layout k c name it (hb ++ bs) c1 -> enc_header k name (i_fs it2) hb ->
      enc_run k name c1 it2 its c' n fs bs tail ->
      enc_run k name c it (it2 :: its) c' n fs (i_bs it ++ hb ++ bs) tail.
End Run.

(** ** Where records are stored: table and companion arrays of record type [n]
    in the group [w] *)
Definition arr_names (n : string) : list string := map (fun a => lower_s n ++ "_" ++ fst a)%string (atoms_of n).
Definition elts_of (n : string) : list ctype := map snd (atoms_of n).
Definition tpath (w : path) (n : string) : path := w ++ [lower_s n].
Definition apaths (w : path) (n : string) : list path := map (fun m => w ++ [m]) (arr_names n).
Definition own (w : path) (n : string) : list path := tpath w n :: apaths w n.

(** Columns of the table: those of the record, and a range per companion array. *)
Definition descr_of (n : string) : descr :=
  columns n ++ flat_map (fun a => [(fst a ++ "_start", TI); (fst a ++ "_stop", TI)]%string) (atoms_of n).
Definition cols_of (n : string) : list ctype := map snd (descr_of n).

(** The store holds the table of record type [n] with this content. *)
Definition holds (h : h5) (w : path) (n : string) (c : content) : Prop :=
  h5_find (tpath w n) h = Some (Table (descr_of n) (c_rows c)) /\
  Forall2 (fun at_ a => h5_find (fst at_) h = Some (Arr (snd at_) a)) (combine (apaths w n) (elts_of n)) (c_arrs c).

(** Paths of the groups that lead to [w]. *)
Definition leads (q w : path) : Prop := exists r, q <> [] /\ w = q ++ r.

(** [w] and everything above it is absent or a group. *)
Definition groupable (h : h5) (w : path) : Prop := forall q, leads q w ->
  match h5_find q h with None => True | Some (Group _) => True | _ => False end.
(** [w] and everything above it is a group. *)
Definition grouped (h : h5) (w : path) : Prop := forall q, leads q w -> exists a, h5_find q h = Some (Group a).
(** The same nodes, apart from new groups leading to [w] and from [ps]. *)
Definition same_but (h h' : h5) (w : path) (ps : list path) : Prop := forall q, ~ In q ps ->
  h5_find q h' = h5_find q h \/ (leads q w /\ h5_find q h = None /\ h5_find q h' = Some (Group [])).

(** Content before a record is stored: what is there, or nothing. *)
Definition base_content (n : string) (oc : option content) : content :=
  match oc with Some c => c | None => mkC [] (map (fun _ => []) (atoms_of n)) end.
