(** * SaysSpec: what the records of a file say about a structure.

    An [entry] is what a record says (LayoutSpec, FileSpec tie it to the bytes of
    the file); here the records of a file are related to nodes, elements, sets and
    results (StrucSpec).  No store is involved. *)
From Verif Require Import Base Flt SeqFile H5 Schema Files SeqSpec StoreSpec ParserSpec LayoutSpec FileSpec DataSpec RecordSpec StrucSpec ElemResSpec
  SifNameSpec Convert ConvertSpec AssemblySpec.
Open Scope string_scope.
Open Scope Z_scope.
Open Scope list_scope.

(** ** Numbers and texts of a record *)
(** the [i]-th number: whole, real (in single precision), text *)
Definition int_at (e : entry) (i : nat) (z : Z) : Prop := exists f, nth_error (e_row e) i = Some (PF f) /\ trunc_is f z.
Definition real_at (e : entry) (i : nat) (c : cell) : Prop := exists f, nth_error (e_row e) i = Some (PF f) /\ c = CF (round32 f).
Definition text_at (e : entry) (i : nat) (x : list ascii) : Prop := exists s, nth_error (e_row e) i = Some (PS s) /\ text_of 64 s x.
(** the list of numbers at the end *)
Definition int_list (e : entry) (zs : list Z) : Prop := exists fs, e_data e = [nums fs] /\ Forall2 trunc_is fs zs.
Definition real_list (e : entry) (cs : list cell) : Prop := exists fs, e_data e = [nums fs] /\ cs = reals_ fs.

(** The records of type [n], one for each of [xs], in order. *)
Definition listed {A} (n : string) (segs : list seg) (says : nat -> entry -> A -> Prop) (xs : list A) : Prop :=
  entries_of n segs <> [] /\ length (entries_of n segs) = length xs /\
  forall j e x, nth_error (entries_of n segs) j = Some e -> nth_error xs j = Some x -> says j e x.

(** ** Nodes and elements, numbered in the order of the file *)
Definition node_says (j : nat) (e : entry) (n : mnode) : Prop := int_at e 0 (n_ext n) /\ int_at e 1 (no_of j).
Definition coord_says (j : nat) (e : entry) (n : mnode) : Prop :=
  int_at e 0 (no_of j) /\ exists x y z, real_at e 1 x /\ real_at e 2 y /\ real_at e 3 z /\ n_xyz n = [x; y; z].
Definition elem_says (j : nat) (e : entry) (el : melem) : Prop :=
  int_at e 0 (el_ext el) /\ int_at e 1 (no_of j) /\ int_at e 2 (el_typ el) /\ int_list e (el_nodes el).
Definition mesh_on (segs : list seg) (ns : list mnode) (es : list melem) : Prop :=
  listed "GNODE" segs node_says ns /\ listed "GCOORD" segs coord_says ns /\ listed "GELMNT1" segs elem_says es /\
  Forall (fun e => el_nodes e <> [] /\ Forall (fun z => 1 <= z <= Zlen ns) (el_nodes e)) es.

(** ** Sets *)
Definition setname_says (_ : nat) (e : entry) (nm : setname) : Prop := int_at e 1 (snd nm) /\ text_at e 4 (fst nm).
Definition member_says (_ : nat) (e : entry) (m : memrec) : Prop :=
  int_at e 1 (fst (fst m)) /\ int_at e 3 (snd (fst m)) /\ int_list e (snd m).
Definition sets_on (segs : list seg) (nms : list setname) (ms : list memrec) : Prop :=
  listed "TDSETNAM" segs setname_says nms /\ listed "GSETMEMB" segs member_says ms.
(** A proper selection: as in StrucSpec, said of the file. *)
Definition proper_on (segs : list seg) (es : list melem) (nms : list setname) (ms : list memrec) (sets : list (list ascii)) (kind : string) : Prop :=
  (sets <> [] -> sets_on segs nms ms /\
     (forall nm, In nm sets -> exists i, set_no nms nm i) /\
     (exists nm i l, In nm sets /\ set_no nms nm i /\ In (i, 2, l) ms) /\
     (forall nm z, In nm sets -> in_set nms ms nm z -> 1 <= z <= Zlen es)) /\
  In kind [""; "beam"; "shell"].

(** ** Results *)
Definition ref_says (_ : nat) (e : entry) (r : ref) : Prop :=
  int_at e 1 (rf_ires r) /\ int_at e 2 (rf_run r) /\ int_at e 3 (rf_case r) /\ int_at e 5 (rf_complex r).
Definition refs_on (segs : list seg) (rs : list ref) : Prop := listed "RDRESREF" segs ref_says rs.
(** node results: case, node, values *)
Definition noderes_says (_ : nat) (e : entry) (x : Z * nat * list cell) : Prop :=
  int_at e 1 (fst (fst x)) /\ int_at e 2 (no_of (snd (fst x))) /\ real_list e (snd x).
Definition noderes_on (segs : list seg) (rn : string) (nn : nat) (bs : list block) : Prop :=
  Forall (fun b => length (snd b) = nn) bs /\ listed rn segs noderes_says (flat bs).
(** element results: case, element, values; the record refers to the element type *)
Definition elemres_says (es : list melem) (_ : nat) (e : entry) (x : Z * (nat * list cell)) : Prop :=
  exists el, nth_error es (fst (snd x)) = Some el /\
    int_at e 1 (fst x) /\ int_at e 2 (no_of (fst (snd x))) /\ int_at e 4 (el_typ el) /\ real_list e (snd (snd x)).
Definition elemres_on (segs : list seg) (rn : string) (es : list melem) (bs : list eblock) : Prop :=
  listed rn segs (elemres_says es) (eflat bs).
Definition load_says (_ : nat) (e : entry) (l : Z * list ascii) : Prop := int_at e 1 (fst l) /\ text_at e 4 (snd l).
Definition loads_on (segs : list seg) (ls : list (Z * list ascii)) : Prop := listed "TDLOAD" segs load_says ls.

(** ** Properties of elements *)
Definition geo_says (j : nat) (e : entry) (g : Z) : Prop := int_at e 0 (no_of j) /\ int_at e 8 g.
Definition geo_on (segs : list seg) (gs : list Z) : Prop := listed "GELREF1" segs geo_says gs.
Definition section_says (_ : nat) (e : entry) (p : Z * list cell) : Prop :=
  int_at e 0 (fst p) /\ length (snd p) = 15%nat /\ forall i c, nth_error (snd p) i = Some c -> real_at e (S i) c.
Definition sections_on (segs : list seg) (ps : list (Z * list cell)) : Prop := listed "GBEAMG" segs section_says ps.
Definition thickness_says (_ : nat) (e : entry) (p : Z * cell) : Prop := int_at e 0 (fst p) /\ real_at e 1 (snd p).
Definition thicknesses_on (segs : list seg) (ps : list (Z * cell)) : Prop := listed "GELTH" segs thickness_says ps.

(** ** Files *)
(** The file [top] of a directory, named as SESAM does and read as superelement
    [id], with the files below it if it lists any: its records are [segs]. *)
Definition sesam_file (d : dir) (top letter : string) (id : Z) (segs : list seg) : Prop :=
  exists fp no ext k b ps,
    sesam_name (s2l top) (s2l fp, s2l letter, no, s2l ext) /\ no_extension (s2l fp) /\ ~ sin_ext (s2l ext) /\ upper_letter letter /\
    no = s2l (dec id) /\ file_in d top = Some b /\ assembly d fp letter ext fp k id b segs ps.
(** The superelement is of the lowest level. *)
Definition first_level (letter : string) (segs : list seg) : Prop :=
  In letter ["R"; "T"; "L"] /\ entries_of "HIERARCH" segs = [] \/
  letter = "R" /\ exists e es, entries_of "HIERARCH" segs = e :: es /\ int_at e 4 1.
