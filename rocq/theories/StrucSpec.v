(** * StrucSpec: meshes, sets and results as found in a data set.

    Specification side of the structural getters.  Shared with the model: the
    store and what it holds ([holds]). *)
From Coq Require Import Sorted.
From Verif Require Import Base Flt H5 Schema StoreSpec ParserSpec.
Open Scope string_scope.
Open Scope Z_scope.
Open Scope list_scope.

(** A node: external number and coordinates.  An element: external number, type
    and the numbers of its nodes.  The internal number is the position, counted
    from one. *)
Record mnode : Set := mkNode { n_ext : Z; n_xyz : list cell }.
Record melem : Set := mkElem { el_ext : Z; el_typ : Z; el_nodes : list Z }.
Definition no_of (j : nat) : Z := Z.of_nat j + 1.

(** Number of element nodes before the [j]-th element. *)
Definition before (es : list melem) (j : nat) : Z := Zlen (flat_map el_nodes (firstn j es)).

Definition nodes_in (h : h5) (w : path) (ns : list mnode) : Prop :=
  exists rows, holds h w "GNODE" (mkC rows []) /\ length rows = length ns /\
    forall j n, nth_error ns j = Some n -> exists a b, nth_error rows j = Some [CI (n_ext n); CI (no_of j); CI a; CI b].
Definition coords_in (h : h5) (w : path) (ns : list mnode) : Prop :=
  exists rows, holds h w "GCOORD" (mkC rows []) /\ length rows = length ns /\
    forall j n, nth_error ns j = Some n -> length (n_xyz n) = 3%nat /\ nth_error rows j = Some (CI (no_of j) :: n_xyz n).
Definition elems_in (h : h5) (w : path) (es : list melem) : Prop :=
  exists rows, holds h w "GELMNT1" (mkC rows [map CI (flat_map el_nodes es)]) /\ length rows = length es /\
    forall j e, nth_error es j = Some e -> exists a,
      nth_error rows j = Some [CI (el_ext e); CI (no_of j); CI (el_typ e); CI a; CI (before es j); CI (before es (S j))].
(** Nodes and elements of a data set; every element has nodes, and they exist. *)
Definition mesh_in (h : h5) (w : path) (ns : list mnode) (es : list melem) : Prop :=
  nodes_in h w ns /\ coords_in h w ns /\ elems_in h w es /\
  Forall (fun e => el_nodes e <> [] /\ Forall (fun z => 1 <= z <= Zlen ns) (el_nodes e)) es.

(** ** Sets: names with their numbers; member records: number of the set, 1 for
    nodes and 2 for elements, the members. *)
Definition setname := (list ascii * Z)%type.
Definition memrec := (Z * Z * list Z)%type.
Definition setnames_in (h : h5) (w : path) (nms : list setname) : Prop :=
  exists rows texts, holds h w "TDSETNAM" (mkC rows [texts]) /\
    Forall2 (fun nm row => exists a b c r1 r2, row = [CI a; CI (snd nm); CI b; CI c; CS (fst nm); CI r1; CI r2]) nms rows.
Definition members_in (h : h5) (w : path) (ms : list memrec) : Prop :=
  exists rows arr, holds h w "GSETMEMB" (mkC rows [arr]) /\
    Forall2 (fun m row => exists a i o r1 r2,
      row = [CI a; CI (fst (fst m)); CI i; CI (snd (fst m)); CI o; CI r1; CI r2] /\ 0 <= r1 <= r2 /\ r2 <= Zlen arr /\
      firstn (Z.to_nat (r2 - r1)) (skipn (Z.to_nat r1) arr) = map CI (snd m)) ms rows.
(** The number of a set; of several with the same name the first counts. *)
Definition set_no (nms : list setname) (nm : list ascii) (i : Z) : Prop :=
  exists pre post, nms = pre ++ (nm, i) :: post /\ ~ In nm (map fst pre).
(** [z] is the number of an element in the set [nm]. *)
Definition in_set (nms : list setname) (ms : list memrec) (nm : list ascii) (z : Z) : Prop :=
  exists i l, set_no nms nm i /\ In (i, 2, l) ms /\ In z l.

(** ** Selections *)
Definition beam_types : list Z := [15; 23].
Definition shell_types : list Z := [24; 25; 26; 28].
Definition of_kind (kind : string) (t : Z) : Prop :=
  kind = "" \/ (kind = "beam" /\ In t beam_types) \/ (kind = "shell" /\ In t shell_types).
(** Elements (by position) in one of the sets, if any are given, and of the
    kind, if one is given. *)
Definition wanted (es : list melem) (nms : list setname) (ms : list memrec) (sets : list (list ascii)) (kind : string) (j : nat) : Prop :=
  exists e, nth_error es j = Some e /\
    (sets = [] \/ exists nm, In nm sets /\ in_set nms ms nm (no_of j)) /\ of_kind kind (el_typ e).
(** [idx]: the elements wanted, each once, in increasing order. *)
Definition selected (es : list melem) (nms : list setname) (ms : list memrec) (sets : list (list ascii)) (kind : string) (idx : list nat) : Prop :=
  StronglySorted lt idx /\ forall j, In j idx <-> wanted es nms ms sets kind j.
(** A proper selection: the sets are known, have elements as members and these
    exist; the kind is a kind. *)
Definition proper (h : h5) (w : path) (es : list melem) (nms : list setname) (ms : list memrec) (sets : list (list ascii)) (kind : string) : Prop :=
  (sets <> [] -> setnames_in h w nms /\ members_in h w ms /\
     (forall nm, In nm sets -> exists i, set_no nms nm i) /\
     (exists nm i l, In nm sets /\ set_no nms nm i /\ In (i, 2, l) ms) /\
     (forall nm z, In nm sets -> in_set nms ms nm z -> 1 <= z <= Zlen es)) /\
  In kind [""; "beam"; "shell"].

(** The elements of a selection. *)
Definition pick {A} (l : list A) (idx : list nat) : list A :=
  flat_map (fun j => match nth_error l j with Some x => [x] | None => [] end) idx.
(** Running totals *)
Definition totals (ls : list (list Z)) : list Z :=
  map (fun i => Zlen (concat (firstn (S i) ls))) (seq 0 (length ls)).

(** C26: element by element and node by node, the entry of the connectivity is
    the place of that node among the nodes [nidx] (by position in the file), and in
    the array of coordinates. *)
Definition fits_nodes (ns : list mnode) (nidx : list nat) (pts : list (list cell)) (nos : list Z) (con : list Z) : Prop :=
  Forall2 (fun z c => 0 <= c /\ exists j n, nth_error nidx (Z.to_nat c) = Some j /\ z = no_of j /\ nth_error ns j = Some n /\
                      nth_error pts (Z.to_nat c) = Some (n_xyz n)) nos con.
(** The nodes (by position) a selection consists of. *)
Definition selected_nodes (ns : list mnode) (es : list melem) (whole disconnected : bool) (idx : list nat) (nidx : list nat) : Prop :=
  if disconnected then map no_of nidx = flat_map el_nodes (pick es idx)
  else StronglySorted lt nidx /\
       forall j, In j nidx <-> if whole then (j < length ns)%nat else In (no_of j) (flat_map el_nodes (pick es idx)).
Definition nosel (sets : list (list ascii)) (kind : string) : bool :=
  match sets with [] => String.eqb kind "" | _ => false end.

(** ** Results *)
(** A result reference: internal number, run, external case number, 0 for real. *)
Record ref : Set := mkRef { rf_ires : Z; rf_run : Z; rf_case : Z; rf_complex : Z }.
Definition ref_row (r : ref) (row : list cell) : Prop := exists a b c r1 r2,
  row = [CI a; CI (rf_ires r); CI (rf_run r); CI (rf_case r); CI b; CI (rf_complex r); CI c; CI r1; CI r2].
Definition refs_in (h : h5) (w : path) (rs : list ref) : Prop :=
  exists rows arr, holds h w "RDRESREF" (mkC rows [arr]) /\ Forall2 ref_row rs rows.
(** The cases asked for: all, or those listed. *)
Inductive subseq {A} (P : A -> Prop) : list A -> list A -> Prop :=
| sub_nil : subseq P [] []
| sub_in x l m : P x -> subseq P l m -> subseq P (x :: l) (x :: m)
| sub_out x l m : ~ P x -> subseq P l m -> subseq P (x :: l) m.
Definition asked_refs (run : Z) (cases : option (list Z)) (rs sel : list ref) : Prop :=
  subseq (fun r => rf_run r = run /\ match cases with None => True | Some l => In (rf_case r) l end) rs sel.

(** Node results given per case and in node order: internal case number and the values by node. *)
Definition block := (Z * list (list cell))%type.
Definition flat (bs : list block) : list (Z * nat * list cell) :=
  flat_map (fun b => map (fun jv => (fst b, fst jv, snd jv)) (combine (seq 0 (length (snd b))) (snd b))) bs.
Definition noderes_in (h : h5) (w : path) (rn : string) (nn : nat) (bs : list block) : Prop :=
  exists rows arr, holds h w rn (mkC rows [arr]) /\
    Forall (fun b => length (snd b) = nn) bs /\
    Forall2 (fun x row => exists a b c r1 r2,
      row = [CI a; CI (fst (fst x)); CI (no_of (snd (fst x))); CI b; CI c; CI r1; CI r2] /\ 0 <= r1 <= r2 /\ r2 <= Zlen arr /\
      firstn (Z.to_nat (r2 - r1)) (skipn (Z.to_nat r1) arr) = snd x) (flat bs) rows.
(** [v]: the values of case [i] at the [j]-th node *)
Definition value_at (bs : list block) (i : Z) (j : nat) (v : list cell) : Prop :=
  exists l, In (i, l) bs /\ nth_error l j = Some v.
(** [w]: the six components of a real or complex result stored as [v] *)
Definition shown (complex : Z) (v w : list cell) : Prop :=
  length w = 6%nat /\
  (if complex =? 0 then w = v
   else exists ps, v = flat_map (fun p => [CF (fst p); CF (snd p)]) ps /\ w = map (fun p => CC (fst p) (snd p)) ps).

(** ** Properties of elements: the geometry number an element refers to, and
    the properties by geometry number *)
Definition geo_in (h : h5) (w : path) (gs : list Z) : Prop :=
  exists rows arrs, holds h w "GELREF1" (mkC rows arrs) /\
    Forall2 (fun jg r => exists a b, length a = 7%nat /\ r = CI (no_of (fst jg)) :: a ++ CI (snd jg) :: b) (combine (seq 0 (length gs)) gs) rows.
Definition sections_in (h : h5) (w : path) (ps : list (Z * list cell)) : Prop :=
  exists rows, holds h w "GBEAMG" (mkC rows []) /\ Forall2 (fun p r => r = CI (fst p) :: snd p) ps rows.
Definition thicknesses_in (h : h5) (w : path) (ps : list (Z * cell)) : Prop :=
  exists rows, holds h w "GELTH" (mkC rows []) /\ Forall2 (fun p r => exists c, r = [CI (fst p); snd p; c]) ps rows.
(** The last one with the number, the only one if numbers are not repeated. *)
Definition of_number {A} (ps : list (Z * A)) (g : Z) (v : A) : Prop :=
  exists l1 l2, ps = l1 ++ (g, v) :: l2 /\ ~ In g (map fst l2).

(** ** Load case names: number and name *)
Definition loads_in (h : h5) (w : path) (ls : list (Z * list ascii)) : Prop :=
  exists rows arr, holds h w "TDLOAD" (mkC rows [arr]) /\
    Forall2 (fun l row => exists a b c r1 r2, row = [CI a; CI (fst l); CI b; CI c; CS (snd l); CI r1; CI r2]) ls rows.

(** ** Entries of disconnected results: [i] is the entry of one of the nodes
    [nodeno] of the element [elno]; elements given by number and nodes. *)
Definition entry_of (els : list (Z * list Z)) (elno nodeno i : Z) : Prop :=
  exists pre nds post k, els = pre ++ (elno, nds) :: post /\ nth_error nds k = Some nodeno /\
    i = Zlen (flat_map snd pre) + Z.of_nat k.
