(** * AssemblySpec: the files of an assembly of superelements *)
From Verif Require Import Base Flt SeqFile H5 Schema Files StoreSpec LayoutSpec FileSpec SifNameSpec Convert ConvertSpec.
Open Scope string_scope.
Open Scope Z_scope.
Open Scope list_scope.

(** ** Files *)

(** Lines end with LF, CR LF or CR. *)
Inductive unified : list ascii -> list ascii -> Prop :=
| un_nil : unified [] []
| un_crlf b bs : unified b bs -> unified ("013" :: "010" :: b)%char ("010" :: bs)%char
| un_cr b bs : hd_error b <> Some "010"%char -> unified b bs -> unified ("013" :: b)%char ("010" :: bs)%char
| un_other c b bs : c <> "013"%char -> unified b bs -> unified (c :: b) (c :: bs).
(** The bytes of a file and its text or, after the first byte, K, its blocks. *)
Inductive contents : SeqFile.kind -> list ascii -> list ascii -> Prop :=
| contents_unf bs : contents Unf ("K"%char :: bs) bs
| contents_fmt b bs : hd_error b <> Some "K"%char -> unified b bs -> contents Fmt b bs.

(** ** Assemblies *)

(** A HIERARCH record and the place it describes; the records of a file in
    order. *)
Definition says (e : entry) (i : nat) (z : Z) : Prop := exists f, nth_error (e_row e) i = Some (PF f) /\ trunc_is f z.
Definition says_place (e : entry) (p : place) : Prop :=
  says e 1 (pl_ref p) /\ says e 2 (pl_type p) /\ says e 3 (pl_rep p) /\ says e 4 (pl_level p).
Definition hierarchy_of (segs : list seg) (ps : list place) : Prop := Forall2 says_place (entries_of "HIERARCH" segs) ps.
(** The number of a place is its position. *)
Definition in_order (ps : list place) : Prop := forall i p, nth_error ps i = Some p -> pl_ref p = Z.of_nat i + 1.

(** The places below the top whose files belong to the assembly, and their files. *)
Definition results_ext (ext : string) : bool := String.eqb ext "SIF" || String.eqb ext "SIU".
Definition lower_places (ext : string) (ps : list place) : list place :=
  filter (fun p => if results_ext ext then pl_level p =? 1 else pl_rep p =? 1) (tl ps).
Definition lower_file (pre ext : string) (p : place) : string :=
  if results_ext ext then results_name pre ext p else model_name pre ext (pl_type p).
(** Group of the file of a place, the number of the top superelement being [t]. *)
Definition lower_index (letter : string) (p : place) : option Z := if String.eqb letter "R" then Some (pl_rep p) else None.
Definition lower_group (pre letter : string) (t : Z) (p : place) : path := sub_group pre letter t (pl_type p) (lower_index letter p).

(** The top file [b] of superelement [id], read with the group prefix [pre],
    and the files of the directory for the places below it. *)
Record assembly (d : dir) (fpre letter ext pre : string) (k : SeqFile.kind) (id : Z) (b : list ascii) (segs : list seg) (ps : list place) : Prop := {
  as_id : id <> 0;
  as_top : exists bs, contents k b bs /\ file_of [] k id false bs segs;
  as_some : some_record segs;
  as_places : hierarchy_of segs ps;
  as_order : in_order ps;
  as_lower : forall p b, In p (lower_places ext ps) -> file_in d (lower_file fpre ext p) = Some b ->
    pl_type p <> 0 /\ exists bs segs', contents k b bs /\ file_of [] k (pl_type p) true bs segs' /\ some_record segs';
  as_groups : NoDup (map (lower_group pre letter id) (lower_places ext ps)) }.

(** The group of the top file, and the nodes of a data set. *)
Definition nm_of (pre letter : string) (t : Z) : string := (pre ++ letter ++ str_of_Z t)%string.
Definition nodes_of (w q : path) : Prop := q = w \/ In q (all_own w).
(** Nothing of that name is stored. *)
Definition unused (nm : string) (h : h5) : Prop := forall q, hd_error q = Some nm -> h5_find q h = None.
(** The letters as they are written in names of groups. *)
Definition upper_letter (l : string) : Prop := In l ["R"; "T"; "L"; "G"].

(** The data of the file of a place is in its group, whichever way its records
    are described. *)
Definition place_read (h : h5) (pre letter : string) (t : Z) (k : SeqFile.kind) (p : place) (b : list ascii) : Prop :=
  forall bs segs, contents k b bs -> file_of [] k (pl_type p) true bs segs -> some_record segs ->
    tables h (lower_group pre letter t p) segs /\
    labelled h (lower_group pre letter t p) letter (pl_type p) (lower_index letter p) (Below (pl_level p)) segs.

(** The records that every hydrodynamic file has: result references, and gravity,
    density and depth. *)
Definition definitions (segs : list seg) : Prop := entries_of "WDRESREF" segs <> [] /\ entries_of "WGLOBDEF" segs <> [].
Definition complete (letter : string) (segs : list seg) : Prop := letter = "G" -> definitions segs.

(** The class of the data object of a top file. *)
Inductive opens_as : string -> hpos -> Files.kind -> Prop :=
| op_alone f : In f ["R"; "T"; "L"] -> opens_as f Alone KFirst
| op_top f l : In f ["T"; "L"] -> opens_as f (Top l) KTop
| op_topR l : l <> 1 -> opens_as "R" (Top l) KTop
| op_topR1 : opens_as "R" (Top 1) KFirst
| op_hydro p : opens_as "G" p KHydro.
(** The class of the data object of a file below the top, by its level. *)
Inductive below_as : string -> Z -> Files.kind -> Prop :=
| below_R l : below_as "R" l KFirst
| below_inter f l : In f ["T"; "L"] -> 1 < l -> below_as f l KInter
| below_first f l : In f ["T"; "L"] -> l <= 1 -> below_as f l KFirst.
(** Names in alphabetical order. *)
Definition str_lt (s t : string) : Prop := String.compare s t = Lt.
Definition under (top sub : string) : string := (top ++ "/" ++ sub)%string.
