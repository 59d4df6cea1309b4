(** * FileSpec: what a whole file says.

    A file is a sequence of runs of records; [reads] follows it from the header
    of the next record to the end and relates what is known before (records of
    earlier types that later ones refer to, tables so far) to what is known at
    the end. *)
From Verif Require Import Base Flt SeqFile H5 Schema SeqSpec StoreSpec ParserSpec LayoutSpec.
Open Scope string_scope.
Open Scope Z_scope.
Open Scope list_scope.

(** Record types with a table, and those that are looked at only. *)
Definition stored_types : list string := map fst descriptors.
Definition known_types : list string := stored_types ++ ["IEND"; "IRECSIZE"].
(** The types whose records are described by [layout]. *)
Definition laid_types : list string :=
  filter (fun n => negb (existsb (String.eqb n) ["HIERARCH"; "IDENT"; "RSUPTRAN"; "HSUPTRAN"])) stored_types.

(** Conversion may be restricted to some record types. *)
Definition asked (only : list string) (n : string) : Prop := only = [] \/ In n only.

(** Hierarchy records and transformations. *)
Inductive hier_layout (k : kind) (c : ctx) : string -> item -> list ascii -> ctx -> Prop :=
| lay_hierarch fs a b d ns ih bs rest :
    length fs = 4%nat -> count ns (length ih) -> enc_data k Lead0 ([a; b; d; ns] ++ ih) bs ->
    hier_layout k c "HIERARCH" (mkItem fs bs (mkEntry (nums (fs ++ [a; b; d; ns])) [nums ih])) rest c.
Definition tran_types := ["RSUPTRAN"; "HSUPTRAN"].
Inductive tran_layout (k : kind) (c : ctx) : string -> item -> list ascii -> ctx -> Prop :=
| lay_suptran n nf it nf' it' x y rows v bs rest :
    In n tran_types -> trunc_is nf nf' -> trunc_is it it' ->
    matrix 4 4 rows -> concat rows = x :: y :: v -> enc_data k Lead0 v bs ->
    tran_layout k c n (mkItem [nf; it; x; y] bs (mkEntry [PI nf'; PI it'; PT (tuples rows)] [])) rest c.

(** A run of records that are passed over. *)
Inductive enc_pass (k : kind) (n : string) : list flt -> list ascii -> string -> list flt -> list ascii -> Prop :=
| pass_last fs rb bs m mfs tail :
    rest_of_record k n fs m rb -> enc_next k m mfs bs tail -> m <> n ->
    enc_pass k n fs (rb ++ bs) m mfs tail
| pass_more fs rb fs2 hb bs m mfs tail :
    rest_of_record k n fs n rb -> enc_header k n fs2 hb -> enc_pass k n fs2 bs m mfs tail ->
    enc_pass k n fs (rb ++ hb ++ bs) m mfs tail.

(** What is known at some place of the file. *)
Record fstate : Type := mkF {
  s_ctx : ctx;
  s_known : bool;                       (* superelement number seen *)
  s_hier : bool;                        (* hierarchy records seen *)
  s_tabs : string -> option content;    (* tables so far *)
  s_names : list string }.              (* record types read *)
Definition put_tab (n : string) (c : content) (t : string -> option content) : string -> option content :=
  fun m => if String.eqb m n then Some c else t m.
Definition saw (st : fstate) (n : string) : fstate :=
  mkF (s_ctx st) (s_known st) (s_hier st) (s_tabs st) (s_names st ++ [n]).

(** A run of records of one type, stored or passed over. *)
Inductive seg : Set := Run (n : string) (its : list item) | Pass (n : string)
| Look (n : string) (fs : list flt) (rest : list ascii). (* what follows the header *)

Section Reads.
  Variables (only : list string) (k : kind).
  Variable id : Z.      (* superelement number *)
  Variable sub : bool.  (* file of a lower level *)

  (** After the header ([n], [fs]) has been read, [bs] is what is left. *)
  Inductive reads : fstate -> list seg -> string -> list flt -> list ascii -> fstate -> Prop :=
  | reads_end st fs bs : reads st [] "" fs bs st
  | reads_iend st f fs bs :
      asked only "IEND" -> flt_eq f f0 = true ->
      reads st [Look "IEND" (f :: fs) bs] "IEND" (f :: fs) bs (saw st "IEND")
  | reads_run st n kinds f fs it its c' m mfs bs tail con' segs st' :
      asked only n -> In n laid_types -> s_known st = true ->
      i_fs it = f :: fs -> flt_lt f f0 = false ->
      enc_run (layout kinds) k n (s_ctx st) it its c' m mfs bs tail ->
      put_entries (cols_of n) (elts_of n) (base_content n (s_tabs st n)) (map i_entry (it :: its)) con' ->
      reads (mkF c' true (s_hier st) (put_tab n con' (s_tabs st)) (s_names st ++ [n])) segs m mfs tail st' ->
      reads st (Run n (it :: its) :: segs) n (f :: fs) bs st'
  | reads_tran st n f fs it its c' m mfs bs tail con' segs st' :
      asked only n -> In n tran_types -> s_known st = true ->
      i_fs it = f :: fs -> flt_lt f f0 = false ->
      enc_run tran_layout k n (s_ctx st) it its c' m mfs bs tail ->
      put_entries (cols_of n) (elts_of n) (base_content n (s_tabs st n)) (map i_entry (it :: its)) con' ->
      reads (mkF c' true (s_hier st) (put_tab n con' (s_tabs st)) (s_names st ++ [n])) segs m mfs tail st' ->
      reads st (Run n (it :: its) :: segs) n (f :: fs) bs st'
  (* the first of them carries the superelement number *)
  | reads_hierarch st f g x fs it its c' m mfs bs tail con' segs st' :
      sub = false ->
      asked only "HIERARCH" ->
      i_fs it = f :: g :: x :: fs -> trunc_is x id -> flt_lt f f0 = false ->
      enc_run hier_layout k "HIERARCH" (s_ctx st) it its c' m mfs bs tail ->
      put_entries (cols_of "HIERARCH") (elts_of "HIERARCH") (base_content "HIERARCH" (s_tabs st "HIERARCH"))
                  (map i_entry (it :: its)) con' ->
      reads (mkF c' true true (put_tab "HIERARCH" con' (s_tabs st)) (s_names st ++ ["HIERARCH"])) segs m mfs tail st' ->
      reads st (Run "HIERARCH" (it :: its) :: segs) "HIERARCH" (f :: g :: x :: fs) bs st'
  (* gives the superelement number, too *)
  | reads_ident st f g x fs a b d con' m mfs bs tail segs st' :
      asked only "IDENT" ->
      flt_lt f f0 = false -> trunc_is f a -> trunc_is g b -> trunc_is x d ->
      (s_known st = false -> b = id) ->
      put_entries (cols_of "IDENT") (elts_of "IDENT") (base_content "IDENT" (s_tabs st "IDENT"))
                  [mkEntry [PI a; PI b; PI d] []] con' ->
      enc_next k m mfs bs tail ->
      reads (mkF (s_ctx st) true (s_hier st) (put_tab "IDENT" con' (s_tabs st)) (s_names st ++ ["IDENT"])) segs m mfs tail st' ->
      reads st (Run "IDENT" [mkItem (f :: g :: x :: fs) [] (mkEntry [PI a; PI b; PI d] [])] :: segs) "IDENT" (f :: g :: x :: fs) bs st'
  | reads_irecsize st f g fs z m mfs bs tail segs st' :
      asked only "IRECSIZE" -> flt_lt f f0 = false -> trunc_is g z ->
      enc_next k m mfs bs tail ->
      reads (saw st "IRECSIZE") segs m mfs tail st' ->
      reads st (Look "IRECSIZE" (f :: g :: fs) bs :: segs) "IRECSIZE" (f :: g :: fs) bs st'
  (* ends nothing unless its first number is 0 *)
  | reads_iend_more st f fs m mfs bs tail segs st' :
      asked only "IEND" -> flt_lt f f0 = false -> flt_eq f f0 = false ->
      enc_next k m mfs bs tail ->
      reads (saw st "IEND") segs m mfs tail st' ->
      reads st (Look "IEND" (f :: fs) bs :: segs) "IEND" (f :: fs) bs st'
  | reads_pass st n fs m mfs bs tail segs st' :
      n <> "" ->
      (~ asked only n \/ (~ In n known_types /\ exists f l, fs = f :: l /\ flt_lt f f0 = false)) ->
      enc_pass k n fs bs m mfs tail ->
      reads st segs m mfs tail st' ->
      reads st (Pass n :: segs) n fs bs st'
  (* a negative first number: not to be read *)
  | reads_void st n f fs b bs m mfs tail segs st' :
      n <> "" -> asked only n -> flt_lt f f0 = true ->
      (flt_eq f fm5 = false /\ b = [] \/ flt_eq f fm5 = true /\ exists c, enc_cont k Lead0 c b) ->
      enc_next k m mfs bs tail ->
      reads st segs m mfs tail st' ->
      reads st (Pass n :: segs) n (f :: fs) (b ++ bs) st'.
End Reads.

(** The store has the tables of [st] in the group [w]. *)
Definition dataset (h : h5) (w : path) (st : fstate) : Prop :=
  forall n, In n stored_types ->
  match s_tabs st n with
  | Some c => holds h w n c
  | None => forall p, In p (own w n) -> h5_find p h = None
  end.

(** ** Whole files *)
Definition ctx0 : ctx := mkX (fun _ => None) (fun _ => None) (fun _ => None) (fun _ => None) (fun _ => None).
Definition start : fstate := mkF ctx0 false false (fun _ => None) [].
(** The bytes of a file and its records, in runs. *)
Definition file_of (only : list string) (k : kind) (id : Z) (sub : bool) (bs : list ascii) (segs : list seg) : Prop :=
  exists n fs tail st', enc_next k n fs bs tail /\ reads only k id sub start segs n fs tail st'.

(** All records of type [n], in file order. *)
Definition items_of (n : string) (segs : list seg) : list item :=
  flat_map (fun s => match s with Run m its => if String.eqb m n then its else [] | _ => [] end) segs.
Definition entries_of (n : string) (segs : list seg) : list entry := map i_entry (items_of n segs).
(** The record types that were read. *)
Definition seg_names (segs : list seg) : list string :=
  flat_map (fun s => match s with Run m _ => [m] | Look m _ _ => [m] | Pass _ => [] end) segs.
Definition some_record (segs : list seg) : Prop := exists n its, In (Run n its) segs.

Definition all_own (w : path) : list path := flat_map (own w) stored_types.
(** Nothing of a data set [w] is there yet. *)
Definition vacant (h : h5) (w : path) : Prop :=
  groupable h w /\ forall q, In q (all_own w) -> h5_find q h = None.
(** For each type the records of that type, in file order. *)
Definition tables (h : h5) (w : path) (segs : list seg) : Prop :=
  forall n, In n stored_types ->
  match entries_of n segs with
  | [] => forall p, In p (own w n) -> h5_find p h = None
  | es => exists con, put_entries (cols_of n) (elts_of n) (base_content n None) es con /\ holds h w n con
  end.

(** ** Labels *)
(** Each name once, in order of first appearance. *)
Inductive first_seen : list string -> list string -> Prop :=
| seen_nil : first_seen [] []
| seen_new l r x : first_seen l r -> ~ In x l -> first_seen (l ++ [x]) (r ++ [x])
| seen_again l r x : first_seen l r -> In x l -> first_seen (l ++ [x]) r.

(** Where a file stands: no hierarchy, at the top (of the given level), below
    the top (with the level of its own superelement). *)
Inductive hpos : Set := Alone | Top (l : Z) | Below (l : Z).
Inductive top_pos (segs : list seg) : hpos -> Prop :=
| top_none : entries_of "HIERARCH" segs = [] -> top_pos segs Alone
| top_some e es f l : entries_of "HIERARCH" segs = e :: es -> nth_error (e_row e) 4 = Some (PF f) -> trunc_is f l ->
    top_pos segs (Top l).
Inductive level_is : string -> hpos -> string -> Prop :=
| lev_alone f : In f ["R"; "T"; "L"] -> level_is f Alone "FIRSTLEVEL"
| lev_topR l : l <> 1 -> level_is "R" (Top l) "TOPLEVEL"
| lev_topR1 : level_is "R" (Top 1) "FIRSTLEVEL"
| lev_topTL f l : In f ["T"; "L"] -> level_is f (Top l) "TOPLEVEL"
| lev_belowR l : level_is "R" (Below l) "FIRSTLEVEL"
| lev_inter f l : In f ["T"; "L"] -> 1 < l -> level_is f (Below l) "INTERLEVEL"
| lev_first f l : In f ["T"; "L"] -> l <= 1 -> level_is f (Below l) "FIRSTLEVEL"
| lev_other f p : ~ In f ["R"; "T"; "L"] -> level_is f p "".
Inductive type_is : string -> string -> Prop :=
| type_struc f : In f ["R"; "T"; "L"] -> type_is f "STRUCTURAL"
| type_hydro : type_is "G" "HYDRODYNAMIC"
| type_other f : ~ In f ["R"; "T"; "L"; "G"] -> type_is f "UNKNOWN".

Definition labelled (h : h5) (w : path) (ft : string) (id : Z) (idx : option Z) (p : hpos) (segs : list seg) : Prop :=
  exists a rs ty lev, h5_find w h = Some (Group a) /\
    sget "FILETYPE" a = Some (AStr ft) /\ sget "SELTYP" a = Some (AInt (Some id)) /\
    sget "DATATYPE" a = Some (AStr ty) /\ type_is ft ty /\
    sget "LEVEL" a = Some (AStr lev) /\ level_is ft p lev /\
    sget "RECORDS" a = Some (AStrs rs) /\ first_seen (seg_names segs) rs /\
    (ft = "R" -> lev = "FIRSTLEVEL" -> sget "INDEX" a = Some (AInt idx)).

(** What parsing a file into the group [w] leads to; everything else stays, apart
    from groups made on the way to [w]. *)
Definition outcome (h h' : h5) (w : path) (ft : string) (id : Z) (idx : option Z) (p : hpos) (segs : list seg) : Prop :=
  tables h' w segs /\ labelled h' w ft id idx p segs /\
  (forall q, q <> w -> ~ In q (all_own w) ->
     h5_find q h' = h5_find q h \/ (leads q w /\ h5_find q h = None /\ h5_find q h' = Some (Group []))).

(** Group of a file below the top: [row] is the hierarchy record of its
    superelement, [t] the number of the top one. *)
Definition sub_index (ft : string) (row : list cell) : option Z :=
  if String.eqb ft "R" then match nth_error row 3 with Some (CI i) => Some i | _ => None end else None.
Definition sub_group (pre ft : string) (t id : Z) (idx : option Z) : path :=
  [pre ++ ft ++ str_of_Z t; ft ++ str_of_Z id ++ match idx with Some i => if Z.eqb i 0 then "" else "_" ++ str_of_Z i | None => "" end]%string.
