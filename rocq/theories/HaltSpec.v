(** * HaltSpec: what a file says up to some place, whatever follows *)
From Verif Require Import Base Flt SeqFile H5 Schema SeqSpec StoreSpec ParserSpec LayoutSpec FileSpec.
Open Scope string_scope.
Open Scope Z_scope.
Open Scope list_scope.

(** One run of records, from its header to the next: the cases of [reads]. *)
Section Reads.
  Variables (only : list string) (k : kind) (id : Z) (sub : bool).
  Inductive reads1 : fstate -> seg -> string -> list flt -> list ascii -> fstate -> string -> list flt -> list ascii -> Prop :=
  | r1_run st n kinds f fs it its c' m mfs bs tail con' :
      asked only n -> In n laid_types -> s_known st = true ->
      i_fs it = f :: fs -> flt_lt f f0 = false ->
      enc_run (layout kinds) k n (s_ctx st) it its c' m mfs bs tail ->
      put_entries (cols_of n) (elts_of n) (base_content n (s_tabs st n)) (map i_entry (it :: its)) con' ->
      reads1 st (Run n (it :: its)) n (f :: fs) bs (mkF c' true (s_hier st) (put_tab n con' (s_tabs st)) (s_names st ++ [n])) m mfs tail
  | r1_tran st n f fs it its c' m mfs bs tail con' :
      asked only n -> In n tran_types -> s_known st = true ->
      i_fs it = f :: fs -> flt_lt f f0 = false ->
      enc_run tran_layout k n (s_ctx st) it its c' m mfs bs tail ->
      put_entries (cols_of n) (elts_of n) (base_content n (s_tabs st n)) (map i_entry (it :: its)) con' ->
      reads1 st (Run n (it :: its)) n (f :: fs) bs (mkF c' true (s_hier st) (put_tab n con' (s_tabs st)) (s_names st ++ [n])) m mfs tail
  | r1_hierarch st f g x fs it its c' m mfs bs tail con' :
      sub = false -> asked only "HIERARCH" ->
      i_fs it = f :: g :: x :: fs -> trunc_is x id -> flt_lt f f0 = false ->
      enc_run hier_layout k "HIERARCH" (s_ctx st) it its c' m mfs bs tail ->
      put_entries (cols_of "HIERARCH") (elts_of "HIERARCH") (base_content "HIERARCH" (s_tabs st "HIERARCH")) (map i_entry (it :: its)) con' ->
      reads1 st (Run "HIERARCH" (it :: its)) "HIERARCH" (f :: g :: x :: fs) bs
        (mkF c' true true (put_tab "HIERARCH" con' (s_tabs st)) (s_names st ++ ["HIERARCH"])) m mfs tail
  | r1_ident st f g x fs a b d con' m mfs bs tail :
      asked only "IDENT" ->
      flt_lt f f0 = false -> trunc_is f a -> trunc_is g b -> trunc_is x d -> (s_known st = false -> b = id) ->
      put_entries (cols_of "IDENT") (elts_of "IDENT") (base_content "IDENT" (s_tabs st "IDENT")) [mkEntry [PI a; PI b; PI d] []] con' ->
      enc_next k m mfs bs tail ->
      reads1 st (Run "IDENT" [mkItem (f :: g :: x :: fs) [] (mkEntry [PI a; PI b; PI d] [])]) "IDENT" (f :: g :: x :: fs) bs
        (mkF (s_ctx st) true (s_hier st) (put_tab "IDENT" con' (s_tabs st)) (s_names st ++ ["IDENT"])) m mfs tail
  | r1_irecsize st f g fs z m mfs bs tail :
      asked only "IRECSIZE" -> flt_lt f f0 = false -> trunc_is g z -> enc_next k m mfs bs tail ->
      reads1 st (Look "IRECSIZE" (f :: g :: fs) bs) "IRECSIZE" (f :: g :: fs) bs (saw st "IRECSIZE") m mfs tail
  | r1_iend_more st f fs m mfs bs tail :
      asked only "IEND" -> flt_lt f f0 = false -> flt_eq f f0 = false -> enc_next k m mfs bs tail ->
      reads1 st (Look "IEND" (f :: fs) bs) "IEND" (f :: fs) bs (saw st "IEND") m mfs tail
  | r1_pass st n fs m mfs bs tail :
      n <> "" -> (~ asked only n \/ (~ In n known_types /\ exists f l, fs = f :: l /\ flt_lt f f0 = false)) ->
      enc_pass k n fs bs m mfs tail ->
      reads1 st (Pass n) n fs bs st m mfs tail
  | r1_void st n f fs b bs m mfs tail :
      n <> "" -> asked only n -> flt_lt f f0 = true ->
      (flt_eq f fm5 = false /\ b = [] \/ flt_eq f fm5 = true /\ exists c, enc_cont k Lead0 c b) ->
      enc_next k m mfs bs tail ->
      reads1 st (Pass n) n (f :: fs) (b ++ bs) st m mfs tail.
  Inductive reads_to : fstate -> list seg -> string -> list flt -> list ascii -> fstate -> string -> list flt -> list ascii -> Prop :=
  | to_here st n fs bs : reads_to st [] n fs bs st n fs bs
  | to_next st sg n fs bs st1 m mfs tail segs st2 p pfs rest :
      reads1 st sg n fs bs st1 m mfs tail -> reads_to st1 segs m mfs tail st2 p pfs rest ->
      reads_to st (sg :: segs) n fs bs st2 p pfs rest.
End Reads.
(** The file begins with these records; then comes the header of a record [n], and
    anything. *)
Definition begins (only : list string) (k : kind) (id : Z) (sub : bool) (bs : list ascii) (segs : list seg) (n : string) : Prop :=
  exists m mfs tail st' fs rest, enc_next k m mfs bs tail /\ reads_to only k id sub start segs m mfs tail st' n fs rest.

(** The tables hold these records; the second: perhaps with more after them. *)
Definition starts {A} (l l' : list A) : Prop := exists more, l' = l ++ more.
Definition at_least (h : h5) (w : path) (n : string) (c : content) : Prop :=
  exists c', holds h w n c' /\ starts (c_rows c) (c_rows c') /\ Forall2 starts (c_arrs c) (c_arrs c').
Definition has_tables (P : string -> content -> Prop) (segs : list seg) : Prop :=
  forall n, In n stored_types -> entries_of n segs <> [] ->
  exists con, put_entries (cols_of n) (elts_of n) (base_content n None) (entries_of n segs) con /\ P n con.
(** nodes named by prefix and letter *)
Definition named (pre letter : string) (q : path) : Prop := exists t r, q = (pre ++ letter ++ t)%string :: r.

(** Not records that were passed over, nor cross sections (their numbers may be
    fewer, which is seen from the name that follows). *)
Definition ends_alone (s : seg) : Prop :=
  match s with Run n _ => ~ In n (map (fun x => fst (fst x)) section_types) | Pass _ => False | Look _ _ _ => True end.
