(** * VtfTerm: the loops that read VTF files finish on any text. *)
From Verif Require Import Base Flt SeqFile ListFacts SeqTerm Vtf.
From Coq Require Import ZifyBool ZifyNat.
Open Scope string_scope.
Open Scope Z_scope.
Open Scope list_scope.
Open Scope monad_scope.

Lemma bind_nof {A B} (r : Res A) (k : A -> Res B) : nof r -> (forall a, nof (k a)) -> nof (rbind r k).
Proof. intros H K. unfold nof in *. destruct r as [a|e]; cbn [rbind]; [apply K|congruence]. Qed.
Lemma nof_int_text l : nof (int_text l).
Proof.
  unfold int_text. destruct (sign_of _) as [s r]. destruct (digrun 0 0 r) as [[z n] r']. destruct r'; [|auto with nof]. destruct (n =? 0); auto with nof.
Qed.
Lemma nof_oget {K V} (eqb : K -> K -> bool) k (d : list (K * V)) : nof (oget eqb k d).
Proof. unfold oget. destruct (dget eqb k d); auto with nof. Qed.
Lemma nof_toks1 ws : nof (toks1 ws). Proof. apply nof_pyget. Qed.
Lemma nof_to_int32 w : nof (to_int32 w).
Proof. unfold to_int32. apply bind_nof; [apply nof_int_text|]. intro z. destruct (_ && _); auto with nof. Qed.

Lemma dropwhile_le {A} (p : A -> bool) l : (length (dropwhile p l) <= length l)%nat.
Proof. induction l as [|x l IH]; cbn [dropwhile length]; [lia|]. destruct (p x); cbn [length]; lia. Qed.
Lemma next_line_lt ls l r : next_line ls = Some (l, r) -> (length r < length ls)%nat.
Proof.
  unfold next_line. pose proof (dropwhile_le blank_line ls) as H. destruct (dropwhile blank_line ls) as [|x y]; [discriminate|]. intro E. injection E as <- <-. cbn [length] in H. lia.
Qed.

(** A loop with enough turns for the lines left ends otherwise than by running out
    of them, and leaves no more lines than there were. *)
Definition body_ok {A} (body : text -> list text -> A -> bres A) : Prop :=
  forall line ls a, match body line ls a with BOk _ ls' => (length ls' <= length ls)%nat | BStop _ => True | BErr e => e <> OutOfFuel end.
Lemma plain_ok {A} (f : text -> A -> Res A) : (forall l a, nof (f l a)) -> body_ok (plain f).
Proof. intros H line ls a. unfold plain. specialize (H line a). unfold nof in H. destruct (f line a); [lia|congruence]. Qed.
Lemma while_ok {A} cond (body : text -> list text -> A -> bres A) : body_ok body -> forall fuel a line ls, (length ls < fuel)%nat ->
  match while fuel cond body a line ls with LEnd _ _ ls' => (length ls' <= length ls)%nat | LEof _ | LStop _ => True | LBad e => e <> OutOfFuel end.
Proof.
  intros B. induction fuel as [|k IH]; intros a line ls H; [lia|]. cbn [while]. destruct (cond line); [|lia].
  specialize (B line ls a). destruct (body line ls a) as [a' ls'|a'|e]; [|exact I|exact B].
  destruct (next_line ls') as [[l r]|] eqn:E; [|exact I]. apply next_line_lt in E. specialize (IH a' l r ltac:(lia)).
  destruct (while k cond body a' l r); try exact IH. lia.
Qed.
(** What is left of a block. *)
Definition out_ok (n : nat) (o : bout) : Prop :=
  match o with More _ ls _ => (length ls < n)%nat | Finished _ => True | Failed e => e <> OutOfFuel end.

Lemma node_line_nof ids line a : nof (node_line ids line a).
Proof.
  unfold node_line. destruct ids.
  - apply bind_nof; [apply nof_rmap, nof_parse_float|]. intro xs. apply bind_nof; [apply nof_pyget|]. intro w. apply bind_nof; [apply nof_int_text|]. auto with nof.
  - apply bind_nof; [apply nof_rmap, nof_parse_float|]. auto with nof.
Qed.
Lemma nodes_ok fuel k ls v : (length ls < fuel)%nat -> out_ok (length ls) (read_nodes fuel k ls v).
Proof.
  intro H. unfold read_nodes. destruct (next_line ls) as [[line ls1]|] eqn:E; [|exact I]. apply next_line_lt in E.
  assert (G : forall ids line2 ls2, (length ls2 < length ls)%nat -> out_ok (length ls) match while fuel not_block (plain (node_line ids)) ([], []) line2 ls2 with
        | LEnd (arr, nos) line ls => More line ls (set_nodes v (oset oz_eqb (Some k) (mkNodes arr (if ids then Some nos else None)) (v_nodes v)))
        | LEof _ | LStop _ => Finished v | LBad e => Failed e end).
  { intros ids line2 ls2 L. pose proof (while_ok not_block _ (plain_ok _ (node_line_nof ids)) fuel ([], []) line2 ls2 ltac:(lia)) as W.
    destruct (while fuel not_block (plain (node_line ids)) ([], []) line2 ls2) as [[arr nos] l r|a|a|e]; cbn [out_ok]; try exact I; [lia|exact W]. }
  destruct (String.eqb (word0 line) "%NO_ID"); [|destruct (String.eqb (word0 line) "%WITH_ID")].
  - destruct (next_line ls1) as [[l2 r2]|] eqn:E2; [|exact I]. apply next_line_lt in E2. apply G. lia.
  - destruct (next_line ls1) as [[l2 r2]|] eqn:E2; [|exact I]. apply next_line_lt in E2. apply G. lia.
  - apply G. lia.
Qed.
Lemma elem_directive_nof line a : nof (elem_directive line a).
Proof.
  destruct a as [[[n d] k] i]. unfold elem_directive. destruct (String.eqb _ "%NAME"); [auto with nof|]. destruct (String.eqb _ "%DESCRIPTION"); [auto with nof|].
  destruct (String.eqb _ "%NODES"); [|destruct (String.eqb _ "%WITH_ID"); auto with nof].
  apply bind_nof; [apply nof_toks1|]. intro t. apply bind_nof; [apply nof_int_text|]. auto with nof.
Qed.
Lemma elem_line_nof ids line a : nof (elem_line ids line a).
Proof. unfold elem_line. destruct ids; [|auto with nof]. apply bind_nof; [apply nof_pyget|]. auto with nof. Qed.
Lemma int_rows_nof rows : nof (int_rows rows).
Proof. destruct rows as [|r rest]; cbn [int_rows]; [auto with nof|]. destruct (forallb _ rest); [|auto with nof]. apply nof_rmap. intro x. apply nof_rmap, nof_to_int32. Qed.
Lemma types_ok ids : forall fuel dict nos line ls, (length ls < fuel)%nat ->
  match read_types fuel ids dict nos line ls with LEnd _ _ ls' => (length ls' <= length ls)%nat | LEof _ | LStop _ => True | LBad e => e <> OutOfFuel end.
Proof.
  induction fuel as [|k IH]; intros dict nos line ls H; [lia|]. cbn [read_types]. destruct (elem_type_line line); [|lia].
  destruct (next_line ls) as [[l1 r1]|] eqn:E; [|exact I]. apply next_line_lt in E.
  pose proof (while_ok (fun l => negb (starts (elem_types ++ block_types) l)) _ (plain_ok _ (elem_line_nof ids)) k ([], []) l1 r1 ltac:(lia)) as W.
  destruct (while k _ (plain (elem_line ids)) ([], []) l1 r1) as [[rows ns] l2 r2|a|a|e]; try exact I; [|exact W].
  pose proof (int_rows_nof rows) as N1. pose proof (nof_rmap to_int32 ns nof_to_int32) as N2. unfold nof in N1, N2.
  destruct (int_rows rows) as [r|e]; [|congruence]. destruct (rmap to_int32 ns) as [n|e]; [|congruence].
  specialize (IH (oset String.eqb (l2s (strip is_space_s line)) r dict) (oset String.eqb (l2s (strip is_space_s line)) n nos) l2 r2 ltac:(lia)).
  destruct (read_types k ids _ _ l2 r2); try exact IH. lia.
Qed.
Lemma elements_ok fuel k loc ls v : (length ls < fuel)%nat -> out_ok (length ls) (fst (read_elements fuel k loc ls v)).
Proof.
  intro H. unfold read_elements. destruct (next_line ls) as [[line ls1]|] eqn:E; [|exact I]. apply next_line_lt in E.
  pose proof (while_ok (starts elem_directives) _ (plain_ok _ elem_directive_nof) fuel ([], [], 0, false) line ls1 ltac:(lia)) as W.
  destruct (while fuel (starts elem_directives) (plain elem_directive) ([], [], 0, false) line ls1) as [[[[n d] nd] ids] l r|a|a|e]; cbn [fst out_ok]; try exact I; [|exact W].
  pose proof (types_ok ids fuel [] [] l r ltac:(lia)) as T. destruct (read_types fuel ids [] [] l r) as [[dict nos] l2 r2|a|a|e]; cbn [out_ok]; try exact I; [lia|exact T].
Qed.
Lemma res_directive_nof line a : nof (res_directive line a).
Proof.
  destruct a as [[t el] dim]. unfold res_directive. destruct (String.eqb _ "%DIMENSION").
  - apply bind_nof; [apply nof_toks1|]. intro x. apply bind_nof; [apply nof_int_text|]. auto with nof.
  - destruct (str_in _ res_types); [|auto with nof]. apply bind_nof; [apply nof_toks1|]. intro x. apply bind_nof; [apply nof_int_text|]. auto with nof.
Qed.
(** The readers of values run through the elements known. *)
Definition vals_ok {A} (ls : list text) (r : Res (option (A * text * list text))) : Prop :=
  match r with Ok (Some (_, _, ls')) => (length ls' <= length ls)%nat | Ok None => True | Err e => e <> OutOfFuel end.
Lemma values_ok : forall n line ls, vals_ok ls (read_values n line ls).
Proof.
  induction n as [|k IH]; intros line ls; cbn [read_values]; [cbn; lia|].
  pose proof (nof_parse_float line) as N. unfold nof in N. destruct (parse_float line) as [x|e]; cbn [rbind vals_ok]; [|congruence].
  destruct (next_line ls) as [[l r]|] eqn:E; [|exact I]. apply next_line_lt in E. specialize (IH l r).
  destruct (read_values k l r) as [[[[xs l2] r2]|]|e]; cbn [rbind vals_ok] in *; try exact IH. lia.
Qed.
Lemma rows_ok {A} n : forall (arr : list A) line ls, vals_ok ls (read_rows arr n line ls).
Proof.
  induction arr as [|x arr IH]; intros line ls; cbn [read_rows]; [cbn; lia|].
  pose proof (values_ok n line ls) as V. destruct (read_values n line ls) as [[[[xs l] r]|]|e]; cbn [rbind vals_ok] in *; try exact V.
  specialize (IH l r). destruct (read_rows arr n l r) as [[[[rs l2] r2]|]|e]; cbn [rbind vals_ok] in *; try exact IH. lia.
Qed.
Lemma dict_ok : forall d acc line ls, vals_ok ls (read_dict d acc line ls).
Proof.
  induction d as [|[t arr] d IH]; intros acc line ls; cbn [read_dict]; [cbn; lia|].
  pose proof (nof_oget String.eqb t number_of_nodes) as N. unfold nof in N. destruct (oget String.eqb t number_of_nodes) as [n|e]; cbn [rbind vals_ok]; [|congruence].
  pose proof (rows_ok n arr line ls) as V. destruct (read_rows arr n line ls) as [[[[xs l] r]|]|e]; cbn [rbind vals_ok] in *; try exact V.
  destruct (starts block_types l); [exact V|]. specialize (IH (oset String.eqb t xs acc) l r).
  destruct (read_dict d _ l r) as [[[[rs l2] r2]|]|e]; cbn [rbind vals_ok] in *; try exact IH. lia.
Qed.
Lemma results_ok fuel k ls v : (length ls < fuel)%nat -> out_ok (length ls) (read_results fuel k ls v).
Proof.
  intro H. unfold read_results. destruct (next_line ls) as [[line ls1]|] eqn:E; [|exact I]. apply next_line_lt in E.
  pose proof (while_ok (starts (res_directives ++ res_types)) _ (plain_ok _ res_directive_nof) fuel ("", 0, 1) line ls1 ltac:(lia)) as W.
  destruct (while fuel _ (plain res_directive) ("", 0, 1) line ls1) as [[[t el] dim] l r|a|a|e]; cbn [out_ok]; try exact I; [|exact W].
  destruct (String.eqb t "%PER_ELEMENT_NODE"); [|discriminate].
  pose proof (nof_oget Z.eqb el (v_elems v)) as N. unfold nof in N. destruct (oget Z.eqb el (v_elems v)) as [x|e]; [|cbn [out_ok]; congruence].
  pose proof (dict_ok (e_dict x) [] l r) as D. destruct (read_dict (e_dict x) [] l r) as [[[[d l2] r2]|]|e]; cbn [out_ok vals_ok] in *; [lia|exact I|exact D].
Qed.
Lemma scalar_body : body_ok scalar_directive.
Proof.
  intros line ls [[n d] r]. unfold scalar_directive. destruct (String.eqb _ "%NAME"); [lia|]. destruct (String.eqb _ "%DESCRIPTION"); [lia|].
  destruct (next_line ls) as [[l r1]|] eqn:E; [|exact I]. apply next_line_lt in E.
  assert (N : nof (rmap (fun x => int_text (strip is_space_s x)) (split_comma [] l))) by (apply nof_rmap; intro; apply nof_int_text).
  unfold nof in N. destruct (rmap (fun x => int_text (strip is_space_s x)) (split_comma [] l)) as [ids|e]; [lia|congruence].
Qed.
Lemma store_nof k a v : nof (store_scalar k a v).
Proof. destruct a as [[[n|] [d|]] [r|]]; cbn [store_scalar]; auto with nof. Qed.
Lemma scalar_ok fuel k loc ls v : (length ls < fuel)%nat -> out_ok (length ls) (fst (read_scalar fuel k loc ls v)).
Proof.
  intro H. unfold read_scalar. destruct (next_line ls) as [[line ls1]|] eqn:E; [|exact I]. apply next_line_lt in E.
  pose proof (while_ok (starts scalar_directives) _ scalar_body fuel loc line ls1 ltac:(lia)) as W.
  destruct (while fuel (starts scalar_directives) scalar_directive loc line ls1) as [a l r|a|a|e]; cbn [fst out_ok]; try exact I; try exact W.
  - pose proof (store_nof k a v) as N. unfold nof in N. destruct (store_scalar k a v); cbn [out_ok]; [lia|congruence].
  - pose proof (store_nof k a v) as N. unfold nof in N. destruct (store_scalar k a v); cbn [out_ok]; [exact I|congruence].
Qed.
Lemma geometry_ok fuel k ls v : (length ls < fuel)%nat -> out_ok (length ls) (read_geometry fuel k ls v).
Proof.
  intro H. unfold read_geometry. destruct (next_line ls) as [[line ls1]|] eqn:E; [|exact I]. apply next_line_lt in E.
  assert (GN : forall l a, nof (geom_directive l a)) by (intros l a; unfold geom_directive; destruct (String.eqb _ "%NAME"); auto with nof).
  pose proof (while_ok (starts geom_directives) _ (plain_ok _ GN) fuel (set_geom v k) line ls1 ltac:(lia)) as W.
  destruct (while fuel (starts geom_directives) (plain geom_directive) (set_geom v k) line ls1) as [a l r|a|a|e]; cbn [out_ok]; try exact I; [lia|exact W].
Qed.
Lemma while_cond {A} cond (body : text -> list text -> A -> bres A) : forall fuel a line ls a' l r, while fuel cond body a line ls = LEnd a' l r -> cond l = false.
Proof.
  induction fuel as [|k IH]; intros a line ls a' l r; cbn [while]; [discriminate|]. destruct (cond line) eqn:C; [|congruence].
  destruct (body line ls a) as [a2 ls2|a2|e]; try discriminate. destruct (next_line ls2) as [[l2 r2]|]; [apply IH|discriminate].
Qed.
Lemma blocks_ok : forall fuel loc line ls v, (length ls < fuel)%nat -> nof (read_blocks fuel loc line ls v).
Proof.
  induction fuel as [|k IH]; intros loc line ls v H; [lia|]. cbn [read_blocks].
  assert (P : forall (l : text) (u : unit), nof (Ok u)) by (intros; apply nof_ok).
  pose proof (while_ok not_block _ (plain_ok (fun (_ : text) u => Ok u) P) (S k) tt line ls H) as W.
  pose proof (while_cond not_block (plain (fun (_ : text) u => Ok u)) (S k) tt line ls) as C.
  destruct (while (S k) not_block (plain (fun _ u => Ok u)) tt line ls) as [a l r|a|a|e]; [|apply nof_ok|apply nof_ok|now apply nof_err].
  specialize (C _ _ _ eq_refl). unfold not_block, starts in C.
  destruct (split l) as [|bname [|bid [|x y]]]; auto with nof.
  apply bind_nof; [apply nof_int_text|]. intro id.
  match goal with |- nof (let '(_, _) := ?m in _) => assert (G : out_ok (length r) (fst m)) end.
  { destruct (String.eqb (l2s bname) "*NODES") eqn:B1; [apply nodes_ok; lia|]. destruct (String.eqb (l2s bname) "*ELEMENTS") eqn:B2; [apply elements_ok; lia|].
    destruct (String.eqb (l2s bname) "*RESULTS") eqn:B3; [apply results_ok; lia|]. destruct (String.eqb (l2s bname) "*GLVIEWSCALAR") eqn:B4; [apply scalar_ok; lia|].
    destruct (String.eqb (l2s bname) "*GLVIEWGEOMETRY") eqn:B5; [apply geometry_ok; lia|]. exfalso.
    unfold str_in, block_types in C. cbn [existsb] in C. rewrite ?B1, ?B2, ?B3, ?B4, ?B5 in C. discriminate. }
  match goal with |- nof (let '(_, _) := ?m in _) => destruct m as [out loc'] end. cbn [fst] in G.
  destruct out as [l2 r2 v2|v2|e]; cbn [out_ok] in G; [apply IH; lia|apply nof_ok|now apply nof_err].
Qed.
Lemma vtf_read_nof two t v : nof (vtf_read two t v).
Proof.
  unfold vtf_read. destruct two; cbn [negb]; [|auto with nof]. destruct (next_line (lines t)) as [[l r]|] eqn:E; [|auto with nof].
  apply next_line_lt in E. apply blocks_ok. lia.
Qed.

(** ** The number of turns does not matter *)
Lemma while_eq {A} cond (body : text -> list text -> A -> bres A) : body_ok body -> forall n m a line ls, (length ls < n)%nat -> (length ls < m)%nat ->
  while n cond body a line ls = while m cond body a line ls.
Proof.
  intros B. induction n as [|n IH]; intros [|m] a line ls H1 H2; try lia. cbn [while]. destruct (cond line); [|reflexivity].
  specialize (B line ls a). destruct (body line ls a) as [a' ls'|a'|e]; [|reflexivity|reflexivity].
  destruct (next_line ls') as [[l r]|] eqn:E; [|reflexivity]. apply next_line_lt in E. apply IH; lia.
Qed.
Lemma types_eq ids : forall n m dict nos line ls, (length ls < n)%nat -> (length ls < m)%nat -> read_types n ids dict nos line ls = read_types m ids dict nos line ls.
Proof.
  induction n as [|n IH]; intros [|m] dict nos line ls H1 H2; try lia. cbn [read_types]. destruct (elem_type_line line); [|reflexivity].
  destruct (next_line ls) as [[l1 r1]|] eqn:E; [|reflexivity]. apply next_line_lt in E.
  pose proof (while_ok (fun l => negb (starts (elem_types ++ block_types) l)) _ (plain_ok _ (elem_line_nof ids)) m ([], []) l1 r1 ltac:(lia)) as W.
  rewrite (while_eq (fun l => negb (starts (elem_types ++ block_types) l)) _ (plain_ok _ (elem_line_nof ids)) n m ([], []) l1 r1) by lia.
  destruct (while m _ (plain (elem_line ids)) ([], []) l1 r1) as [[rows ns] l2 r2|a|a|e]; try reflexivity.
  destruct (int_rows rows) as [r|e]; [|reflexivity]. destruct (rmap to_int32 ns) as [x|e]; [|reflexivity]. apply IH; lia.
Qed.
Lemma nodes_eq n m k ls v : (length ls < n)%nat -> (length ls < m)%nat -> read_nodes n k ls v = read_nodes m k ls v.
Proof.
  intros H1 H2. unfold read_nodes. destruct (next_line ls) as [[line ls1]|] eqn:E; [|reflexivity]. apply next_line_lt in E.
  assert (G : forall ids l2 r2, (length r2 < length ls)%nat -> while n not_block (plain (node_line ids)) ([], []) l2 r2 = while m not_block (plain (node_line ids)) ([], []) l2 r2)
    by (intros; apply while_eq; [apply plain_ok, node_line_nof|lia|lia]).
  destruct (String.eqb (word0 line) "%NO_ID"); [|destruct (String.eqb (word0 line) "%WITH_ID")].
  - destruct (next_line ls1) as [[l2 r2]|] eqn:E2; [|reflexivity]. apply next_line_lt in E2. now rewrite G by lia.
  - destruct (next_line ls1) as [[l2 r2]|] eqn:E2; [|reflexivity]. apply next_line_lt in E2. now rewrite G by lia.
  - now rewrite G by lia.
Qed.
Lemma elements_eq n m k loc ls v : (length ls < n)%nat -> (length ls < m)%nat -> read_elements n k loc ls v = read_elements m k loc ls v.
Proof.
  intros H1 H2. unfold read_elements. destruct (next_line ls) as [[line ls1]|] eqn:E; [|reflexivity]. apply next_line_lt in E.
  pose proof (while_ok (starts elem_directives) _ (plain_ok _ elem_directive_nof) m ([], [], 0, false) line ls1 ltac:(lia)) as W.
  rewrite (while_eq (starts elem_directives) _ (plain_ok _ elem_directive_nof) n m ([], [], 0, false) line ls1) by lia.
  destruct (while m (starts elem_directives) (plain elem_directive) ([], [], 0, false) line ls1) as [[[[x d] nd] ids] l r|a|a|e]; try reflexivity.
  now rewrite (types_eq ids n m) by lia.
Qed.
Lemma results_eq n m k ls v : (length ls < n)%nat -> (length ls < m)%nat -> read_results n k ls v = read_results m k ls v.
Proof.
  intros H1 H2. unfold read_results. destruct (next_line ls) as [[line ls1]|] eqn:E; [|reflexivity]. apply next_line_lt in E.
  now rewrite (while_eq (starts (res_directives ++ res_types)) _ (plain_ok _ res_directive_nof) n m ("", 0, 1) line ls1) by lia.
Qed.
Lemma scalar_eq n m k loc ls v : (length ls < n)%nat -> (length ls < m)%nat -> read_scalar n k loc ls v = read_scalar m k loc ls v.
Proof.
  intros H1 H2. unfold read_scalar. destruct (next_line ls) as [[line ls1]|] eqn:E; [|reflexivity]. apply next_line_lt in E.
  now rewrite (while_eq (starts scalar_directives) _ scalar_body n m loc line ls1) by lia.
Qed.
Lemma geom_nof l a : nof (geom_directive l a).
Proof. unfold geom_directive. destruct (String.eqb _ "%NAME"); auto with nof. Qed.
Lemma geometry_eq n m k ls v : (length ls < n)%nat -> (length ls < m)%nat -> read_geometry n k ls v = read_geometry m k ls v.
Proof.
  intros H1 H2. unfold read_geometry. destruct (next_line ls) as [[line ls1]|] eqn:E; [|reflexivity]. apply next_line_lt in E.
  now rewrite (while_eq (starts geom_directives) _ (plain_ok _ geom_nof) n m (set_geom v k) line ls1) by lia.
Qed.
Lemma blocks_eq : forall n m loc line ls v, (length ls < n)%nat -> (length ls < m)%nat -> read_blocks n loc line ls v = read_blocks m loc line ls v.
Proof.
  induction n as [|n IH]; intros [|m] loc line ls v H1 H2; try lia. cbn [read_blocks].
  assert (P : forall (l : text) (u : unit), nof (Ok u)) by (intros; apply nof_ok).
  pose proof (while_ok not_block _ (plain_ok (fun (_ : text) u => Ok u) P) (S m) tt line ls H2) as W.
  pose proof (while_cond not_block (plain (fun (_ : text) u => Ok u)) (S m) tt line ls) as C.
  rewrite (while_eq not_block _ (plain_ok (fun (_ : text) u => Ok u) P) (S n) (S m) tt line ls H1 H2).
  destruct (while (S m) not_block (plain (fun _ u => Ok u)) tt line ls) as [a l r|a|a|e]; try reflexivity.
  specialize (C _ _ _ eq_refl). unfold not_block, starts in C.
  destruct (split l) as [|bname [|bid [|x y]]]; try reflexivity. destruct (int_text bid) as [id|e]; cbn [rbind]; [|reflexivity].
  assert (NX : forall (o : bout) loc', out_ok (length r) o ->
    match o with More line ls v => read_blocks n loc' line ls v | Finished v => Ok v | Failed e => Err e end =
    match o with More line ls v => read_blocks m loc' line ls v | Finished v => Ok v | Failed e => Err e end).
  { intros [l2 r2 v2|v2|e] loc' O; cbn [out_ok] in O; try reflexivity. apply IH; lia. }
  destruct (String.eqb (l2s bname) "*NODES") eqn:B1; [rewrite (nodes_eq (S n) (S m)) by lia; apply NX, nodes_ok; lia|].
  destruct (String.eqb (l2s bname) "*ELEMENTS") eqn:B2.
  { rewrite (elements_eq (S n) (S m)) by lia. pose proof (elements_ok (S m) id loc r v ltac:(lia)) as O. destruct (read_elements (S m) id loc r v) as [o loc']. now apply NX. }
  destruct (String.eqb (l2s bname) "*RESULTS") eqn:B3; [rewrite (results_eq (S n) (S m)) by lia; apply NX, results_ok; lia|].
  destruct (String.eqb (l2s bname) "*GLVIEWSCALAR") eqn:B4.
  { rewrite (scalar_eq (S n) (S m)) by lia. pose proof (scalar_ok (S m) id loc r v ltac:(lia)) as O. destruct (read_scalar (S m) id loc r v) as [o loc']. now apply NX. }
  destruct (String.eqb (l2s bname) "*GLVIEWGEOMETRY") eqn:B5; [rewrite (geometry_eq (S n) (S m)) by lia; apply NX, geometry_ok; lia|]. exfalso.
  unfold str_in, block_types in C. cbn [existsb] in C. rewrite ?B1, ?B2, ?B3, ?B4, ?B5 in C. discriminate.
Qed.
