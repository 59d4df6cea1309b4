(** * FieldProofs: records are found under the names of FieldSpec. *)
From Verif Require Import Base Flt SeqFile H5 Schema SeqSpec StoreSpec ParserSpec LayoutSpec FileSpec DataSpec DataProofs FileProofs ReadFile ListFacts FieldSpec.
Open Scope string_scope.
Open Scope Z_scope.
Open Scope list_scope.

Fixpoint ctype_eqb (a b : ctype) : bool :=
  match a, b with
  | TI, TI | TF, TF | TC, TC => true
  | TS n, TS m => Nat.eqb n m
  | TV n t, TV m u => Nat.eqb n m && ctype_eqb t u
  | _, _ => false
  end.
Lemma ctype_eqb_eq a : forall b, ctype_eqb a b = true -> a = b.
Proof.
  induction a as [| | | |n t IH]; intros [| | | |m u]; cbn; try discriminate; try reflexivity.
  - intros E. apply Nat.eqb_eq in E. now subst.
  - intros E. apply andb_prop in E. destruct E as [E1 E2]. apply Nat.eqb_eq in E1. apply IH in E2. now subst.
Qed.
Definition field_eqb (a b : string * ctype) : bool := String.eqb (fst a) (fst b) && ctype_eqb (snd a) (snd b).
Fixpoint fields_eqb (a b : list (string * ctype)) : bool :=
  match a, b with
  | [], [] => true
  | x :: a', y :: b' => field_eqb x y && fields_eqb a' b'
  | _, _ => false
  end.
Lemma fields_eqb_eq a : forall b, fields_eqb a b = true -> a = b.
Proof.
  induction a as [|[x t] a IH]; intros [|[y u] b]; cbn; try discriminate; try reflexivity.
  intros E. apply andb_prop in E. destruct E as [E1 E2]. unfold field_eqb in E1. cbn in E1. apply andb_prop in E1. destruct E1 as [E0 E1].
  apply String.eqb_eq in E0. apply ctype_eqb_eq in E1. apply IH in E2. now subst.
Qed.
Fixpoint nodup_b (l : list string) : bool := match l with [] => true | x :: r => negb (str_in x r) && nodup_b r end.
Lemma nodup_b_ok l : nodup_b l = true -> NoDup l.
Proof.
  induction l as [|x l IH]; cbn; intros E; constructor; apply andb_prop in E; destruct E as [E1 E2].
  - intros I. apply str_in_spec in I. rewrite I in E1. discriminate.
  - now apply IH.
Qed.
Definition fields_ok (x : string * list (string * ctype) * list (string * ctype)) : bool :=
  let n := fst (fst x) in fields_eqb (columns n) (snd (fst x)) && fields_eqb (atoms_of n) (snd x) && String.eqb (lower_s n) (table_name n)
    && nodup_b (map fst (descr_of n)) && str_in n stored_types.
Lemma all_fields_ok : forallb fields_ok record_fields = true.
Proof. vm_compute. reflexivity. Qed.
Lemma field_facts n fs ls : In (n, fs, ls) record_fields ->
  columns n = fs /\ atoms_of n = ls /\ lower_s n = table_name n /\ NoDup (map fst (descr_of n)) /\ In n stored_types.
Proof.
  intros H. pose proof (proj1 (forallb_forall _ _) all_fields_ok _ H) as E. unfold fields_ok in E. cbn [fst snd] in E.
  repeat (apply andb_prop in E; destruct E as [E ?]).
  repeat split.
  - now apply fields_eqb_eq.
  - now apply fields_eqb_eq.
  - now apply String.eqb_eq.
  - now apply nodup_b_ok.
  - now apply str_in_spec.
Qed.

Lemma nth_range_cells rs m r : nth_error rs m = Some r ->
  nth_error (range_cells rs) (2 * m) = Some (CI (fst r)) /\ nth_error (range_cells rs) (2 * m + 1) = Some (CI (snd r)).
Proof.
  revert m. induction rs as [|x rs IH]; intros [|m]; cbn [nth_error]; try discriminate.
  - injection 1 as ->. split; reflexivity.
  - intros H. destruct (IH _ H) as [A B]. replace (2 * S m)%nat with (S (S (2 * m))) by lia. replace (S (S (2 * m)) + 1)%nat with (S (S (2 * m + 1))) by lia.
    cbn [range_cells flat_map app nth_error]. split; [exact A|exact B].
Qed.
Definition bounds (a : string * ctype) : descr := [(fst a ++ "_start", TI); (fst a ++ "_stop", TI)]%string.
Lemma nth_bounds ls m x t : nth_error ls m = Some (x, t) ->
  nth_error (flat_map bounds ls) (2 * m) = Some ((x ++ "_start")%string, TI) /\ nth_error (flat_map bounds ls) (2 * m + 1) = Some ((x ++ "_stop")%string, TI).
Proof.
  revert m. induction ls as [|y ls IH]; intros [|m]; cbn [nth_error]; try discriminate.
  - injection 1 as ->. split; reflexivity.
  - intros H. destruct (IH _ H) as [A B]. replace (2 * S m)%nat with (S (S (2 * m))) by lia. replace (S (S (2 * m)) + 1)%nat with (S (S (2 * m + 1))) by lia.
    cbn [bounds flat_map app nth_error]. split; [exact A|exact B].
Qed.
Lemma nth_unique {A} (l : list (string * A)) i x t : NoDup (map fst l) -> nth_error l i = Some (x, t) ->
  forall i' t', nth_error l i' = Some (x, t') -> i' = i.
Proof.
  intros ND H i' t' H'. apply (proj1 (NoDup_nth_error (map fst l)) ND).
  - rewrite map_length. apply nth_error_Some. congruence.
  - rewrite !nth_error_map, H, H'. reflexivity.
Qed.
Lemma Forall2_at {A B} (P : A -> B -> Prop) l m i a : Forall2 P l m -> nth_error l i = Some a -> exists b, nth_error m i = Some b /\ P a b.
Proof. intros H. revert i. induction H as [|x y l m Hx H IH]; intros [|i]; cbn; try discriminate; [intros [= <-]; eauto|apply IH]. Qed.
Lemma nth_combine {A B} (l : list A) (m : list B) i a b : nth_error l i = Some a -> nth_error m i = Some b -> nth_error (combine l m) i = Some (a, b).
Proof. revert m i. induction l as [|x l IH]; intros [|y m] [|i]; cbn; try discriminate; [congruence|apply IH]. Qed.

Theorem read_by_name only k bs segs h w h' n fs ls j it : read_file only k bs segs h w h' -> In (n, fs, ls) record_fields ->
  nth_error (items_of n segs) j = Some it -> stored_by_name h' w n fs ls j (i_entry it).
Proof.
  intros HR HF Hj. destruct (field_facts _ _ _ HF) as (Ec & Ea & El & ND & Hn). clear HF. subst fs ls.
  destruct (read_records _ _ _ _ _ _ _ n HR Hn) as (_ & RI & RC). clear Hn.
  destruct (RC ltac:(intros E; rewrite E in Hj; destruct j; discriminate)) as (con & H & L).
  assert (Hje : nth_error (entries_of n segs) j = Some (i_entry it)) by (unfold entries_of; rewrite nth_error_map, Hj; reflexivity).
  pose proof (RI j it Hj) as (cs & rs & R1 & (O1 & O2) & Lr & RS).
  pose proof L as (L1 & L2 & R & A). destruct (R j _ Hje) as (D & _). pose proof (proj1 H) as T.
  assert (Lc : length cs = length (columns n)) by (apply Forall2_length in O2; rewrite combine_length, map_length in O2; lia).
  assert (EL : length (elts_of n) = length (atoms_of n)) by (unfold elts_of; rewrite map_length; reflexivity).
  assert (N : nth_error (c_rows con) j = Some (cs ++ range_cells rs)) by (unfold row_at, tab_rows in R1; rewrite T in R1; exact R1).
  assert (NM : forall i x t c, nth_error (descr_of n) i = Some (x, t) -> nth_error (cs ++ range_cells rs) i = Some c -> named h' w n j x c).
  { intros i x t c Hi Hc. exists (descr_of n), (c_rows con), (cs ++ range_cells rs), i, t.
    split; [unfold tpath in T; rewrite El in T; exact T|]. split; [exact N|]. split; [exact Hi|]. split; [|exact Hc]. exact (nth_unique _ _ _ _ ND Hi). }
  split; [lia|]. split; [lia|]. split.
  - intros i x t v Hx Hv.
    destruct (Forall2_at _ _ _ i (t, v) O2) as (c & Hc & S).
    { apply nth_combine; [rewrite nth_error_map, Hx; reflexivity|exact Hv]. }
    exists c. split; [exact S|]. apply (NM i x t c).
    + unfold descr_of. rewrite nth_error_app1; [exact Hx|apply nth_error_Some; congruence].
    + rewrite nth_error_app1; [exact Hc|apply nth_error_Some; congruence].
  - intros m x t vs Hx Hv.
    assert (Hm : (m < length (elts_of n))%nat) by (rewrite EL; apply nth_error_Some; congruence).
    assert (Ht : nth_error (elts_of n) m = Some t) by (unfold elts_of; rewrite nth_error_map, Hx; reflexivity).
    destruct (nth_bounds _ _ _ _ Hx) as [B1 B2].
    destruct (nth_error rs m) as [r|] eqn:Hr; [|apply nth_error_None in Hr; lia].
    destruct (nth_range_cells _ _ _ Hr) as [C1 C2]. destruct (RS m t r Ht Hr) as (P1 & P2 & P3 & P4).
    destruct (nth_error (c_arrs con) m) as [arr|] eqn:Earr; [|apply nth_error_None in Earr; lia].
    rewrite (holds_array _ _ _ _ _ _ H Earr L2) in P2, P3. unfold data in P3. rewrite (nth_error_nth _ _ _ Hv) in P3.
    exists (slice r arr). split; [exact P3|]. exists (fst r), (snd r), t, arr.
    split; [|split; [|split; [|split; [exact P1|split; [exact P2|reflexivity]]]]].
    + apply (NM (length (columns n) + 2 * m)%nat _ TI).
      * unfold descr_of. rewrite nth_error_app2 by lia. replace (_ + _ - _)%nat with (2 * m)%nat by lia. exact B1.
      * rewrite nth_error_app2 by lia. replace (_ + _ - _)%nat with (2 * m)%nat by lia. exact C1.
    + apply (NM (length (columns n) + (2 * m + 1))%nat _ TI).
      * unfold descr_of. rewrite nth_error_app2 by lia. replace (_ + _ - _)%nat with (2 * m + 1)%nat by lia. exact B2.
      * rewrite nth_error_app2 by lia. replace (_ + _ - _)%nat with (2 * m + 1)%nat by lia. exact C2.
    + destruct H as [_ H]. destruct (Forall2_at _ _ _ m (w ++ [lower_s n ++ "_" ++ x]%string, t) H) as (arr' & Ha & F).
      { apply nth_combine; [|exact Ht]. unfold apaths, arr_names. rewrite !nth_error_map, Hx. reflexivity. }
      rewrite Earr in Ha. injection Ha as <-. cbn [fst snd] in F. rewrite El in F. exact F.
Qed.
