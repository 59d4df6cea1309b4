(** * SetArgProofs: conditions of set names read back. *)
From Verif Require Import Base ListFacts Flt H5 Schema StoreSpec Data Struc StrucSpec DataFacts Listing SetArg.
Open Scope string_scope.
Open Scope Z_scope.
Open Scope list_scope.
Open Scope monad_scope.

Lemma unquote_char q c t : q = single \/ q = double ->
  unquote q (repr_char q c ++ t) = match unquote q t with Some (s, u) => Some (c :: s, u) | None => None end.
Proof. intros [-> | ->]; destruct c as [[] [] [] [] [] [] [] []]; reflexivity. Qed.
Lemma unquote_all q s : q = single \/ q = double -> unquote q (flat_map (repr_char q) s ++ [q]) = Some (s, []).
Proof.
  intro Q. induction s as [|c s IH]; [cbn [flat_map app unquote]; now rewrite Ascii.eqb_refl|].
  cbn [flat_map]. rewrite <- app_assoc, unquote_char by exact Q. now rewrite IH.
Qed.
Lemma compared_str s : compared (condition (PStr s)) = Ok s.
Proof.
  unfold compared, condition, repr_of. change (skipn 7 (s2l "name==b" ++ s2l (py_repr (l2s s)))) with (s2l (py_repr (l2s s))).
  unfold py_repr. rewrite !s2l_l2s. set (q := if has_char single s && negb (has_char double s) then double else single).
  assert (Q : q = single \/ q = double) by (unfold q; destruct (has_char single s && negb (has_char double s))%bool; tauto).
  cbn [app]. replace (Ascii.eqb q single || Ascii.eqb q double)%bool with true by (destruct Q as [-> | ->]; reflexivity).
  now rewrite unquote_all.
Qed.
Lemma compared_bytes s : compared (condition (PBytes s)) = Err NameError.
Proof. reflexivity. Qed.
Lemma compared_code c : compared (condition (PInt (code c))) = Err NameError.
Proof. destruct c as [[] [] [] [] [] [] [] []]; vm_compute; reflexivity. Qed.

Lemma rmap_first {A B} (f : A -> Res B) x l e : f x = Err e -> rmap f (x :: l) = Err e.
Proof. intro H. cbn [rmap]. now rewrite H. Qed.

Section One.
  Variables (h : h5) (d : sdata).
  Lemma members_str l istype : values (SSeq (map PStr l)) = Ok (map PStr l) /\ setmember_indices h d (SSeq (map PStr l)) istype = get_setmember_indices h d l istype.
  Proof.
    split; [reflexivity|]. unfold setmember_indices, get_setmember_indices, values.
    destruct (record1 h d "TDSETNAM") as [[t tx]|e]; [|reflexivity]. cbn [rbind]. destruct (record1 h d "GSETMEMB") as [[g ir]|e]; [|reflexivity]. cbn [rbind].
    rewrite rmap_map. erewrite rmap_ext; [reflexivity|]. intros x _. cbv beta. rewrite compared_str. reflexivity.
  Qed.
  Lemma members_one s istype : setmember_indices h d (SOne (PStr s)) istype = get_setmember_indices h d [s] istype.
  Proof. exact (proj2 (members_str [s] istype)). Qed.
  Lemma members_bad t tx g ir a v vs istype e : record1 h d "TDSETNAM" = Ok (t, tx) -> record1 h d "GSETMEMB" = Ok (g, ir) -> values a = Ok (v :: vs) ->
    compared (condition v) = Err e -> setmember_indices h d a istype = Err e.
  Proof. intros E1 E2 E3 E4. unfold setmember_indices. rewrite E1. cbn [rbind]. rewrite E2. cbn [rbind]. rewrite E3. cbn [rbind]. rewrite (rmap_first _ v vs e); [reflexivity|]. now rewrite E4. Qed.
  Lemma numbers_str l kind nt : elementnumbers h d (SSeq (map PStr l)) kind nt = get_elementnumbers h d l kind nt.
  Proof.
    unfold elementnumbers, get_elementnumbers. destruct (record1 h d "GELMNT1") as [[t tx]|e] eqn:E; [|reflexivity]. cbn [rbind]. destruct (elem_col nt) as [c|e]; [|reflexivity]. cbn [rbind].
    replace (given_sets (SSeq (map PStr l))) with (some_sets l) by (destruct l; reflexivity).
    assert (K : elementindices h d (SSeq (map PStr l)) kind = get_elementindices h d l kind).
    { unfold elementindices, get_elementindices. destruct l as [|x l]; [reflexivity|]. cbn [given_sets map some_sets]. rewrite (proj2 (members_str (x :: l) 2) : setmember_indices h d (SSeq (PStr x :: map PStr l)) 2 = _). reflexivity. }
    now rewrite K.
  Qed.
  Lemma numbers_one s kind nt : s <> [] -> elementnumbers h d (SOne (PStr s)) kind nt = get_elementnumbers h d [s] kind nt.
  Proof.
    intro N. rewrite <- (numbers_str [s]). unfold elementnumbers, elementindices. destruct s as [|c s]; [now elim N|]. reflexivity.
  Qed.
End One.
