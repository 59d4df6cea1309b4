(** * StrucExist: every selection consists of definite elements. *)
From Coq Require Import Sorted.
From Verif Require Import Base Flt H5 Schema StoreSpec ParserSpec Data Struc StrucSpec DataFacts StrucProofs StrucGet StrucRes.
Open Scope string_scope.
Open Scope Z_scope.
Open Scope list_scope.

Definition same_name (a b : list ascii) : bool := if list_eq_dec ascii_dec a b then true else false.
Lemma same_name_spec a b : same_name a b = true <-> a = b.
Proof. unfold same_name. destruct (list_eq_dec ascii_dec a b); intuition discriminate. Qed.
Fixpoint number_of (nms : list setname) (nm : list ascii) : option Z :=
  match nms with [] => None | (x, i) :: r => if same_name x nm then Some i else number_of r nm end.
Lemma number_of_spec nms nm i : number_of nms nm = Some i <-> set_no nms nm i.
Proof.
  induction nms as [|[x k] nms IH]; cbn [number_of].
  - split; [discriminate|]. intros ([|] & post & E & _); discriminate.
  - destruct (same_name x nm) eqn:E.
    + apply same_name_spec in E. subst. split.
      * intro H. injection H as ->. exists [], nms. split; [reflexivity|intros []].
      * intros (pre & post & H & Hn). destruct pre as [|[y l] pre]; cbn in H; injection H as H1 H2; [congruence|]. exfalso. apply Hn. left. cbn. congruence.
    + rewrite IH. split.
      * intros (pre & post & -> & Hn). exists ((x, k) :: pre), post. split; [reflexivity|]. intros [H|H]; [|auto]. cbn in H. apply same_name_spec in H. congruence.
      * intros (pre & post & H & Hn). destruct pre as [|[y l] pre]; cbn in H; injection H as H1 H2.
        { exfalso. apply same_name_spec in H1. congruence. }
        subst. exists pre, post. split; [reflexivity|]. intro K. apply Hn. now right.
Qed.
Definition memberb (nms : list setname) (ms : list memrec) (nm : list ascii) (z : Z) : bool :=
  match number_of nms nm with
  | Some i => existsb (fun m => (fst (fst m) =? i) && (snd (fst m) =? 2) && zmem z (snd m)) ms
  | None => false
  end.
Lemma memberb_spec nms ms nm z : memberb nms ms nm z = true <-> in_set nms ms nm z.
Proof.
  unfold memberb, in_set. split.
  - destruct (number_of nms nm) as [i|] eqn:E; [|discriminate]. intro H. apply existsb_exists in H. destruct H as ([[a b] l] & H1 & H2).
    cbn [fst snd] in H2. rewrite !andb_true_iff, !Z.eqb_eq, zmem_spec in H2. destruct H2 as [[-> ->] H2]. exists i, l. split; [now apply number_of_spec|]. tauto.
  - intros (i & l & H1 & H2 & H3). apply number_of_spec in H1. rewrite H1. apply existsb_exists. exists (i, 2, l). split; [exact H2|]. cbn [fst snd].
    rewrite !Z.eqb_refl. now apply zmem_spec.
Qed.
Definition kindb (kind : string) (t : Z) : bool :=
  String.eqb kind "" || (String.eqb kind "beam" && zmem t beam_types) || (String.eqb kind "shell" && zmem t shell_types).
Lemma kindb_spec kind t : kindb kind t = true <-> of_kind kind t.
Proof. unfold kindb, of_kind. rewrite !orb_true_iff, !andb_true_iff, !zmem_spec, !String.eqb_eq. tauto. Qed.
Definition wantedb (es : list melem) (nms : list setname) (ms : list memrec) (sets : list (list ascii)) (kind : string) (j : nat) : bool :=
  match nth_error es j with
  | Some e => match sets with [] => true | _ => existsb (fun nm => memberb nms ms nm (no_of j)) sets end && kindb kind (el_typ e)
  | None => false
  end.
Lemma wantedb_spec es nms ms sets kind j : wantedb es nms ms sets kind j = true <-> wanted es nms ms sets kind j.
Proof.
  unfold wantedb, wanted. split.
  - destruct (nth_error es j) as [e|]; [|discriminate]. rewrite andb_true_iff, kindb_spec. intros [H1 H2]. exists e. split; [reflexivity|]. split; [|exact H2].
    destruct sets as [|s sets]; [now left|]. right. apply existsb_exists in H1. destruct H1 as (nm & H1 & H3). apply memberb_spec in H3. eauto.
  - intros (e & -> & H1 & H2). rewrite andb_true_iff, kindb_spec. split; [|exact H2]. destruct H1 as [->|(nm & H1 & H3)]; [reflexivity|].
    destruct sets as [|s sets]; [destruct H1|]. apply existsb_exists. exists nm. split; [exact H1|]. now apply memberb_spec.
Qed.
Definition selection (es : list melem) (nms : list setname) (ms : list memrec) (sets : list (list ascii)) (kind : string) : list nat :=
  filter (wantedb es nms ms sets kind) (seq 0 (length es)).
Lemma selection_spec es nms ms sets kind : selected es nms ms sets kind (selection es nms ms sets kind).
Proof.
  split; [apply sorted_filter, sorted_seq|]. intro j. unfold selection. rewrite filter_In, wantedb_spec, in_seq. split; [tauto|]. intro H. split; [|exact H].
  destruct H as (e & H & _). assert (j < length es)%nat by (apply nth_error_Some; congruence). lia.
Qed.
Lemma selected_unique es nms ms sets kind idx : selected es nms ms sets kind idx -> idx = selection es nms ms sets kind.
Proof.
  intros [H1 H2]. symmetry. apply filter_same; [apply sorted_seq|exact H1|]. intro j. rewrite wantedb_spec, H2, in_seq. split; [tauto|]. intro H. split; [|exact H].
  destruct H as (e & H & _). assert (j < length es)%nat by (apply nth_error_Some; congruence). lia.
Qed.
Lemma exists_selected es nms ms sets kind : exists idx, selected es nms ms sets kind idx /\ forall idx', selected es nms ms sets kind idx' -> idx' = idx.
Proof. exists (selection es nms ms sets kind). split; [apply selection_spec|]. apply selected_unique. Qed.

(** A proper selection, checked. *)
Definition properb (es : list melem) (nms : list setname) (ms : list memrec) (sets : list (list ascii)) (kind : string) : bool :=
  forallb (fun nm => match number_of nms nm with Some _ => true | None => false end) sets &&
  existsb (fun nm => match number_of nms nm with Some i => existsb (fun m => (fst (fst m) =? i) && (snd (fst m) =? 2)) ms | None => false end) sets &&
  forallb (fun nm => match number_of nms nm with
                     | Some i => forallb (fun m => negb ((fst (fst m) =? i) && (snd (fst m) =? 2)) || forallb (fun z => (1 <=? z) && (z <=? Zlen es)) (snd m)) ms
                     | None => true end) sets.
Lemma properb_spec h w es nms ms sets kind : (sets <> [] -> setnames_in h w nms /\ members_in h w ms) ->
  (match sets with [] => true | _ => properb es nms ms sets kind end = true) -> In kind [""; "beam"; "shell"] ->
  proper h w es nms ms sets kind.
Proof.
  intros H1 H2 H3. split; [|exact H3]. intro Hne. destruct (H1 Hne) as [A1 A2]. split; [exact A1|]. split; [exact A2|].
  assert (properb es nms ms sets kind = true) as HB by (destruct sets; [congruence|exact H2]). unfold properb in HB. rewrite !andb_true_iff in HB.
  destruct HB as [[B1 B2] B3]. rewrite forallb_forall in B1, B3. apply existsb_exists in B2. split; [|split].
  - intros nm Hn. specialize (B1 nm Hn). destruct (number_of nms nm) as [i|] eqn:E; [|discriminate]. exists i. now apply number_of_spec.
  - destruct B2 as (nm & Hn & B2). destruct (number_of nms nm) as [i|] eqn:E; [|discriminate]. apply existsb_exists in B2. destruct B2 as ([[a b] l] & H & K).
    cbn [fst snd] in K. rewrite andb_true_iff, !Z.eqb_eq in K. destruct K as [-> ->]. exists nm, i, l. split; [exact Hn|]. split; [now apply number_of_spec|exact H].
  - intros nm z Hn (i & l & Hi & Hm & Hz). specialize (B3 nm Hn). apply number_of_spec in Hi. rewrite Hi in B3. rewrite forallb_forall in B3. specialize (B3 _ Hm).
    cbn [fst snd] in B3. rewrite !Z.eqb_refl in B3. cbn [negb andb orb] in B3. rewrite forallb_forall in B3. specialize (B3 z Hz). lia.
Qed.

(** The nodes of a selection are determined. *)
Lemma sorted_nat_same l : forall l', StronglySorted lt l -> StronglySorted lt l' -> (forall z, In z l <-> In z l') -> l = l'.
Proof.
  induction l as [|x l IH]; intros [|y l'] S S' H; trivial.
  - destruct (proj2 (H y) (or_introl eq_refl)).
  - destruct (proj1 (H x) (or_introl eq_refl)).
  - inversion S as [|? ? S1 F1]; inversion S' as [|? ? S2 F2]; subst. rewrite Forall_forall in F1, F2.
    assert (x = y) as ->.
    { destruct (proj1 (H x) (or_introl eq_refl)) as [E|I]; [now symmetry|]. destruct (proj2 (H y) (or_introl eq_refl)) as [E|J]; [exact E|].
      specialize (F1 y J). specialize (F2 x I). lia. }
    f_equal. apply IH; trivial. intro z. split; intro I.
    + destruct (proj1 (H z) (or_intror I)) as [<-|]; trivial. specialize (F1 y I). lia.
    + destruct (proj2 (H z) (or_intror I)) as [<-|]; trivial. specialize (F2 y I). lia.
Qed.
Lemma selected_nodes_unique ns es w dis idx a b : selected_nodes ns es w dis idx a -> selected_nodes ns es w dis idx b -> a = b.
Proof.
  unfold selected_nodes. destruct dis.
  - intros Ha Hb. rewrite <- Ha in Hb. clear Ha. symmetry. revert b Hb. induction a as [|x a IH]; intros [|y b] H; try discriminate; [reflexivity|].
    injection H as H1 H2. apply Nat2Z.inj in H1 || (unfold no_of in H1; assert (y = x) as -> by lia). f_equal. now apply IH.
  - intros [Sa Ia] [Sb Ib]. apply sorted_nat_same; trivial. intro j. rewrite Ia, Ib. reflexivity.
Qed.
