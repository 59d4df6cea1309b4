(** * NdProofs: entries of arrays with moved axes. *)
From Coq Require Import Permutation.
From Verif Require Import Base Flt H5 Nd.
Open Scope list_scope.

Lemma inside_length sh idx : inside sh idx = true -> length idx = length sh.
Proof. revert idx. induction sh as [|n sh IH]; intros [|i idx] H; cbn in *; try discriminate; [reflexivity|]. apply andb_prop in H as [_ H]. f_equal. auto. Qed.
Lemma inside_nth sh idx : inside sh idx = true <-> length idx = length sh /\ forall k, (k < length sh)%nat -> (nth k idx 0 < nth k sh 0)%nat.
Proof.
  revert idx. induction sh as [|n sh IH]; intros [|i idx]; cbn [inside length]; split; try (intro H; discriminate); try (intros [H _]; discriminate).
  - intros _. split; [reflexivity|]. intros k Hk. lia.
  - intros _. reflexivity.
  - intro H. apply andb_prop in H as [H1 H2]. apply Nat.ltb_lt in H1. apply IH in H2 as [HL H2]. split; [lia|]. intros [|k] Hk; cbn; [exact H1|apply H2; lia].
  - intros [HL H]. apply andb_true_intro. split; [apply Nat.ltb_lt; apply (H 0%nat); lia|]. apply IH. split; [lia|]. intros k Hk. apply (H (S k)). lia.
Qed.
Lemma ravel_lt sh idx : inside sh idx = true -> (ravel sh idx < size sh)%nat.
Proof.
  revert idx. induction sh as [|n sh IH]; intros [|i idx] H; cbn in H; try discriminate; [cbn; lia|].
  apply andb_prop in H as [H1 H2]. apply Nat.ltb_lt in H1. specialize (IH idx H2). cbn [ravel size fold_right]. fold (size sh). nia.
Qed.
Lemma indices_length sh : length (indices sh) = size sh.
Proof.
  induction sh as [|n sh IH]; [reflexivity|]. cbn [indices size fold_right]. fold (size sh). rewrite <- IH. generalize 0%nat.
  induction n as [|n IHn]; intro s; [reflexivity|]. cbn [seq flat_map]. rewrite app_length, IHn, map_length. lia.
Qed.
Lemma nth_blocks {A B} (f : A -> list B) m l i k x : (forall a, In a l -> length (f a) = m) -> nth_error l i = Some x -> (k < m)%nat ->
  nth_error (flat_map f l) (i * m + k) = nth_error (f x) k.
Proof.
  revert i. induction l as [|a l IH]; intros [|i] HL Hi Hk; cbn in Hi; try discriminate; cbn [flat_map].
  - injection Hi as ->. apply nth_error_app1. rewrite HL by now left. lia.
  - rewrite nth_error_app2 by (rewrite HL by (now left); lia). rewrite HL by now left.
    replace (S i * m + k - m)%nat with (i * m + k)%nat by lia. apply IH; auto. intros b Hb. apply HL. now right.
Qed.
Lemma nth_error_seq0 n i : (i < n)%nat -> nth_error (seq 0 n) i = Some i.
Proof. intro H. rewrite (nth_error_nth' _ 0%nat) by now rewrite seq_length. f_equal. now rewrite seq_nth. Qed.
Lemma indices_nth sh idx : inside sh idx = true -> nth_error (indices sh) (ravel sh idx) = Some idx.
Proof.
  revert idx. induction sh as [|n sh IH]; intros [|i idx] H; cbn in H; try discriminate; [reflexivity|].
  apply andb_prop in H as [H1 H2]. apply Nat.ltb_lt in H1. cbn [indices ravel].
  rewrite (nth_blocks (fun i => map (cons i) (indices sh)) (size sh) (seq 0 n) i _ i).
  - rewrite nth_error_map, IH by exact H2. reflexivity.
  - intros a _. now rewrite map_length, indices_length.
  - now apply nth_error_seq0.
  - now apply ravel_lt.
Qed.
Lemma indices_inside sh idx : In idx (indices sh) -> inside sh idx = true.
Proof.
  revert idx. induction sh as [|n sh IH]; intros idx H; cbn in H.
  - destruct H as [<-|[]]. reflexivity.
  - apply in_flat_map in H as (i & Hi & H). apply in_map_iff in H as (r & <- & Hr). cbn. apply in_seq in Hi.
    apply andb_true_intro. split; [apply Nat.ltb_lt; lia|auto].
Qed.

Lemma optmap_total {A B} (f : A -> option B) l n : (forall x, In x l -> f x <> None) ->
  nth_error (optmap f l) n = match nth_error l n with Some x => f x | None => None end.
Proof.
  revert n. induction l as [|x l IH]; intros n H; [destruct n; reflexivity|].
  cbn [optmap]. destruct (f x) as [y|] eqn:E; [|exfalso; apply (H x); [now left|exact E]].
  destruct n; cbn [nth_error]; [now rewrite E|]. apply IH. intros z Hz. apply H. now right.
Qed.
Lemma optmap_length {A B} (f : A -> option B) l : (forall x, In x l -> f x <> None) -> length (optmap f l) = length l.
Proof.
  induction l as [|x l IH]; intro H; [reflexivity|]. cbn [optmap]. destruct (f x) eqn:E; [|exfalso; apply (H x); [now left|exact E]].
  cbn. f_equal. apply IH. intros z Hz. apply H. now right.
Qed.

(** An array has as many entries as its shape says. *)
Definition wf {A} (a : nd A) : Prop := length (n_flat a) = size (n_shape a).
Lemma at_some {A} (a : nd A) idx : wf a -> inside (n_shape a) idx = true -> at_ a idx <> None.
Proof. intros W H. unfold at_. rewrite H. apply nth_error_Some. rewrite W. now apply ravel_lt. Qed.

Lemma find_pos_nth x l : In x l -> (find_pos x l < length l)%nat /\ nth (find_pos x l) l 0%nat = x.
Proof.
  induction l as [|y l IH]; intro H; [destruct H|]. cbn [find_pos]. destruct (Nat.eqb_spec x y) as [->|E]; [cbn; split; [lia|reflexivity]|].
  destruct H as [->|H]; [congruence|]. destruct (IH H). cbn. split; [lia|assumption].
Qed.
Section Transpose.
  Context {A : Type} (a : nd A) (axes : list nat).
  Hypothesis W : wf a.
  Hypothesis P : Permutation axes (seq 0 (length (n_shape a))).
  Let sh := map (fun k => nth k (n_shape a) 0%nat) axes.
  Let src (idx : list nat) := map (fun k => nth (find_pos k axes) idx 0%nat) (seq 0 (length axes)).

  Lemma axes_length : length axes = length (n_shape a).
  Proof. rewrite (Permutation_length P). apply seq_length. Qed.
  Lemma src_inside idx : inside sh idx = true -> inside (n_shape a) (src idx) = true.
  Proof.
    intro H. apply inside_nth in H as [HL H]. unfold sh in HL, H. rewrite map_length in HL, H. apply inside_nth. unfold src. rewrite map_length, seq_length.
    split; [apply axes_length|]. intros k Hk.
    rewrite (nth_indep _ 0%nat ((fun k => nth (find_pos k axes) idx 0%nat) 0%nat)) by (rewrite map_length, seq_length, axes_length; exact Hk).
    rewrite (map_nth (fun k => nth (find_pos k axes) idx 0%nat)), seq_nth by (rewrite axes_length; exact Hk). cbn [plus].
    assert (HI : In k axes). { apply (Permutation_in _ (Permutation_sym P)). apply in_seq. lia. }
    destruct (find_pos_nth k axes HI) as [K1 K2]. specialize (H _ K1).
    rewrite (nth_indep (map _ axes) 0%nat ((fun k => nth k (n_shape a) 0%nat) 0%nat)) in H by (rewrite map_length; exact K1).
    rewrite (map_nth (fun k => nth k (n_shape a) 0%nat)), K2 in H. exact H.
  Qed.
  Lemma at_transpose idx : inside sh idx = true -> at_ (transpose a axes) idx = at_ a (src idx).
  Proof.
    intro H. unfold at_ at 1. cbn [transpose n_shape n_flat]. fold sh. rewrite H. rewrite optmap_total.
    - rewrite indices_nth by exact H. reflexivity.
    - intros j Hj. apply at_some; [exact W|]. apply src_inside. now apply indices_inside.
  Qed.
  Lemma transpose_wf : wf (transpose a axes).
  Proof.
    unfold wf. cbn [transpose n_shape n_flat]. rewrite optmap_length; [apply indices_length|].
    intros j Hj. apply at_some; [exact W|]. apply src_inside. now apply indices_inside.
  Qed.
End Transpose.

(** ** The uses *)
Ltac perm := repeat (first [apply perm_nil | apply perm_skip | match goal with |- Permutation (?x :: ?l) _ => idtac end]).
Ltac ins_ := apply inside_nth; split; [reflexivity|]; intros [|[|[|[|nn]]]] Hn; cbn in Hn |- *; try lia.
Lemma perm_check l n : (forallb (fun k => existsb (Nat.eqb k) l) (seq 0 n) && Nat.eqb (length l) n)%bool = true -> Permutation l (seq 0 n).
Proof.
  intro H. apply andb_prop in H as [H1 H2]. apply Nat.eqb_eq in H2. symmetry. apply NoDup_Permutation_bis.
  - apply seq_NoDup.
  - rewrite seq_length. lia.
  - intros k Hk. rewrite forallb_forall in H1. specialize (H1 k Hk). apply existsb_exists in H1 as (y & Hy & E). apply Nat.eqb_eq in E. now subst.
Qed.
Lemma roll3 {A} (fl : list A) p q r i j k : length fl = (p * (q * (r * 1)))%nat -> (i < p)%nat -> (j < q)%nat -> (k < r)%nat ->
  let a := mkNd [p; q; r] fl in
  n_shape (rollaxis a 2 0) = [r; p; q] /\ at_ (rollaxis a 2 0) [k; i; j] = nth_error fl ((i * q + j) * r + k)%nat.
Proof.
  intros HL Hi Hj Hk a. split; [reflexivity|]. unfold rollaxis. rewrite at_transpose.
  - transitivity (at_ a [i; j; k]); [reflexivity|]. unfold at_, a. cbn [n_shape inside n_flat]. rewrite (proj2 (Nat.ltb_lt i p) Hi), (proj2 (Nat.ltb_lt j q) Hj), (proj2 (Nat.ltb_lt k r) Hk). cbn [andb ravel size fold_right]. f_equal. nia.
  - exact HL.
  - apply perm_check. reflexivity.
  - ins_.
Qed.
Lemma roll4 {A} (fl : list A) s p q r t i j k : length fl = (s * (p * (q * (r * 1))))%nat -> (t < s)%nat -> (i < p)%nat -> (j < q)%nat -> (k < r)%nat ->
  let a := mkNd [s; p; q; r] fl in
  n_shape (rollaxis a 3 1) = [s; r; p; q] /\ at_ (rollaxis a 3 1) [t; k; i; j] = nth_error fl (((t * p + i) * q + j) * r + k)%nat.
Proof.
  intros HL Ht Hi Hj Hk a. split; [reflexivity|]. unfold rollaxis. rewrite at_transpose.
  - transitivity (at_ a [t; i; j; k]); [reflexivity|]. unfold at_, a. cbn [n_shape inside n_flat]. rewrite (proj2 (Nat.ltb_lt t s) Ht), (proj2 (Nat.ltb_lt i p) Hi), (proj2 (Nat.ltb_lt j q) Hj), (proj2 (Nat.ltb_lt k r) Hk). cbn [andb ravel size fold_right]. f_equal. nia.
  - exact HL.
  - apply perm_check. reflexivity.
  - ins_.
Qed.
Lemma roll_twice {A} (fl : list A) p q s r i j t k : length fl = (p * (q * (s * (r * 1))))%nat -> (i < p)%nat -> (j < q)%nat -> (t < s)%nat -> (k < r)%nat ->
  let a := mkNd [p; q; s; r] fl in
  n_shape (rollaxis (rollaxis a 3 0) 3 0) = [s; r; p; q] /\ at_ (rollaxis (rollaxis a 3 0) 3 0) [t; k; i; j] = nth_error fl (((i * q + j) * s + t) * r + k)%nat.
Proof.
  intros HL Hi Hj Ht Hk a. split; [reflexivity|].
  assert (W : wf a) by exact HL.
  assert (P : Permutation (insert_at 0 3%nat (without 3 (seq 0 4))) (seq 0 (length (n_shape a)))) by (apply perm_check; reflexivity).
  unfold rollaxis at 1. rewrite at_transpose.
  - cbn [transpose rollaxis n_shape]. unfold rollaxis. rewrite at_transpose.
    + transitivity (at_ a [i; j; t; k]); [reflexivity|]. unfold at_, a. cbn [n_shape inside n_flat]. rewrite (proj2 (Nat.ltb_lt t s) Ht), (proj2 (Nat.ltb_lt i p) Hi), (proj2 (Nat.ltb_lt j q) Hj), (proj2 (Nat.ltb_lt k r) Hk). cbn [andb ravel size fold_right]. f_equal. nia.
    + exact W.
    + exact P.
    + ins_.
  - unfold rollaxis. apply transpose_wf; [exact W|exact P].
  - apply perm_check. reflexivity.
  - ins_.
Qed.
Lemma move_two {A} (fl : list A) p q s r i j t k : length fl = (p * (q * (s * (r * 1))))%nat -> (i < p)%nat -> (j < q)%nat -> (t < s)%nat -> (k < r)%nat ->
  let a := mkNd [p; q; s; r] fl in
  n_shape (moveaxis a [(0, 3); (1, 2)]%nat) = [r; s; p; q] /\ at_ (moveaxis a [(0, 3); (1, 2)]%nat) [k; t; i; j] = nth_error fl (((i * q + j) * s + t) * r + k)%nat.
Proof.
  intros HL Hi Hj Ht Hk a. split; [reflexivity|]. unfold moveaxis. rewrite at_transpose.
  - transitivity (at_ a [i; j; t; k]); [reflexivity|]. unfold at_, a. cbn [n_shape inside n_flat]. rewrite (proj2 (Nat.ltb_lt t s) Ht), (proj2 (Nat.ltb_lt i p) Hi), (proj2 (Nat.ltb_lt j q) Hj), (proj2 (Nat.ltb_lt k r) Hk). cbn [andb ravel size fold_right]. f_equal. nia.
  - exact HL.
  - apply perm_check. reflexivity.
  - ins_.
Qed.
Lemma roll_last {A} (fl : list A) n p q f i j : length fl = (n * (p * (q * 1)))%nat -> (f < n)%nat -> (i < p)%nat -> (j < q)%nat ->
  let a := mkNd [n; p; q] fl in
  n_shape (rollaxis a 0 3) = [p; q; n] /\ at_ (rollaxis a 0 3) [i; j; f] = nth_error fl ((f * p + i) * q + j)%nat.
Proof.
  intros HL Hf Hi Hj a. split; [reflexivity|]. unfold rollaxis. rewrite at_transpose.
  - transitivity (at_ a [f; i; j]); [reflexivity|]. unfold at_, a. cbn [n_shape inside n_flat]. rewrite (proj2 (Nat.ltb_lt f n) Hf), (proj2 (Nat.ltb_lt i p) Hi), (proj2 (Nat.ltb_lt j q) Hj). cbn [andb ravel size fold_right]. f_equal. nia.
  - exact HL.
  - apply perm_check. reflexivity.
  - ins_.
Qed.
