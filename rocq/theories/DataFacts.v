(** * DataFacts: lemmas about reading tables and about NumPy operations. *)
From Coq Require Import Sorted.
From Verif Require Import Base Flt H5 Schema StoreSpec ParserSpec Data ListFacts.
Open Scope string_scope.
Open Scope Z_scope.
Open Scope list_scope.
Open Scope monad_scope.

Lemma rmap_ok {A B} (f : A -> Res B) (g : A -> B) l : (forall x, In x l -> f x = Ok (g x)) -> rmap f l = Ok (map g l).
Proof.
  induction l as [|x l IH]; intro H; [reflexivity|]. cbn [rmap map]. rewrite (H x) by now left.
  rewrite IH; [reflexivity|]. intros y Hy. apply H. now right.
Qed.
Lemma rmap_ext {A B} (f g : A -> Res B) l : (forall x, In x l -> f x = g x) -> rmap f l = rmap g l.
Proof.
  induction l as [|x l IH]; intro H; [reflexivity|]. cbn [rmap]. rewrite (H x) by now left.
  rewrite IH; [reflexivity|]. intros y Hy. apply H. now right.
Qed.
Lemma rmap_map {A B C} (f : B -> Res C) (g : A -> B) l : rmap f (map g l) = rmap (fun x => f (g x)) l.
Proof. induction l as [|x l IH]; [reflexivity|]. cbn [rmap map]. now rewrite IH. Qed.
Lemma rfilter_ok {A} (p : A -> Res bool) (q : A -> bool) l : (forall x, In x l -> p x = Ok (q x)) -> rfilter p l = Ok (filter q l).
Proof.
  induction l as [|x l IH]; intro H; [reflexivity|]. cbn [rfilter filter]. rewrite (H x) by now left. cbn [rbind].
  rewrite IH; [reflexivity|]. intros y Hy. apply H. now right.
Qed.

Lemma nth_error_seq n j : (j < n)%nat -> nth_error (seq 0 n) j = Some j.
Proof.
  intro H. rewrite (nth_error_nth' _ 0%nat) by now rewrite seq_length. f_equal. now rewrite seq_nth by exact H.
Qed.
Lemma list_by_nth {A} (l l' : list A) : length l = length l' ->
  (forall j x, nth_error l j = Some x -> nth_error l' j = Some x) -> l = l'.
Proof.
  revert l'. induction l as [|x l IH]; intros [|y l'] HL H; try discriminate; [reflexivity|].
  f_equal.
  - specialize (H 0%nat x eq_refl). cbn in H. congruence.
  - apply IH; [cbn in HL; lia|]. intros j z Hj. exact (H (S j) z Hj).
Qed.
Lemma map_seq_nth {A B} (f : A -> B) (g : nat -> B) l :
  (forall j x, nth_error l j = Some x -> g j = f x) -> map g (seq 0 (length l)) = map f l.
Proof.
  intro H. apply list_by_nth; [now rewrite !map_length, seq_length|].
  intros j y Hj. rewrite nth_error_map in Hj.
  destruct (nth_error (seq 0 (length l)) j) as [i|] eqn:E; [|discriminate].
  assert (HJ : (j < length l)%nat). { rewrite <- (seq_length (length l) 0). apply nth_error_Some. congruence. }
  rewrite nth_error_seq in E by exact HJ. injection E as <-. cbn in Hj. injection Hj as <-.
  rewrite nth_error_map. destruct (nth_error l j) as [x|] eqn:E; [|apply nth_error_None in E; lia].
  cbn. f_equal. symmetry. eauto.
Qed.
(** A whole column. *)
Lemma rmap_seq {A B} (f : A -> Res B) (g : nat -> B) l n : length l = n ->
  (forall j x, nth_error l j = Some x -> f x = Ok (g j)) -> rmap f l = Ok (map g (seq 0 n)).
Proof.
  intros <- H. revert g H. induction l as [|x l IH]; intros g H; [reflexivity|].
  cbn [rmap length seq map]. rewrite (H 0%nat x eq_refl). rewrite (IH (fun j => g (S j))).
  - rewrite <- seq_shift, map_map. reflexivity.
  - intros j y Hj. exact (H (S j) y Hj).
Qed.

Lemma pyget_nth {A} (l : list A) i x : nth_error l i = Some x -> pyget l i = Ok x.
Proof. unfold pyget. now intros ->. Qed.
Lemma pygetZ_nat {A} (l : list A) i x : nth_error l i = Some x -> pygetZ l (Z.of_nat i) = Ok x.
Proof.
  intro H. unfold pygetZ. assert (Z.of_nat i <? 0 = false) as -> by (apply Z.ltb_ge; lia). cbv zeta.
  assert (Z.of_nat i <? 0 = false) as -> by (apply Z.ltb_ge; lia). rewrite Nat2Z.id. now apply pyget_nth.
Qed.
Lemma pygetZ_pos {A} (l : list A) i x : 0 <= i -> nth_error l (Z.to_nat i) = Some x -> pygetZ l i = Ok x.
Proof. intros H E. rewrite <- (Z2Nat.id i) by exact H. now apply pygetZ_nat. Qed.

(** Taking the entries at given positions. *)
Lemma take_nat {A} (l : list A) (f : nat -> A) idx : (forall j, In j idx -> nth_error l j = Some (f j)) ->
  take l (map Z.of_nat idx) = Ok (map f idx).
Proof. intro H. unfold take. rewrite rmap_map. apply rmap_ok. intros j Hj. apply pygetZ_nat. auto. Qed.
Lemma take_seq {A} (f : nat -> A) n idx : (forall j, In j idx -> (j < n)%nat) ->
  take (map f (seq 0 n)) (map Z.of_nat idx) = Ok (map f idx).
Proof.
  intro H. apply take_nat. intros j Hj. rewrite nth_error_map, nth_error_seq by auto. reflexivity.
Qed.

(** ** np.unique *)
Lemma In_insert x y l : In y (insert x l) <-> y = x \/ In y l.
Proof.
  induction l as [|z l IH]; cbn [insert In]; [intuition|].
  destruct (x <? z); [cbn; intuition|]. destruct (Z.eqb_spec x z) as [->|]; cbn [In]; [intuition|]. rewrite IH. intuition.
Qed.
Lemma sorted_insert x l : StronglySorted Z.lt l -> StronglySorted Z.lt (insert x l).
Proof.
  induction 1 as [|y l HS IH HF]; cbn [insert]; [constructor; [constructor|constructor]|].
  destruct (Z.ltb_spec x y).
  - constructor; [constructor; assumption|]. constructor; [assumption|]. eapply Forall_impl; [|exact HF]. cbn. intros. lia.
  - destruct (Z.eqb_spec x y).
    + constructor; assumption.
    + constructor; [exact IH|]. apply Forall_forall. intros z Hz. apply In_insert in Hz. destruct Hz as [->|Hz]; [lia|].
      rewrite Forall_forall in HF. auto.
Qed.
Lemma In_unique y l : In y (unique l) <-> In y l.
Proof. unfold unique. induction l as [|x l IH]; cbn; [tauto|]. rewrite In_insert, IH. intuition. Qed.
Lemma sorted_unique l : StronglySorted Z.lt (unique l).
Proof. unfold unique. induction l as [|x l IH]; cbn; [constructor|]. now apply sorted_insert. Qed.
Lemma unique_nil l : unique l = [] -> l = [].
Proof. intro H. destruct l as [|x l]; [reflexivity|]. assert (G : In x (unique (x :: l))) by (apply In_unique; now left). rewrite H in G. destruct G. Qed.
(** Strictly increasing lists with the same members are the same. *)
Lemma sorted_same l l' : StronglySorted Z.lt l -> StronglySorted Z.lt l' -> (forall z, In z l <-> In z l') -> l = l'.
Proof.
  revert l'. induction l as [|x l IH]; intros l' H1 H2 H.
  - destruct l' as [|y l']; [reflexivity|]. exfalso. apply (H y). now left.
  - destruct l' as [|y l']; [exfalso; apply (H x); now left|].
    apply StronglySorted_inv in H1. apply StronglySorted_inv in H2. destruct H1 as [S1 F1], H2 as [S2 F2].
    rewrite Forall_forall in F1, F2.
    assert (x = y) as <-.
    { destruct (proj1 (H x) (or_introl eq_refl)) as [E|E]; [auto|].
      destruct (proj2 (H y) (or_introl eq_refl)) as [E2|E2]; [auto|]. specialize (F1 _ E2). specialize (F2 _ E). lia. }
    f_equal. apply IH; [assumption..|]. intro z. split; intro Hz.
    + destruct (proj1 (H z) (or_intror Hz)) as [<-|]; [|assumption]. specialize (F1 _ Hz). lia.
    + destruct (proj2 (H z) (or_intror Hz)) as [<-|]; [|assumption]. specialize (F2 _ Hz). lia.
Qed.
Lemma sorted_of_nat l : StronglySorted lt l -> StronglySorted Z.lt (map Z.of_nat l).
Proof.
  induction 1 as [|x l HS IH HF]; cbn [map]; constructor; [exact IH|]. rewrite Forall_map.
  eapply Forall_impl; [|exact HF]. cbn. intros. lia.
Qed.
Lemma sorted_to_nat l : StronglySorted Z.lt (map Z.of_nat l) -> StronglySorted lt l.
Proof.
  induction l as [|x l IH]; intro H; [constructor|]. cbn [map] in H. apply StronglySorted_inv in H. destruct H as [H1 H2].
  constructor; [auto|]. rewrite Forall_map in H2. eapply Forall_impl; [|exact H2]. cbn. intros. lia.
Qed.
Lemma sorted_map_mono (f : Z -> Z) l : (forall x y, x < y -> f x < f y) -> StronglySorted Z.lt l -> StronglySorted Z.lt (map f l).
Proof.
  intros Hf. induction 1 as [|x l HS IH HF]; cbn [map]; constructor; [exact IH|]. rewrite Forall_map.
  eapply Forall_impl; [|exact HF]. cbn. auto.
Qed.
Lemma sorted_seq n m : StronglySorted lt (seq m n).
Proof.
  revert m. induction n as [|n IH]; intro m; cbn [seq]; constructor; [apply IH|]. apply Forall_forall. intros x Hx. apply in_seq in Hx. lia.
Qed.
Lemma sorted_filter {A} (R : A -> A -> Prop) p l : StronglySorted R l -> StronglySorted R (filter p l).
Proof.
  induction 1 as [|x l HS IH HF]; cbn [filter]; [constructor|]. destruct (p x); [|exact IH]. constructor; [exact IH|].
  apply Forall_forall. intros y Hy. apply filter_In in Hy. rewrite Forall_forall in HF. now apply HF.
Qed.

(** ** Tables *)
Lemma holds_table h d n c : d_open d = true -> holds h (d_group d) n c ->
  get_record h d n = Ok (mkTab (descr_of n) (c_rows c), c_arrs c).
Proof.
  intros Ho [H1 H2]. unfold get_record, check_isopen. rewrite Ho. cbn [rbind].
  unfold get_child_table. unfold tpath in H1. rewrite H1. cbn [rbind].
  assert (G : rmap (fun a => get_child_array h (d_group d ++ [(lower_s n ++ "_" ++ fst a)%string])) (atoms_of n) = Ok (c_arrs c)).
  { clear H1. unfold apaths, arr_names, elts_of in H2. revert H2. generalize (c_arrs c). induction (atoms_of n) as [|a l IH]; intros arrs H2; cbn [map combine] in H2.
    - inversion H2. reflexivity.
    - inversion H2 as [|? y ? arrs' Ha Hr]. subst. cbn [rmap]. unfold get_child_array at 1. cbn [fst snd append] in Ha |- *. rewrite Ha. cbn [append] in IH.
      now rewrite (IH _ Hr). }
  now rewrite G.
Qed.
Lemma holds_record0 h d n rows arrs : d_open d = true -> holds h (d_group d) n (mkC rows arrs) ->
  record0 h d n = Ok (mkTab (descr_of n) rows).
Proof. intros Ho H. unfold record0. now rewrite (holds_table _ _ _ _ Ho H). Qed.
Lemma holds_record1 h d n rows a : d_open d = true -> holds h (d_group d) n (mkC rows [a]) ->
  record1 h d n = Ok (mkTab (descr_of n) rows, a).
Proof. intros Ho H. unfold record1. now rewrite (holds_table _ _ _ _ Ho H). Qed.

Lemma slice_range {A} (l : list A) a b : 0 <= a <= b -> b <= Zlen l ->
  Base.slice a b l = firstn (Z.to_nat (b - a)) (skipn (Z.to_nat a) l).
Proof.
  intros H1 H2. unfold Base.slice, clamp. cbv zeta.
  assert (a <? 0 = false) as -> by (apply Z.ltb_ge; lia). assert (b <? 0 = false) as -> by (apply Z.ltb_ge; lia).
  now rewrite !Z.min_l by lia.
Qed.
Lemma ints_of_CI l : ints_of (map CI l) = Ok l.
Proof. unfold ints_of. rewrite rmap_map. rewrite (rmap_ok _ (fun z => z)) by reflexivity. now rewrite map_id. Qed.
