(** * HydroUnique: distinct numbers. *)
From Coq Require Import Sorted Permutation.
From Verif Require Import Base Flt H5 Schema Data DataFacts Nd Hydro HydroSpec FltOrder.
Open Scope Z_scope.
Open Scope list_scope.
Open Scope monad_scope.

Definition R (p q : flt * Z) : Prop := less (fst p) (fst q) \/ same (fst p) (fst q) /\ snd p < snd q.
Lemma R_irrefl p : ~ R p p.
Proof. intros [H|[_ H]]; [|lia]. exact (less_not _ _ H (same_refl _)). Qed.
Lemma R_trans p q r : R p q -> R q r -> R p r.
Proof.
  intros [A|[A A']] [B|[B B']].
  - left. eapply less_trans; eassumption.
  - left. eapply less_same_r; eassumption.
  - left. eapply less_same_l; eassumption.
  - right. split; [eapply same_trans; eassumption|lia].
Qed.
Lemma place_perm (x : flt * Z) l : Permutation (place x l) (x :: l).
Proof.
  induction l as [|y l IH]; [apply Permutation_refl|]. cbn [place]. destruct (np_lt (fst y) (fst x)); [|apply Permutation_refl].
  etransitivity; [apply perm_skip; exact IH|]. apply perm_swap.
Qed.
Lemma argsort_perm (l : list (flt * Z)) : Permutation (argsort l) l.
Proof. induction l as [|x l IH]; [apply Permutation_refl|]. cbn. etransitivity; [apply place_perm|]. now apply perm_skip. Qed.
Lemma place_sorted x l : StronglySorted R l -> Forall (fun q => snd x < snd q) l -> StronglySorted R (place x l).
Proof.
  induction 1 as [|y l HS IH HF]; intro HX; cbn [place]; [repeat constructor|]. inversion HX as [|? ? HY HX']; subst.
  destruct (np_lt (fst y) (fst x)) eqn:E.
  - constructor; [now apply IH|]. apply Forall_forall. intros z Hz. apply (Permutation_in _ (place_perm x l)) in Hz. destruct Hz as [<-|Hz].
    + left. now apply np_lt_less.
    + rewrite Forall_forall in HF. auto.
  - assert (RXY : R x y).
    { assert (N : ~ less (fst y) (fst x)) by (rewrite <- np_lt_less; congruence). destruct (not_less _ _ N) as [S|S]; [right; split; [exact S|lia]|now left]. }
    constructor; [constructor; assumption|]. constructor; [exact RXY|]. eapply Forall_impl; [|exact HF]. intros z Hz. eapply R_trans; eassumption.
Qed.
Lemma argsort_sorted l : StronglySorted (fun p q => snd p < snd q) l -> StronglySorted R (argsort l).
Proof.
  induction 1 as [|x l HS IH HF]; [constructor|]. cbn. apply place_sorted; [exact IH|].
  apply Forall_forall. intros q Hq. apply (Permutation_in _ (argsort_perm l)) in Hq. rewrite Forall_forall in HF. auto.
Qed.

Definition prior (prev : option flt) (l : list (flt * Z)) : Prop := forall x, prev = Some x -> forall q, In q l -> same x (fst q) \/ less x (fst q).
Lemma prior_tail x i l : StronglySorted R ((x, i) :: l) -> prior (Some x) l.
Proof.
  intros HS y Hy q Hq. injection Hy as <-. apply StronglySorted_inv in HS as [_ HF]. rewrite Forall_forall in HF.
  destruct (HF q Hq) as [L|[L _]]; [now right|now left].
Qed.
Lemma heads_spec l : StronglySorted R l -> forall prev, prior prev l -> forall p,
  In p (heads prev l) <->
  In p l /\ (forall q, In q l -> same (fst q) (fst p) -> q = p \/ snd p < snd q) /\ (forall x, prev = Some x -> ~ same x (fst p)).
Proof.
  induction 1 as [|[x i] l HS IH HF]; intros prev HP p; cbn [heads].
  - cbn. tauto.
  - assert (HT : prior (Some x) l) by (apply (prior_tail x i); constructor; assumption).
    specialize (IH (Some x) HT). rewrite Forall_forall in HF.
    assert (Rest : In p (heads (Some x) l) -> In p ((x, i) :: l) /\ (forall q, In q ((x, i) :: l) -> same (fst q) (fst p) -> q = p \/ snd p < snd q) /\ (forall y, prev = Some y -> ~ same y (fst p))).
    { intro H. apply IH in H as (H1 & H2 & H3). split; [now right|]. split.
      - intros q [<-|Hq] Hs; [|auto]. exfalso. exact (H3 x eq_refl Hs).
      - intros y Hy Hs. assert (L : less x (fst p)) by (destruct (HF p H1) as [L|[L _]]; [exact L|exfalso; exact (H3 x eq_refl L)]).
        destruct (HP y Hy (x, i) (or_introl eq_refl)) as [S|S]; cbn [fst] in S.
        + exact (less_not _ _ (less_same_l _ _ _ S L) Hs).
        + exact (less_not _ _ (less_trans _ _ _ S L) Hs). }
    assert (Back : In p l -> (forall q, In q ((x, i) :: l) -> same (fst q) (fst p) -> q = p \/ snd p < snd q) -> In p (heads (Some x) l)).
    { intros H1 H2. apply IH. split; [exact H1|]. split; [intros q Hq; apply H2; now right|]. intros y Hy Hs. injection Hy as <-.
      destruct (H2 (x, i) (or_introl eq_refl) Hs) as [<-|Hlt]; [exact (R_irrefl _ (HF _ H1))|]. cbn [snd] in Hlt.
      destruct (HF p H1) as [L|[_ L]]; [exact (less_not _ _ L Hs)|cbn [snd] in L; lia]. }
    assert (Front : forall (Hp : forall y, prev = Some y -> ~ same y x),
      In (x, i) ((x, i) :: l) /\ (forall q, In q ((x, i) :: l) -> same (fst q) x -> q = (x, i) \/ i < snd q) /\ (forall y, prev = Some y -> ~ same y x)).
    { intro Hp. split; [now left|]. split; [|exact Hp]. intros q [<-|Hq] Hs; [now left|right]. destruct (HF q Hq) as [L|[_ L]]; [|exact L].
      exfalso. exact (less_not _ _ L (same_sym _ _ Hs)). }
    destruct prev as [y|].
    + destruct (np_same y x) eqn:E.
      * apply np_same_same in E. split; [apply Rest|]. intros ([<-|H1] & H2 & H3); [exfalso; exact (H3 y eq_refl E)|]. now apply Back.
      * assert (Hp : forall z, Some y = Some z -> ~ same z x) by (intros z Hz; injection Hz as <-; rewrite <- np_same_same; congruence).
        cbn [In]. split; [intros [<-|H]; [now apply Front|now apply Rest]|]. intros ([H1|H1] & H2 & H3); [now left|right; now apply Back].
    + cbn [In]. split; [intros [<-|H]; [apply Front; discriminate|now apply Rest]|]. intros ([H1|H1] & H2 & H3); [now left|right; now apply Back].
Qed.
Lemma heads_less l : StronglySorted R l -> forall prev, prior prev l -> StronglySorted less (map fst (heads prev l)).
Proof.
  induction 1 as [|[x i] l HS IH HF]; intros prev HP; cbn [heads]; [constructor|].
  assert (HT : prior (Some x) l) by (apply (prior_tail x i); constructor; assumption).
  assert (G : StronglySorted less (x :: map fst (heads (Some x) l))).
  { constructor; [exact (IH _ HT)|]. rewrite Forall_map. apply Forall_forall. intros p Hp. apply (heads_spec l HS (Some x) HT) in Hp as (H1 & _ & H3).
    rewrite Forall_forall in HF. destruct (HF p H1) as [L|[L _]]; [exact L|]. exfalso. exact (H3 x eq_refl L). }
  destruct prev as [y|]; [destruct (np_same y x)|]; cbn [map fst]; [exact (IH _ HT)|exact G|exact G].
Qed.

(** Numbered lists *)
Lemma In_number {A} (l : list A) x i : In (x, i) (number l) <-> 0 <= i /\ nth_error l (Z.to_nat i) = Some x.
Proof.
  unfold number, arange. enough (G : forall l s, In (x, i) (combine l (map Z.of_nat (seq s (length l)))) <-> Z.of_nat s <= i /\ nth_error l (Z.to_nat i - s) = Some x).
  { rewrite G. rewrite Nat.sub_0_r. reflexivity. }
  clear l. induction l as [|y l IH]; intro s; cbn [length seq map combine In].
  - destruct (Z.to_nat i - s)%nat; cbn; intuition discriminate.
  - rewrite IH. split.
    + intros [E|[H1 H2]]; [injection E as -> <-; split; [lia|]; rewrite Nat2Z.id, Nat.sub_diag; reflexivity|].
      split; [lia|]. replace (Z.to_nat i - s)%nat with (S (Z.to_nat i - S s)) by lia. exact H2.
    + intros [H1 H2]. destruct (Z.eq_dec i (Z.of_nat s)) as [->|N].
      * left. rewrite Nat2Z.id, Nat.sub_diag in H2. cbn in H2. congruence.
      * right. split; [lia|]. replace (Z.to_nat i - s)%nat with (S (Z.to_nat i - S s)) in H2 by lia. exact H2.
Qed.
Lemma number_sorted {A} (l : list A) : StronglySorted (fun p q => snd p < snd q) (number l).
Proof.
  unfold number, arange. generalize 0%nat. induction l as [|y l IH]; intro s; cbn [length seq map combine]; constructor; [apply IH|].
  apply Forall_forall. intros [z j] Hz. apply in_combine_r in Hz. apply in_map_iff in Hz as (k & <- & Hk). apply in_seq in Hk. cbn [snd]. lia.
Qed.
Lemma In_sorted l x i : In (x, i) (argsort (number l)) <-> 0 <= i /\ nth_error l (Z.to_nat i) = Some x.
Proof.
  rewrite <- In_number. split; apply Permutation_in; [apply argsort_perm|apply Permutation_sym, argsort_perm].
Qed.
Lemma prior_none l : prior None l.
Proof. intros x Hx. discriminate. Qed.

Definition first_at (l : list flt) (i : nat) : Prop := exists x, nth_error l i = Some x /\ forall j y, (j < i)%nat -> nth_error l j = Some y -> ~ same y x.
Lemma In_unique_index l i : In i (unique_index l) <-> 0 <= i /\ first_at l (Z.to_nat i).
Proof.
  unfold unique_index. rewrite in_map_iff. pose proof (heads_spec _ (argsort_sorted _ (number_sorted l)) None (prior_none _)) as HS. split.
  - intros ([x k] & E & H). cbn [snd] in E. subst k. apply HS in H as (H1 & H2 & _). apply In_sorted in H1 as [H0 H1]. split; [exact H0|]. exists x. split; [exact H1|].
    intros j y Hj Hy Hs. assert (G : In (y, Z.of_nat j) (argsort (number l))) by (apply In_sorted; rewrite Nat2Z.id; split; [lia|exact Hy]).
    destruct (H2 _ G Hs) as [E|L]; [injection E as _ E; lia|cbn [snd] in L; lia].
  - intros (H0 & x & Hx & H). exists (x, i). split; [reflexivity|]. apply HS. split; [apply In_sorted; auto|]. split; [|discriminate].
    intros [y j] Hq Hs. apply In_sorted in Hq as [J0 Hy]. cbn [fst snd] in *.
    destruct (Z.lt_trichotomy i j) as [L|[->|L]]; [now right|left; congruence|]. exfalso. apply (H (Z.to_nat j) y); [lia|exact Hy|exact Hs].
Qed.
Definition firstb (l : list flt) (i : nat) : bool :=
  match nth_error l i with
  | None => false
  | Some x => forallb (fun j => match nth_error l j with Some y => negb (np_same y x) | None => true end) (seq 0 i)
  end.
Lemma firstb_spec l i : firstb l i = true <-> first_at l i.
Proof.
  unfold firstb, first_at. destruct (nth_error l i) as [x|]; [|split; [discriminate|intros (x & H & _); discriminate]].
  rewrite forallb_forall. split.
  - intro H. exists x. split; [reflexivity|]. intros j y Hj Hy Hs. specialize (H j). rewrite in_seq in H. specialize (H ltac:(lia)). rewrite Hy in H.
    apply np_same_same in Hs. rewrite Hs in H. discriminate.
  - intros (x' & E & H) j Hj. injection E as <-. apply in_seq in Hj. destruct (nth_error l j) as [y|] eqn:Hy; [|reflexivity].
    apply negb_true_iff. destruct (np_same y x) eqn:E; [|reflexivity]. exfalso. apply (H j y); [lia|exact Hy|now apply np_same_same].
Qed.
Definition positions (l : list flt) : list nat := filter (firstb l) (seq 0 (length l)).
Lemma In_positions l i : In i (positions l) <-> first_at l i.
Proof.
  unfold positions. rewrite filter_In, in_seq, firstb_spec. split; [tauto|]. intro H. split; [|exact H]. destruct H as (x & Hx & _).
  assert (i < length l)%nat by (apply nth_error_Some; congruence). lia.
Qed.
Lemma unique_positions l : unique (unique_index l) = map Z.of_nat (positions l).
Proof.
  apply sorted_same.
  - apply sorted_unique.
  - apply sorted_of_nat. apply sorted_filter. apply sorted_seq.
  - intro z. rewrite In_unique, In_unique_index, in_map_iff. split.
    + intros [H0 H]. exists (Z.to_nat z). split; [lia|]. now apply In_positions.
    + intros (k & <- & H). apply In_positions in H. rewrite Nat2Z.id. split; [lia|exact H].
Qed.
Theorem firsts_ok l : exists out, unique_unsorted l = Ok out /\ firsts l out.
Proof.
  unfold unique_unsorted. rewrite unique_positions.
  rewrite (take_nat l (fun i => nth i l FNan)).
  - eexists. split; [reflexivity|]. exists (positions l). split; [apply sorted_filter; apply sorted_seq|]. split.
    + assert (G : forall i, In i (positions l) -> nth_error l i = Some (nth i l FNan)).
      { intros i Hi. apply In_positions in Hi as (x & Hx & _). apply nth_error_nth' . apply nth_error_Some. congruence. }
      revert G. generalize (positions l). intro ps. induction ps as [|i ps IH]; intro G; constructor; [apply G; now left|]. apply IH. intros j Hj. apply G. now right.
    + intros i x Hx. rewrite In_positions. unfold first_at. split; [intros (x' & E & H)|intro H]; [replace x with x' by congruence; exact H|]. now exists x.
  - intros i Hi. apply In_positions in Hi as (x & Hx & _). apply nth_error_nth'. apply nth_error_Some. congruence.
Qed.
Theorem increasing_ok l : increasing l (unique_flt l).
Proof.
  pose proof (heads_spec _ (argsort_sorted _ (number_sorted l)) None (prior_none _)) as HS. unfold unique_flt. split; [|split].
  - apply heads_less; [apply argsort_sorted, number_sorted|apply prior_none].
  - intros x Hx. apply in_map_iff in Hx as ([y i] & E & H). cbn [fst] in E. subst y. apply HS in H as (H & _ & _). apply In_sorted in H as [_ H]. eapply nth_error_In; exact H.
  - intros x Hx. apply In_nth_error in Hx as (i & Hi).
    (* the first position with an equal number *)
    assert (G : exists k y, nth_error l k = Some y /\ same y x /\ forall j z, (j < k)%nat -> nth_error l j = Some z -> ~ same z x).
    { clear HS. revert i x Hi. induction l as [|a l IH]; intros [|i] x Hi; cbn in Hi; try discriminate.
      - injection Hi as ->. exists 0%nat, x. split; [reflexivity|]. split; [apply same_refl|]. intros j z Hj. lia.
      - destruct (np_same a x) eqn:E.
        + exists 0%nat, a. split; [reflexivity|]. split; [now apply np_same_same|]. intros j z Hj. lia.
        + destruct (IH i x Hi) as (k & y & H1 & H2 & H3). exists (S k), y. split; [exact H1|]. split; [exact H2|].
          intros [|j] z Hj Hz; cbn in Hz; [injection Hz as <-; rewrite <- np_same_same; congruence|]. apply (H3 j); [lia|exact Hz]. }
    destruct G as (k & y & H1 & H2 & H3). exists y. split; [|exact H2]. apply in_map_iff. exists (y, Z.of_nat k). split; [reflexivity|].
    apply HS. split; [apply In_sorted; rewrite Nat2Z.id; split; [lia|exact H1]|]. split; [|discriminate].
    intros [z j] Hq Hs. apply In_sorted in Hq as [J0 Hz]. cbn [fst snd] in *.
    destruct (Z.lt_trichotomy (Z.of_nat k) j) as [L|[<-|L]]; [now right|left; rewrite Nat2Z.id in Hz; congruence|].
    exfalso. apply (H3 (Z.to_nat j) z); [lia|exact Hz|eapply same_trans; eassumption].
Qed.

(** The distinct numbers are determined. *)
Lemma sorted_same_nat l l' : StronglySorted lt l -> StronglySorted lt l' -> (forall z, In z l <-> In z l') -> l = l'.
Proof.
  intros H1 H2 H. assert (E : map Z.of_nat l = map Z.of_nat l').
  { apply sorted_same; [now apply sorted_of_nat..|]. intro z. rewrite !in_map_iff. split; intros (k & <- & Hk); exists k; split; auto; now apply H. }
  clear H1 H2 H. revert l' E. induction l as [|x l IH]; intros [|y l'] E; try discriminate; [reflexivity|]. injection E as E1 E2. f_equal; [lia|auto].
Qed.
Lemma firsts_fun l o o' : firsts l o -> firsts l o' -> o = o'.
Proof.
  intros (idx & S & F & H) (idx' & S' & F' & H').
  assert (B : forall i, In i idx -> exists x, nth_error l i = Some x).
  { clear - F. induction F as [|i x idx o Hi F IH]; intros j Hj; [destruct Hj|]; destruct Hj as [<-|Hj]; eauto. }
  assert (B' : forall i, In i idx' -> exists x, nth_error l i = Some x).
  { clear - F'. induction F' as [|i x idx o Hi F IH]; intros j Hj; [destruct Hj|]; destruct Hj as [<-|Hj]; eauto. }
  assert (idx = idx') as <-.
  { apply sorted_same_nat; [assumption..|]. intro i. split; intro Hi.
    - destruct (B i Hi) as (x & Hx). apply (H' i x Hx). now apply (H i x Hx).
    - destruct (B' i Hi) as (x & Hx). apply (H i x Hx). now apply (H' i x Hx). }
  clear - F F'. revert o' F'. induction F as [|i x idx o Hi F IH]; intros o' F'; inversion F' as [|? y ? o2 Hi' F2]; subst; [reflexivity|]. f_equal; [congruence|auto].
Qed.
