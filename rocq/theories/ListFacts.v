(** * ListFacts: lemmas about lists, slices and characters. *)
From Verif Require Import Base.
From Coq Require Import ZifyBool ZifyNat.
Open Scope Z_scope.
Open Scope list_scope.

Lemma code_range c : 0 <= code c <= 255.
Proof.
  unfold code. pose proof (nat_ascii_bounded c). lia.
Qed.

Lemma code_inj a b : code a = code b -> a = b.
Proof.
  unfold code. intro H. apply Nat2Z.inj in H.
  rewrite <- (ascii_nat_embedding a), <- (ascii_nat_embedding b). now rewrite H.
Qed.

Lemma code_chr z : 0 <= z <= 255 -> code (chr z) = z.
Proof.
  intro H. unfold code, chr. rewrite nat_ascii_embedding; lia.
Qed.

Lemma firstn_app_exact {A} (a b : list A) n : length a = n -> firstn n (a ++ b) = a.
Proof. intros <-. rewrite firstn_app, Nat.sub_diag, firstn_all. cbn. apply app_nil_r. Qed.
Lemma skipn_app_exact {A} (a b : list A) n : length a = n -> skipn n (a ++ b) = b.
Proof. intros <-. rewrite skipn_app, Nat.sub_diag, skipn_all. reflexivity. Qed.

Lemma chunks_aux_concat {A} n (ls : list (list A)) :
  (0 < n)%nat -> Forall (fun l => length l = n) ls ->
  forall fuel, (length (concat ls) <= fuel)%nat ->
  chunks_aux fuel n (concat ls) = ls.
Proof.
  intros Hn HF. induction HF as [|x ls Hx HF IH]; intros fuel Hf.
  - cbn. destruct fuel; reflexivity.
  - cbn [concat] in *. rewrite app_length in Hf.
    destruct fuel as [|fuel]; [lia|].
    cbn [chunks_aux].
    destruct (x ++ concat ls) eqn:E.
    { apply app_eq_nil in E as [-> _]. cbn in Hx. lia. }
    rewrite <- E. rewrite firstn_app_exact, skipn_app_exact by exact Hx.
    rewrite IH by lia. reflexivity.
Qed.

Lemma chunks_concat {A} n (ls : list (list A)) :
  (0 < n)%nat -> Forall (fun l => length l = n) ls -> chunks n (concat ls) = ls.
Proof. intros. apply chunks_aux_concat; auto. Qed.

Lemma concat_length {A} n (ls : list (list A)) :
  Forall (fun l => length l = n) ls -> length (concat ls) = (n * length ls)%nat.
Proof. induction 1; cbn; rewrite ?app_length; lia. Qed.

Lemma Zlen_app {A} (a b : list A) : Zlen (a ++ b) = Zlen a + Zlen b.
Proof. unfold Zlen. rewrite app_length. lia. Qed.
Lemma Zlen_nonneg {A} (a : list A) : 0 <= Zlen a.
Proof. unfold Zlen. lia. Qed.

Lemma slice_to_app {A} (a b : list A) : slice_to (Zlen a) (a ++ b) = a.
Proof.
  unfold slice_to, clamp. rewrite Zlen_app. pose proof (Zlen_nonneg a). pose proof (Zlen_nonneg b).
  replace (Zlen a <? 0) with false by lia.
  replace (Z.min (Zlen a) (Zlen a + Zlen b)) with (Zlen a) by lia.
  unfold Zlen. rewrite Nat2Z.id. now apply firstn_app_exact.
Qed.
Lemma slice_from_app {A} (a b : list A) : slice_from (Zlen a) (a ++ b) = b.
Proof.
  unfold slice_from, clamp. rewrite Zlen_app. pose proof (Zlen_nonneg a). pose proof (Zlen_nonneg b).
  replace (Zlen a <? 0) with false by lia.
  replace (Z.min (Zlen a) (Zlen a + Zlen b)) with (Zlen a) by lia.
  unfold Zlen. rewrite Nat2Z.id. now apply skipn_app_exact.
Qed.

Lemma s2l_l2s l : s2l (l2s l) = l.
Proof. apply list_ascii_of_string_of_list_ascii. Qed.
Lemma l2s_s2l s : l2s (s2l s) = s.
Proof. apply string_of_list_ascii_of_string. Qed.

Lemma lascii_eqb_spec a b : lascii_eqb a b = true <-> a = b.
Proof.
  revert b. induction a as [|x a IH]; destruct b as [|y b]; cbn; try (split; congruence).
  rewrite andb_true_iff, Ascii.eqb_eq, IH. split; [intros [-> ->]|injection 1]; auto.
Qed.

Lemma str_in_spec x l : str_in x l = true <-> In x l.
Proof.
  unfold str_in. rewrite existsb_exists. split.
  - intros [y [H1 H2]]. apply String.eqb_eq in H2. now subst.
  - intro H. exists x. split; [exact H|apply String.eqb_refl].
Qed.

Lemma dropwhile_none {A} (p : A -> bool) l :
  match l with [] => True | x :: _ => p x = false end -> dropwhile p l = l.
Proof. destruct l; cbn; [reflexivity|]. now intros ->. Qed.
Lemma dropwhile_all {A} (p : A -> bool) a b :
  Forall (fun x => p x = true) a -> dropwhile p (a ++ b) = dropwhile p b.
Proof. induction 1; cbn; [reflexivity|]. now rewrite H. Qed.

Lemma Forall_repeat {A} (P : A -> Prop) x n : P x -> Forall P (repeat x n).
Proof. induction n; cbn; auto. Qed.
Lemma rev_repeat {A} (x : A) n : rev (repeat x n) = repeat x n.
Proof.
  induction n; cbn; [reflexivity|]. rewrite IHn. clear IHn.
  induction n; cbn; [reflexivity|]. now rewrite IHn.
Qed.

(** Stripping a token surrounded by blanks. *)
Lemma strip_pad p i j t :
  p blank = true -> Forall (fun c => p c = false) t ->
  strip p (repeat blank i ++ t ++ repeat blank j) = t.
Proof.
  intros Hb Ht. unfold strip.
  rewrite dropwhile_all by (now apply Forall_repeat).
  destruct t as [|c t].
  - cbn. rewrite <- (app_nil_r (repeat blank j)).
    rewrite dropwhile_all by (now apply Forall_repeat). reflexivity.
  - inversion Ht as [|? ? H1 H2]; subst. cbn [app dropwhile]. rewrite H1.
    change (c :: t ++ repeat blank j) with ((c :: t) ++ repeat blank j).
    rewrite rev_app_distr, rev_repeat.
    rewrite dropwhile_all by (now apply Forall_repeat).
    rewrite dropwhile_none.
    + apply rev_involutive.
    + assert (Hr : Forall (fun c => p c = false) (rev (c :: t))) by (now apply Forall_rev).
      destruct (rev (c :: t)); [exact I|]. now inversion Hr.
Qed.
Lemma strip_blanks p j : p blank = true -> strip p (repeat blank j) = [].
Proof.
  intro H. rewrite <- (app_nil_l (repeat blank j)).
  change (strip p (repeat blank 0 ++ [] ++ repeat blank j) = []).
  now apply strip_pad.
Qed.

Lemma concat_app_last {A} (l : list (list A)) x : concat (l ++ [x]) = concat l ++ x.
Proof. rewrite concat_app. cbn. now rewrite app_nil_r. Qed.

Lemma Forall2_len {A B} (R : A -> B -> Prop) l l' : Forall2 R l l' -> length l = length l'.
Proof. induction 1; cbn; congruence. Qed.
Lemma lascii_eqb_neq a b : a <> b -> lascii_eqb a b = false.
Proof.
  intro H. destruct (lascii_eqb a b) eqn:E; [|reflexivity]. apply lascii_eqb_spec in E. congruence.
Qed.
