(** * DotProofs: error bound of sums of products in any order. *)
From Coq Require Import Reals List Permutation ZArith Lia Lra Psatz.
From Verif Require Import IeeeSpec IeeeFacts DotSpec.
Import ListNotations.
Open Scope R_scope.

Definition total (l : list (R * R)) : R := fold_right (fun p s => fst p * snd p + s) 0 l.
Definition sizes (l : list (R * R)) : R := fold_right (fun p s => Rabs (fst p * snd p) + s) 0 l.
Lemma total_app a b : total (a ++ b) = total a + total b.
Proof. unfold total. induction a as [|p a IH]; cbn [app fold_right]; [lra|]. rewrite IH. lra. Qed.
Lemma sizes_app a b : sizes (a ++ b) = sizes a + sizes b.
Proof. unfold sizes. induction a as [|p a IH]; cbn [app fold_right]; [lra|]. rewrite IH. lra. Qed.
Lemma total_perm a b : Permutation a b -> total a = total b.
Proof. unfold total. induction 1; cbn [fold_right]; lra. Qed.
Lemma sizes_perm a b : Permutation a b -> sizes a = sizes b.
Proof. unfold sizes. induction 1; cbn [fold_right]; lra. Qed.
Lemma sizes_pos l : 0 <= sizes l.
Proof. unfold sizes. induction l as [|p l IH]; cbn [fold_right]; [lra|]. pose proof (Rabs_pos (fst p * snd p)). lra. Qed.
Lemma total_sizes l : Rabs (total l) <= sizes l.
Proof. unfold total, sizes. induction l as [|p l IH]; cbn [fold_right]; [rewrite Rabs_R0; lra|]. apply Rle_trans with (1 := Rabs_triang _ _). lra. Qed.

Section Bound.
  Variables (f : format) (rnd : R -> R).
  Hypothesis HP : (1 < f_prec f)%Z.
  Hypothesis HR : (f_low f + f_prec f < f_high f)%Z.
  Hypothesis RN : rounds f rnd.
  Hypothesis HU : unit_of f <= / 1000000.
  Hypothesis HL : (f_low f <= 0)%Z.
  Hypothesis HH : (3 <= f_high f)%Z.
  Notation u := (unit_of f).
  Notation eta := (p2 (f_low f)).
  Notation top := (p2 (f_high f - 1)).
  Lemma eta1 : 0 < eta <= 1. Proof. split; [apply p2_pos|]. apply (p2_le _ 0 HL). Qed.
  Lemma top4 : 4 <= top.
  Proof. replace 4 with (p2 2); [apply p2_le; lia|]. change (p2 2) with (2 * (2 * 1)). lra. Qed.
  (** Roundings which [n] products and their sum need. *)
  Definition count (l : list (R * R)) : R := 2 * INR (length l).
  Lemma count_app a b : count (a ++ b) = count a + count b.
  Proof. unfold count. rewrite app_length, plus_INR. lra. Qed.
  Definition bound (l : list (R * R)) : R := count l * (1.01 * u * sizes l + eta).
  Lemma computes_bound l v : computes rnd l v -> (length l <= 1000)%nat -> 2 * sizes l + 5000 * eta < top / 2 ->
    representable f v /\ (l = [] -> v = 0) /\ (l <> [] -> Rabs (v - total l) <= (count l - 1) * (1.01 * u * sizes l + eta)).
  Proof.
    pose proof (p2_pos (- f_prec f)) as U. fold u in U. pose proof eta1 as E1.
    assert (ONE : forall x l, l <> [] -> Rabs x < top -> Rabs x <= 1.005 * sizes l + 5000 * eta -> Rabs (rnd x - x) <= 1.01 * u * sizes l + eta).
    { intros x l0 _ X1 X2. pose proof (rnd_any f rnd HP HR RN x X1) as N. assert (u * Rabs x <= u * (1.005 * sizes l0 + 5000 * eta)) by (apply Rmult_le_compat_l; lra). assert (u * (5000 * eta) <= 0.005 * eta) by nra. pose proof (sizes_pos l0). assert (0 <= u * sizes l0) by (apply Rmult_le_pos; lra). lra. }
    assert (CNT : forall l : list (R * R), (length l <= 1000)%nat -> 0 <= count l <= 2000).
    { intros l0 L. unfold count. apply le_INR in L. pose proof (pos_INR (length l0)). replace (INR 1000) with 1000 in L by (rewrite INR_IZR_INZ; reflexivity). lra. }
    assert (NE : forall l : list (R * R), l <> [] -> 2 <= count l).
    { intros l0 L. unfold count. assert (1 <= INR (length l0)); [|lra]. replace 1 with (INR 1) by reflexivity. apply le_INR. destruct l0; [congruence|cbn; lia]. }
    assert (SIZE : forall l v, (length l <= 1000)%nat -> (l = [] -> v = 0) -> (l <> [] -> Rabs (v - total l) <= (count l - 1) * (1.01 * u * sizes l + eta)) -> Rabs (v - total l) <= 0.0021 * sizes l + 2000 * eta).
    { intros l' v' L Z N. pose proof (sizes_pos l') as SP. destruct l' as [|q l'].
      - rewrite Z by reflexivity. cbn. rewrite Rminus_0_r, Rabs_R0. lra.
      - specialize (N ltac:(discriminate)). pose proof (CNT _ L) as C. assert (0 <= u * sizes (q :: l')) by (apply Rmult_le_pos; lra). assert (u * sizes (q :: l') <= / 1000000 * sizes (q :: l')) by (apply Rmult_le_compat_r; lra).
        set (w := 1.01 * u * sizes (q :: l') + eta) in *. assert (0 <= w) by (unfold w; lra). assert ((count (q :: l') - 1) * w <= 2000 * w) by (apply Rmult_le_compat_r; lra). unfold w in *. lra. }
    induction 1 as [|a b|l1 l2 v1 v2 C1 IH1 C2 IH2|a b l v C IH|l1 l2 v P C IH]; intros LEN TOP.
    - split; [now apply zero_rep|]. split; [reflexivity|congruence].
    - cbn [sizes total fold_right fst snd] in *. rewrite Rplus_0_r in *. pose proof (Rabs_pos (a * b)). split; [apply (rnd_rep f rnd RN); lra|]. split; [discriminate|]. intros _. unfold count. cbn [length INR].
      pose proof (ONE (a * b) [(a, b)] ltac:(discriminate) ltac:(lra)) as O. cbn [sizes fold_right fst snd] in O. rewrite Rplus_0_r in O. specialize (O ltac:(lra)). lra.
    - rewrite app_length in LEN. rewrite sizes_app in TOP. pose proof (sizes_pos l1) as S1. pose proof (sizes_pos l2) as S2.
      destruct (IH1 ltac:(lia) ltac:(lra)) as (R1 & Z1 & B1). destruct (IH2 ltac:(lia) ltac:(lra)) as (R2 & Z2 & B2). pose proof (SIZE l1 v1 ltac:(lia) Z1 B1) as Q1. pose proof (SIZE l2 v2 ltac:(lia) Z2 B2) as Q2.
      pose proof (total_sizes l1) as T1. pose proof (total_sizes l2) as T2.
      assert (V : Rabs (v1 + v2) < top). { pose proof (Rabs_triang_inv v1 (total l1)). pose proof (Rabs_triang_inv v2 (total l2)). pose proof (Rabs_triang v1 v2). lra. }
      split; [now apply (rnd_rep f rnd RN)|]. split; [intro E; apply app_eq_nil in E as [-> ->]; rewrite Z1, Z2 by reflexivity; rewrite Rplus_0_r; now apply (rnd_0 f rnd)|].
      rewrite total_app, count_app, sizes_app. intro NN. destruct l1 as [|p1 l1].
      { rewrite Z1 in * by reflexivity. rewrite Rplus_0_l in *. rewrite (rnd_exact f rnd RN v2) by assumption. cbn [app] in NN. specialize (B2 NN). cbn [total sizes fold_right]. replace (count []) with 0 by (unfold count; cbn; lra). rewrite !Rplus_0_l. exact B2. }
      destruct l2 as [|q2 l2].
      { rewrite Z2 in * by reflexivity. rewrite Rplus_0_r in *. rewrite (rnd_exact f rnd RN v1) by assumption. specialize (B1 ltac:(discriminate)). cbn [total sizes fold_right] in *. replace (count []) with 0 by (unfold count; cbn; lra). rewrite !Rplus_0_r. exact B1. }
      specialize (B1 ltac:(discriminate)). specialize (B2 ltac:(discriminate)). set (m1 := p1 :: l1) in *. set (m2 := q2 :: l2) in *.
      pose proof (ONE (v1 + v2) (m1 ++ m2) ltac:(discriminate) V) as O. rewrite sizes_app in O.
      assert (Rabs (v1 + v2) <= 1.0021 * (sizes m1 + sizes m2) + 4000 * eta). { pose proof (Rabs_triang_inv v1 (total m1)). pose proof (Rabs_triang_inv v2 (total m2)). pose proof (Rabs_triang v1 v2). lra. }
      specialize (O ltac:(lra)). set (w1 := 1.01 * u * sizes m1 + eta) in *. set (w2 := 1.01 * u * sizes m2 + eta) in *. set (w := 1.01 * u * (sizes m1 + sizes m2) + eta) in *.
      assert (0 <= u * sizes m1) by (apply Rmult_le_pos; lra). assert (0 <= u * sizes m2) by (apply Rmult_le_pos; lra). assert (W1 : w1 <= w) by (unfold w1, w; lra). assert (W2 : w2 <= w) by (unfold w2, w; lra).
      pose proof (NE m1 ltac:(discriminate)). pose proof (NE m2 ltac:(discriminate)). assert ((count m1 - 1) * w1 <= (count m1 - 1) * w) by (apply Rmult_le_compat_l; lra). assert ((count m2 - 1) * w2 <= (count m2 - 1) * w) by (apply Rmult_le_compat_l; lra).
      replace (rnd (v1 + v2) - (total m1 + total m2)) with ((rnd (v1 + v2) - (v1 + v2)) + ((v1 - total m1) + (v2 - total m2))) by ring. apply Rle_trans with (1 := Rabs_triang _ _). pose proof (Rabs_triang (v1 - total m1) (v2 - total m2)). lra.
    - cbn [length] in LEN. cbn [sizes total fold_right fst snd] in *. change (fold_right (fun p s => Rabs (fst p * snd p) + s) 0 l) with (sizes l) in *. change (fold_right (fun p s => fst p * snd p + s) 0 l) with (total l).
      pose proof (sizes_pos l) as S1. pose proof (Rabs_pos (a * b)) as S2. destruct (IH ltac:(lia) ltac:(lra)) as (R1 & Z1 & B1). pose proof (SIZE l v ltac:(lia) Z1 B1) as Q1. pose proof (total_sizes l) as T1.
      assert (V0 : Rabs (a * b + v) <= Rabs (a * b) + 1.0021 * sizes l + 2000 * eta). { pose proof (Rabs_triang_inv v (total l)). pose proof (Rabs_triang (a * b) v). lra. }
      assert (V : Rabs (a * b + v) < top) by lra. split; [now apply (rnd_rep f rnd RN)|]. split; [discriminate|]. intros _.
      pose proof (ONE (a * b + v) ((a, b) :: l) ltac:(discriminate) V) as O. cbn [sizes fold_right fst snd] in O. change (fold_right (fun p s => Rabs (fst p * snd p) + s) 0 l) with (sizes l) in O. specialize (O ltac:(lra)).
      replace (count ((a, b) :: l)) with (2 + count l) by (unfold count; cbn [length]; rewrite S_INR; lra).
      replace (rnd (a * b + v) - (a * b + total l)) with ((rnd (a * b + v) - (a * b + v)) + (v - total l)) by ring. apply Rle_trans with (1 := Rabs_triang _ _).
      set (w := 1.01 * u * (Rabs (a * b) + sizes l) + eta) in *. assert (0 <= u * Rabs (a * b)) by (apply Rmult_le_pos; lra). assert (0 <= u * sizes l) by (apply Rmult_le_pos; lra).
      assert (W0 : 0 <= w) by (unfold w; lra). destruct l as [|q l].
      + rewrite Z1 by reflexivity. cbn [total fold_right]. rewrite Rminus_0_r, Rabs_R0. unfold count. cbn [length INR]. rewrite Z1 in O by reflexivity. lra.
      + specialize (B1 ltac:(discriminate)). set (m1 := q :: l) in *. pose proof (NE m1 ltac:(discriminate)). set (w1 := 1.01 * u * sizes m1 + eta) in *. assert (w1 <= w) by (unfold w1, w; lra). assert ((count m1 - 1) * w1 <= (count m1 - 1) * w) by (apply Rmult_le_compat_l; lra). lra.
    - rewrite <- (sizes_perm _ _ P) in *. rewrite <- (total_perm _ _ P). pose proof (Permutation_length P) as PL. destruct (IH ltac:(lia) TOP) as (R1 & Z1 & B1). split; [exact R1|]. unfold count in *. rewrite <- PL. split.
      + intro E. apply Z1. subst l2. apply Permutation_sym, Permutation_nil in P. exact P.
      + intro N. apply B1. intro E. subst l1. apply Permutation_nil in P. now apply N.
  Qed.
  Theorem dot_error l v : computes rnd l v -> (length l <= 1000)%nat -> 2 * sizes l + 5000 * eta < top / 2 ->
    Rabs (v - total l) <= bound l.
  Proof.
    intros C L T. destruct (computes_bound l v C L T) as (_ & Z & B). unfold bound. destruct l as [|q l].
    - rewrite Z by reflexivity. cbn [total fold_right]. rewrite Rminus_0_r, Rabs_R0. unfold count. cbn. lra.
    - specialize (B ltac:(discriminate)). pose proof (p2_pos (- f_prec f)) as U. fold u in U. pose proof eta1. pose proof (sizes_pos (q :: l)). assert (0 <= u * sizes (q :: l)) by (apply Rmult_le_pos; lra). lra.
  Qed.
End Bound.
