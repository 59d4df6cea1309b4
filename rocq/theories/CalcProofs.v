(** * CalcProofs *)
From Coq Require Import Reals Lra Permutation.
From Verif Require Import Base Flt H5 Nd NdProofs Calc CalcSpec.
Open Scope list_scope.
Open Scope monad_scope.
Open Scope R_scope.

(** ** Signed absolute maximum *)
Lemma Rltb_true x y : Rltb x y = true <-> x < y.
Proof. unfold Rltb. destruct (Rlt_dec x y); split; intro; try assumption; try reflexivity; try discriminate; contradiction. Qed.
Lemma Rltb_false x y : Rltb x y = false <-> y <= x.
Proof. unfold Rltb. destruct (Rlt_dec x y); split; intro; try discriminate; try reflexivity; lra. Qed.
Lemma amax_ok l m : amax Rltb l = Ok m -> In m l /\ forall y, In y l -> y <= m.
Proof.
  destruct l as [|x l]; [discriminate|]. cbn [amax]. intro E. injection E as <-.
  assert (G : forall l m0, let m := fold_left (fun m y => if Rltb m y then y else m) l m0 in (m = m0 \/ In m l) /\ m0 <= m /\ forall y, In y l -> y <= m).
  { clear. induction l as [|y l IH]; intro m0; cbn [fold_left]; [split; [now left|]; split; [lra|intros y []]|].
    destruct (IH (if Rltb m0 y then y else m0)) as (I1 & I2 & I3). destruct (Rltb m0 y) eqn:E; [apply Rltb_true in E|apply Rltb_false in E].
    - split; [right; destruct I1 as [->|I1]; [now left|now right]|]. split; [lra|]. intros z [<-|Hz]; [exact I2|now apply I3].
    - split; [destruct I1 as [->|I1]; [now left|right; now right]|]. split; [lra|]. intros z [<-|Hz]; [lra|now apply I3]. }
  destruct (G l x) as (G1 & G2 & G3). split; [destruct G1 as [->|G1]; [now left|now right]|]. intros y [<-|Hy]; [exact G2|now apply G3].
Qed.
Lemma amin_ok l m : amin Rltb l = Ok m -> In m l /\ forall y, In y l -> m <= y.
Proof.
  destruct l as [|x l]; [discriminate|]. cbn [amin]. intro E. injection E as <-.
  assert (G : forall l m0, let m := fold_left (fun m y => if Rltb y m then y else m) l m0 in (m = m0 \/ In m l) /\ m <= m0 /\ forall y, In y l -> m <= y).
  { clear. induction l as [|y l IH]; intro m0; cbn [fold_left]; [split; [now left|]; split; [lra|intros y []]|].
    destruct (IH (if Rltb y m0 then y else m0)) as (I1 & I2 & I3). destruct (Rltb y m0) eqn:E; [apply Rltb_true in E|apply Rltb_false in E].
    - split; [right; destruct I1 as [->|I1]; [now left|now right]|]. split; [lra|]. intros z [<-|Hz]; [exact I2|now apply I3].
    - split; [destruct I1 as [->|I1]; [now left|right; now right]|]. split; [lra|]. intros z [<-|Hz]; [lra|now apply I3]. }
  destruct (G l x) as (G1 & G2 & G3). split; [destruct G1 as [->|G1]; [now left|now right]|]. intros y [<-|Hy]; [exact G2|now apply G3].
Qed.
Definition pick_abs (ma mi : R) : R := if Rltb ma (- mi) then mi else ma.
Lemma pick_abs_ok l ma mi : amax Rltb l = Ok ma -> amin Rltb l = Ok mi -> abs_largest l (pick_abs ma mi).
Proof.
  intros H1 H2. apply amax_ok in H1 as [I1 M1]. apply amin_ok in H2 as [I2 M2]. unfold pick_abs, abs_largest. destruct (Rltb ma (- mi)) eqn:E; [apply Rltb_true in E|apply Rltb_false in E].
  - split; [exact I2|]. intros y Hy. specialize (M1 y Hy). specialize (M2 y Hy). unfold Rabs. destruct (Rcase_abs y), (Rcase_abs mi); lra.
  - split; [exact I1|]. intros y Hy. specialize (M1 y Hy). specialize (M2 y Hy). unfold Rabs. destruct (Rcase_abs y), (Rcase_abs ma); lra.
Qed.
Lemma am_some l : l <> [] -> exists ma mi, amax Rltb l = Ok ma /\ amin Rltb l = Ok mi.
Proof. destruct l as [|x l]; [congruence|]. intros _. eexists _, _. split; reflexivity. Qed.
Lemma rmap_each {A B} (f : A -> Res B) l : (forall x, In x l -> exists y, f x = Ok y) -> exists ys, rmap f l = Ok ys /\ length ys = length l /\ forall i x, nth_error l i = Some x -> exists y, nth_error ys i = Some y /\ f x = Ok y.
Proof.
  induction l as [|x l IH]; intro H; [exists []; split; [reflexivity|]; split; [reflexivity|intros [|i] x E; discriminate]|].
  destruct (H x (or_introl eq_refl)) as (y & Ey). destruct IH as (ys & E & HL & HN); [intros; apply H; now right|]. exists (y :: ys). cbn [rmap]. rewrite Ey. cbn [rbind]. rewrite E.
  split; [reflexivity|]. split; [cbn; now rewrite HL|]. intros [|i] z Ez; [injection Ez as <-; exists y; now split|]. exact (HN i z Ez).
Qed.
Lemma line_in (a : nd R) k idx y : wf a -> (k < length (n_shape a))%nat -> inside (drop_at k (n_shape a)) idx = true -> (In y (line a k idx) <-> on_line a k idx y).
Proof.
  intros Hw Hk Hi. unfold line, on_line, insert_at.
  assert (G : forall i, (i < nth k (n_shape a) 0)%nat <-> at_ a (firstn k idx ++ i :: skipn k idx) <> None).
  { intro i. assert (E : inside (n_shape a) (firstn k idx ++ i :: skipn k idx) = Nat.ltb i (nth k (n_shape a) 0%nat)).
    { clear Hw y. unfold drop_at in Hi. revert k idx Hk Hi. generalize (n_shape a) as sh. induction sh as [|n sh IH]; intros [|k] idx Hk Hi; cbn [length] in Hk; try lia.
      - cbn [firstn skipn app nth inside] in *. rewrite Hi. apply andb_true_r.
      - cbn [firstn skipn app nth] in Hi |- *. destruct idx as [|j idx]; [discriminate|]. cbn [inside firstn skipn app] in *. apply andb_true_iff in Hi as [H1 H2]. rewrite H1. cbn [andb]. apply IH; [lia|exact H2]. }
    split.
    - intro L. apply at_some; [exact Hw|]. rewrite E. now apply Nat.ltb_lt.
    - unfold at_. rewrite E. destruct (Nat.ltb_spec i (nth k (n_shape a) 0%nat)); [auto|congruence]. }
  split.
  - intro H. assert (K : forall l, In y (optmap (fun i => at_ a (firstn k idx ++ i :: skipn k idx)) l) -> exists i, at_ a (firstn k idx ++ i :: skipn k idx) = Some y).
    { induction l as [|i l IH]; [intros []|]. cbn [optmap]. destruct (at_ a _) eqn:E; [intros [<-|Hy]; [eauto|auto]|auto]. }
    exact (K _ H).
  - intros (i & Hi'). assert (L : (i < nth k (n_shape a) 0)%nat) by (apply G; congruence).
    assert (K : forall l, In i l -> In y (optmap (fun i => at_ a (firstn k idx ++ i :: skipn k idx)) l)).
    { induction l as [|j l IH]; [intros []|]. cbn [optmap]. intros [->|Hj]; [rewrite Hi'; now left|]. destruct (at_ a (firstn k idx ++ j :: skipn k idx)); [right; auto|auto]. }
    apply K. apply in_seq. lia.
Qed.
Lemma line_ne {A} (a : nd A) k idx : wf a -> (k < length (n_shape a))%nat -> inside (drop_at k (n_shape a)) idx = true -> (0 < nth k (n_shape a) 0)%nat -> line a k idx <> [].
Proof.
  intros Hw Hk Hi Hn E. unfold line in E.
  assert (inside (n_shape a) (insert_at k 0%nat idx) = true) as I.
  { clear E Hw. unfold insert_at, drop_at in *. revert k idx Hk Hi Hn. generalize (n_shape a) as sh. induction sh as [|n sh IH]; intros [|k] idx Hk Hi Hn; cbn [length] in Hk; try lia.
    - cbn [firstn skipn app nth inside] in *. rewrite Hi, andb_true_r. now apply Nat.ltb_lt.
    - cbn [firstn skipn app nth] in *. destruct idx as [|j idx]; [discriminate|]. cbn [inside firstn skipn app] in *. apply andb_true_iff in Hi as [H1 H2]. rewrite H1. cbn [andb]. apply IH; [lia|exact H2|exact Hn]. }
  pose proof (at_some a _ Hw I) as K. destruct (nth k (n_shape a) 0%nat) as [|m]; [lia|]. cbn [seq optmap] in E. destruct (at_ a (insert_at k 0%nat idx)); congruence.
Qed.
(** the axis of a number *)
Definition axis_of (z : Z) (n k : nat) : Prop := (k < n)%nat /\ (z = Z.of_nat k \/ z = Z.of_nat k - Z.of_nat n)%Z.
Theorem absmax_axis a z k : wf a -> axis_of z (length (n_shape a)) k -> (0 < nth k (n_shape a) 0)%nat ->
  exists r, absmax Rltb Ropp a (Some z) = Ok r /\ n_shape r = firstn k (n_shape a) ++ skipn (S k) (n_shape a) /\ wf r /\
    forall idx, inside (n_shape r) idx = true -> exists v, at_ r idx = Some v /\ on_line a k idx v /\ forall y, on_line a k idx y -> Rabs y <= Rabs v.
Proof.
  intros Hw (Hk & Hz) Hn. unfold absmax, reduce. unfold Zlen.
  replace ((z <? - Z.of_nat (length (n_shape a))) || (Z.of_nat (length (n_shape a)) <=? z))%Z with false by (symmetry; apply orb_false_iff; split; [apply Z.ltb_ge|apply Z.leb_gt]; lia).
  replace (Z.to_nat (if (z <? 0)%Z then z + Z.of_nat (length (n_shape a)) else z)%Z) with k by (destruct (Z.ltb_spec z 0%Z); lia).
  set (sh := drop_at k (n_shape a)).
  destruct (rmap_each (fun idx => amax Rltb (line a k idx)) (indices sh)) as (ma & E1 & L1 & N1).
  { intros idx Hi. apply indices_inside in Hi. destruct (am_some _ (line_ne a k idx Hw Hk Hi Hn)) as (x & y & -> & _). eauto. }
  destruct (rmap_each (fun idx => amin Rltb (line a k idx)) (indices sh)) as (mi & E2 & L2 & N2).
  { intros idx Hi. apply indices_inside in Hi. destruct (am_some _ (line_ne a k idx Hw Hk Hi Hn)) as (x & y & _ & ->). eauto. }
  rewrite E1. cbn [rbind]. rewrite E2. cbn [rbind n_shape n_flat]. eexists. split; [reflexivity|]. cbn [n_shape]. split; [reflexivity|].
  assert (W : wf (mkNd sh (map (fun p => if Rltb (fst p) (- snd p) then snd p else fst p) (combine ma mi)))).
  { unfold wf. cbn [n_flat n_shape]. rewrite map_length, combine_length, L1, L2, indices_length. lia. }
  split; [exact W|]. intros idx Hi. pose proof (indices_nth sh idx Hi) as HN. destruct (N1 _ _ HN) as (x & X1 & X2). destruct (N2 _ _ HN) as (y & Y1 & Y2).
  exists (pick_abs x y). pose proof (pick_abs_ok _ _ _ X2 Y2) as [P1 P2]. split; [|split].
  - unfold at_. cbn [n_shape n_flat]. rewrite Hi. rewrite nth_error_map.
    assert (C : forall (l1 l2 : list R) i u v, nth_error l1 i = Some u -> nth_error l2 i = Some v -> nth_error (combine l1 l2) i = Some (u, v)).
    { induction l1 as [|u0 l1 IH]; intros [|v0 l2] [|i] u v Hu Hv; try discriminate; cbn in *; [congruence|auto]. }
    rewrite (C _ _ _ _ _ X1 Y1). reflexivity.
  - now apply (line_in a k idx _ Hw Hk Hi).
  - intros w Hy. apply P2. now apply (line_in a k idx _ Hw Hk Hi).
Qed.
Theorem absmax_all a : n_flat a <> [] -> exists v, absmax Rltb Ropp a None = Ok (mkNd [] [v]) /\ abs_largest (n_flat a) v.
Proof.
  intro H. destruct (am_some _ H) as (ma & mi & E1 & E2). unfold absmax, reduce. rewrite E1, E2. cbn. exists (pick_abs ma mi). split; [reflexivity|]. now apply pick_abs_ok.
Qed.

(** ** Plane stress *)
Lemma sq_nonneg x : 0 <= x * x. Proof. nra. Qed.
Theorem principal_plane sxx syy txy more : exists p1 p2, principal2d_at (sxx :: syy :: txy :: more) = Ok [p1; p2] /\ eigenvalues2 sxx syy txy p1 p2 /\ p2 <= p1.
Proof.
  eexists _, _. split; [reflexivity|]. set (D := (sxx - syy) ^ 2 + 4 * txy ^ 2). assert (HD : 0 <= D) by (unfold D; pose proof (sq_nonneg (sxx - syy)); pose proof (sq_nonneg txy); nra).
  pose proof (sqrt_pos D). pose proof (sqrt_sqrt D HD) as E. split; [|lra]. intro x.
  set (r := sqrt D) in *. replace ((x - ((sxx + syy) / 2 + / 2 * r)) * (x - ((sxx + syy) / 2 - / 2 * r))) with ((x - (sxx + syy) / 2) ^ 2 - r * r / 4) by field.
  rewrite E. unfold D. field.
Qed.
Lemma eigen2_sum sxx syy txy a b : eigenvalues2 sxx syy txy a b -> a + b = sxx + syy /\ a * b = sxx * syy - txy * txy.
Proof. intro H. pose proof (H 0). pose proof (H 1). split; nra. Qed.
Lemma vm_nonneg sxx syy txy : 0 <= sxx ^ 2 + syy ^ 2 - sxx * syy + 3 * txy ^ 2.
Proof. pose proof (sq_nonneg (sxx - syy / 2)). pose proof (sq_nonneg syy). pose proof (sq_nonneg txy). nra. Qed.
Theorem mises_plane sxx syy txy more p1 p2 : eigenvalues2 sxx syy txy p1 p2 -> exists v, vonmises2d_at (sxx :: syy :: txy :: more) = Ok v /\
  v ^ 2 = p1 ^ 2 - p1 * p2 + p2 ^ 2 /\ 0 <= v /\ (v = 0 <-> sxx = 0 /\ syy = 0 /\ txy = 0).
Proof.
  intro HE. apply eigen2_sum in HE as [S1 S2]. eexists. split; [reflexivity|]. pose proof (vm_nonneg sxx syy txy) as HN. set (E := sxx ^ 2 + syy ^ 2 - sxx * syy + 3 * txy ^ 2) in *.
  pose proof (sqrt_pos E). pose proof (sqrt_sqrt E HN) as ES. split; [|split; [assumption|split]].
  - replace (sqrt E ^ 2) with E by (rewrite <- ES at 1; ring). replace (p1 ^ 2 - p1 * p2 + p2 ^ 2) with ((p1 + p2) ^ 2 - 3 * (p1 * p2)) by ring. rewrite S1, S2. unfold E. ring.
  - intro Z. rewrite Z in ES. assert (E0 : E = 0) by lra. unfold E in E0. pose proof (sq_nonneg (sxx - syy / 2)). pose proof (sq_nonneg syy). pose proof (sq_nonneg txy).
    assert (syy * syy = 0) by nra. assert (txy * txy = 0) by nra. assert ((sxx - syy / 2) * (sxx - syy / 2) = 0) by nra.
    assert (Z0 : forall t, t * t = 0 -> t = 0) by (intros t Ht; nra). assert (syy = 0) by auto. assert (txy = 0) by auto. assert (sxx - syy / 2 = 0) by auto. repeat split; lra.
  - intros (-> & -> & ->). unfold E. replace (0 ^ 2 + 0 ^ 2 - 0 * 0 + 3 * 0 ^ 2) with 0 by ring. apply sqrt_0.
Qed.

(** ** Thick shells *)
Theorem thickshell_two a b c : exists p1 p2, thickshell_of [a; b; c] = Ok [p1; p2] /\ two_largest [a; b; c] p1 p2.
Proof.
  unfold thickshell_of, argminR. cbn [map argmin_from].
  assert (A : forall x y, exists p1 p2, (dor u <- amax Rltb [x; y]; dor v <- amin Rltb [x; y]; Ok [u; v]) = Ok [p1; p2] /\ p2 <= p1 /\ Permutation [x; y] [p1; p2]).
  { intros x y. unfold amax, amin. cbn [fold_left rbind]. destruct (Rltb x y) eqn:E1; [apply Rltb_true in E1|apply Rltb_false in E1]; (destruct (Rltb y x) eqn:E2; [apply Rltb_true in E2|apply Rltb_false in E2]); try lra.
    - exists y, x. split; [reflexivity|]. split; [lra|]. apply perm_swap.
    - exists x, y. split; [reflexivity|]. split; [lra|]. apply Permutation_refl.
    - assert (x = y) as -> by lra. exists y, y. split; [reflexivity|]. split; [lra|]. apply Permutation_refl. }
  assert (G : forall x y q l, Permutation l [q; x; y] -> Rabs q <= Rabs x -> Rabs q <= Rabs y ->
     exists p1 p2, (dor u <- amax Rltb [x; y]; dor v <- amin Rltb [x; y]; Ok [u; v]) = Ok [p1; p2] /\ two_largest l p1 p2).
  { intros x y q l HP H1 H2. destruct (A x y) as (p1 & p2 & E & HL & HP2). exists p1, p2. split; [exact E|]. exists q. split; [|split; [|split; [|exact HL]]].
    - rewrite HP. rewrite HP2. apply (Permutation_cons_append [p1; p2] q).
    - assert (In p1 [x; y]) as [<-|[<-|[]]] by (apply (Permutation_in _ (Permutation_sym HP2)); now left); assumption.
    - assert (In p2 [x; y]) as [<-|[<-|[]]] by (apply (Permutation_in _ (Permutation_sym HP2)); right; now left); assumption. }
  destruct (Rltb (Rabs b) (Rabs a)) eqn:E1; [apply Rltb_true in E1|apply Rltb_false in E1].
  - destruct (Rltb (Rabs c) (Rabs b)) eqn:E2; [apply Rltb_true in E2|apply Rltb_false in E2]; cbn [drop_at firstn skipn app].
    + apply (G a b c); [|lra|lra]. symmetry. apply (Permutation_cons_append [a; b] c).
    + apply (G a c b); [|lra|lra]. apply perm_swap.
  - destruct (Rltb (Rabs c) (Rabs a)) eqn:E2; [apply Rltb_true in E2|apply Rltb_false in E2]; cbn [drop_at firstn skipn app].
    + apply (G a b c); [|lra|lra]. symmetry. apply (Permutation_cons_append [a; b] c).
    + apply (G b c a); [|lra|lra]. apply Permutation_refl.
Qed.
Lemma perm3 (a b c x y z : R) : Permutation [a; b; c] [x; y; z] ->
  (a = x /\ b = y /\ c = z) \/ (a = x /\ b = z /\ c = y) \/ (a = y /\ b = x /\ c = z) \/ (a = y /\ b = z /\ c = x) \/ (a = z /\ b = x /\ c = y) \/ (a = z /\ b = y /\ c = x).
Proof.
  intro H. assert (In a [x; y; z]) as [E|[E|[E|[]]]] by (apply (Permutation_in _ H); now left); subst.
  - apply Permutation_cons_inv in H. apply Permutation_length_2_inv in H as [E|E]; injection E as -> ->; tauto.
  - change [x; a; z] with ([x] ++ a :: [z]) in H. apply Permutation_cons_app_inv in H. apply Permutation_length_2_inv in H as [E|E]; injection E as -> ->; tauto.
  - change [x; y; a] with ([x; y] ++ a :: []) in H. apply Permutation_cons_app_inv in H. apply Permutation_length_2_inv in H as [E|E]; injection E as -> ->; tauto.
Qed.
Lemma roots2 b c p1 p2 : b + c = p1 + p2 -> b * c = p1 * p2 -> (b = p1 /\ c = p2) \/ (b = p2 /\ c = p1).
Proof.
  intros H1 H2. assert (K : (b - p1) * (b - p2) = 0) by nra. apply Rmult_integral in K as [K|K]; [left|right]; lra.
Qed.
Lemma plane_roots sxx syy txy a b c p1 p2 : eigenvalues3 sxx syy 0 txy 0 0 a b c -> eigenvalues2 sxx syy txy p1 p2 -> Permutation [a; b; c] [0; p1; p2].
Proof.
  intros H H2. assert (K : forall x, x * ((x - p1) * (x - p2)) = (x - a) * (x - b) * (x - c)).
  { intro x. rewrite <- H, <- H2. unfold det3. ring. }
  clear H H2. pose proof (K 0) as K0. pose proof (K 1) as K1. pose proof (K (-1)) as K2. pose proof (K 2) as K3.
  assert (Z : a * b * c = 0) by nra.
  assert (G : forall u v, (forall x, x * ((x - p1) * (x - p2)) = x * ((x - u) * (x - v))) -> Permutation [u; v] [p1; p2]).
  { intros u v Hx. pose proof (Hx 1). pose proof (Hx (-1)). destruct (roots2 u v p1 p2) as [[-> ->]|[-> ->]]; [lra|nra|apply Permutation_refl|apply perm_swap]. }
  apply Rmult_integral in Z as [Z|Z]; [apply Rmult_integral in Z as [Z|Z]|]; subst.
  - apply perm_skip. apply G. intro x. rewrite K. ring.
  - rewrite perm_swap. apply perm_skip. apply G. intro x. rewrite K. ring.
  - rewrite <- (Permutation_cons_append [a; b] 0). apply perm_skip. apply G. intro x. rewrite K. ring.
Qed.
Lemma abs0 x : Rabs x <= Rabs 0 -> x = 0.
Proof. rewrite Rabs_R0. intro H. pose proof (Rabs_pos x). destruct (Req_dec x 0) as [E|E]; [exact E|]. apply Rabs_no_R0 in E. lra. Qed.
Theorem thickshell_plane sxx syy txy a b c more : eigenvalues3 sxx syy 0 txy 0 0 a b c -> thickshell_of [a; b; c] = principal2d_at (sxx :: syy :: txy :: more).
Proof.
  intro H. destruct (principal_plane sxx syy txy more) as (p1 & p2 & -> & HE & HO). pose proof (plane_roots _ _ _ _ _ _ _ _ H HE) as HP.
  destruct (thickshell_two a b c) as (q1 & q2 & -> & q & HQ & Q1 & Q2 & Q3). rewrite HP in HQ. clear HP H HE. assert (q1 = p1 /\ q2 = p2) as [-> ->]; [|reflexivity].
  apply perm3 in HQ. destruct HQ as [(<- & <- & <-)|[(<- & <- & <-)|[(<- & <- & <-)|[(<- & <- & <-)|[(<- & <- & <-)|(<- & <- & <-)]]]]]; try (apply abs0 in Q1); try (apply abs0 in Q2); subst; split; lra.
Qed.
