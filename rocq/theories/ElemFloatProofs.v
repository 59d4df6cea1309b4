(** * ElemFloatProofs: rounding errors of processed element results. *)
From Coq Require Import Reals ZArith Lia Lra Psatz.
From Verif Require Import Base ListFacts Nd IeeeSpec IeeeFacts DotSpec DotProofs CalcFloat Elem ElemFloat ElemFloatNum ElemFloatSpec.
Open Scope string_scope.
Open Scope list_scope.
Open Scope R_scope.

Definition sumabs (v : list R) : R := fold_right (fun x s => Rabs x + s) 0 v.
(** What errors of the second factors contribute *)
Fixpoint werr (v w w' : list R) : R :=
  match v, w, w' with
  | a :: v, b :: w, b' :: w' => Rabs a * Rabs (b' - b) + werr v w w'
  | _, _, _ => 0
  end.
Notation dotsR := (dots 0 Rplus Rmult).
Lemma f2_length {A B} (P : A -> B -> Prop) a b : Forall2 P a b -> length a = length b.
Proof. induction 1; cbn; congruence. Qed.
Lemma total_near ea B v v' : Forall2 (close ea) v v' -> 0 <= ea -> 0 <= B -> forall w w', length w = length v -> length w' = length v -> Forall (fun x => Rabs x <= B) w' ->
  Rabs (total (combine v' w') - dotsR v w) <= werr v w w' + INR (length v) * (ea * B).
Proof.
  intros H E0 B0. induction H as [|a a' v v' C H IH]; intros [|b w] [|b' w'] L L' W; try discriminate; cbn [combine total fold_right dots werr length].
  - rewrite Rminus_0_r, Rabs_R0. cbn. lra.
  - inversion W as [|? ? Wb W']; subst. specialize (IH w w' ltac:(now injection L) ltac:(now injection L') W'). fold (total (combine v' w')). cbn [fst snd].
    replace (a' * b' + total (combine v' w') - (a * b + dotsR v w)) with (((a' - a) * b' + a * (b' - b)) + (total (combine v' w') - dotsR v w)) by ring.
    apply Rle_trans with (1 := Rabs_triang _ _). pose proof (Rabs_triang ((a' - a) * b') (a * (b' - b))) as T. rewrite !Rabs_mult in T.
    assert (Rabs (a' - a) * Rabs b' <= ea * B) by (apply Rmult_le_compat; try apply Rabs_pos; assumption). rewrite S_INR. lra.
Qed.
Lemma sizes_near ea B v v' : Forall2 (close ea) v v' -> 0 <= ea -> 0 <= B -> forall w', length w' = length v -> Forall (fun x => Rabs x <= B) w' ->
  sizes (combine v' w') <= (sumabs v + INR (length v) * ea) * B.
Proof.
  intros H E0 B0. induction H as [|a a' v v' C H IH]; intros [|b' w'] L' W; try discriminate; cbn [combine sizes fold_right sumabs length].
  - cbn. lra.
  - inversion W as [|? ? Wb W']; subst. specialize (IH w' ltac:(now injection L') W'). fold (sizes (combine v' w')). fold (sumabs v). cbn [fst snd]. rewrite Rabs_mult, S_INR.
    assert (Rabs a' <= Rabs a + ea) by (apply (close_abs ea _ a); [apply Rle_refl|exact C]). assert (Rabs a' * Rabs b' <= (Rabs a + ea) * B) by (apply Rmult_le_compat; try apply Rabs_pos; assumption). lra.
Qed.
Lemma INR_le_10 n : (n <= 10)%nat -> 0 <= INR n <= 10.
Proof. intro H. split; [apply pos_INR|]. apply le_INR in H. replace (INR 10) with 10 in H by (rewrite INR_IZR_INZ; reflexivity). exact H. Qed.
Section Dot.
  Variable rd : R -> R.
  Hypothesis RD : rounds double rd.
  Lemma dot_near ea B E S v v' w w' t : Forall2 (close ea) v v' -> 0 <= ea <= 0.01 -> 0 <= B < large -> length w = length v -> length w' = length v -> (length v <= 10)%nat ->
    Forall (fun x => Rabs x <= B) w' -> werr v w w' <= E -> sumabs v <= S -> S <= 4 -> computes rd (combine v' w') t ->
    close (E + INR (length v) * (ea * B + 2 * (1.01 * u2 * ((S + INR (length v) * ea) * B) + low2))) (dotsR v w) t.
  Proof using RD.
    intros H EA B0 L L' N W WE SA S4 C. pose proof (INR_le_10 _ N) as NN. pose proof u2_u1. pose proof low2_small.
    pose proof (total_near ea B v v' H ltac:(lra) ltac:(lra) w w' L L' W) as T. pose proof (sizes_near ea B v v' H ltac:(lra) ltac:(lra) w' L' W) as SZ.
    assert (NE : 0 <= INR (length v) * ea <= 0.1) by (split; [apply Rmult_le_pos; lra|apply Rle_trans with (10 * 0.01); [apply Rmult_le_compat; lra|lra]]).
    assert (SZ' : sizes (combine v' w') <= (S + INR (length v) * ea) * B) by (eapply Rle_trans; [exact SZ|]; apply Rmult_le_compat_r; lra).
    assert (LEN : length (combine v' w') = length v). { rewrite combine_length. rewrite <- (f2_length _ _ _ H). lia. }
    assert (BIG : (S + INR (length v) * ea) * B <= 5 * B) by (apply Rmult_le_compat_r; lra).
    assert (D : Rabs (t - total (combine v' w')) <= bound double (combine v' w')).
    { apply (dot_error double rd); try reflexivity; try exact RD; try exact C; try (rewrite LEN; lia); try (cbn; lia).
      - unfold unit_of. cbn [f_prec double]. change (powerRZ 2 (- (53))) with u2. lra.
      - change (p2 (f_low double)) with low2. assert (100 * large <= p2 (f_high double - 1)). { change (f_high double - 1)%Z with (120 + 903)%Z. rewrite p2_add. fold large. rewrite Rmult_comm. apply Rmult_le_compat_l; [pose proof large_size; lra|]. apply Rle_trans with (p2 10); [rewrite p2_nat by lia; apply IZR_le; vm_compute; discriminate|apply p2_le; lia]. }
        pose proof large_size. lra. }
    unfold bound, count in D. rewrite LEN in D. change (unit_of double) with u2 in D. change (p2 (f_low double)) with low2 in D. unfold close.
    replace (t - dotsR v w) with ((t - total (combine v' w')) + (total (combine v' w') - dotsR v w)) by ring. apply Rle_trans with (1 := Rabs_triang _ _).
    assert (1.01 * u2 * sizes (combine v' w') <= 1.01 * u2 * ((S + INR (length v) * ea) * B)) by (apply Rmult_le_compat_l; lra).
    assert (2 * INR (length v) * (1.01 * u2 * sizes (combine v' w') + low2) <= 2 * INR (length v) * (1.01 * u2 * ((S + INR (length v) * ea) * B) + low2)) by (apply Rmult_le_compat_l; lra). lra.
  Qed.
  Lemma werr_uniform e v : 0 <= e -> forall w w', Forall2 (close e) w w' -> werr v w w' <= sumabs v * e.
  Proof using.
    intro E0. induction v as [|a v IH]; intros w w' H; cbn [werr sumabs fold_right].
    - rewrite Rmult_0_l. apply Rle_refl.
    - fold (sumabs v). destruct H as [|b b' w w' C H].
      + apply Rmult_le_pos; [|exact E0]. clear. apply Rplus_le_le_0_compat; [apply Rabs_pos|]. induction v; cbn; [lra|]. fold (sumabs v). pose proof (Rabs_pos a0). unfold sumabs in *. lra.
      + specialize (IH w w' H). assert (Rabs a * Rabs (b' - b) <= Rabs a * e) by (apply Rmult_le_compat_l; [apply Rabs_pos|exact C]). lra.
  Qed.
  Lemma werr_same v w : werr v w w = 0.
  Proof using. revert w. induction v as [|a v IH]; intros [|b w]; cbn [werr]; try reflexivity. rewrite IH, Rminus_diag_eq, Rabs_R0 by reflexivity. ring. Qed.
End Dot.

(** *** Lists *)
Notation colR := (Elem.column 0).
Definition within (B : R) (m : list (list R)) : Prop := Forall (Forall (fun x => Rabs x <= B)) m.
Lemma f2_map_mapi_from {A A' B B'} (P : A -> A' -> Prop) (Q : B -> B' -> Prop) (f : A -> B) (g : nat -> A' -> B') a b : Forall2 P a b -> (forall i x y, P x y -> Q (f x) (g i y)) ->
  forall s, Forall2 Q (map f a) (map (fun p => g (fst p) (snd p)) (combine (seq s (length b)) b)).
Proof. intros H K. induction H as [|x y a b H1 H IH]; intro s; cbn [length seq combine map]; constructor; [now apply K|apply IH]. Qed.
Lemma f2_mapi {A A' B B'} (P : A -> A' -> Prop) (Q : B -> B' -> Prop) (f : A -> B) (g : nat -> A' -> B') a b : Forall2 P a b -> (forall i x y, P x y -> Q (f x) (g i y)) -> Forall2 Q (map f a) (mapi g b).
Proof. intros H K. apply (f2_map_mapi_from P Q f g a b H K). Qed.
Lemma mapi_map {A B C} (h : B -> C) (f : nat -> A -> B) l : map h (mapi f l) = mapi (fun i x => h (f i x)) l.
Proof. unfold mapi. now rewrite map_map. Qed.
Lemma f2_map {A A' B B'} (P : A -> A' -> Prop) (Q : B -> B' -> Prop) (f : A -> B) (g : A' -> B') a b : Forall2 P a b -> (forall x y, P x y -> Q (f x) (g y)) -> Forall2 Q (map f a) (map g b).
Proof. intros H K. induction H; cbn; constructor; auto. Qed.
Lemma f2_same {A B} (Q : B -> B -> Prop) (f g : A -> B) l : (forall x, In x l -> Q (f x) (g x)) -> Forall2 Q (map f l) (map g l).
Proof. induction l as [|x l IH]; intro K; cbn; constructor; [apply K; now left|apply IH; intros; apply K; now right]. Qed.
Lemma f2_app {A B} (P : A -> B -> Prop) a a' b b' : Forall2 P a a' -> Forall2 P b b' -> Forall2 P (a ++ b) (a' ++ b').
Proof. induction 1; cbn; auto. Qed.
Lemma f2_concat {A B} (P : A -> B -> Prop) a b : Forall2 (Forall2 P) a b -> Forall2 P (concat a) (concat b).
Proof. induction 1; cbn; [constructor|]. now apply f2_app. Qed.
Lemma f2_refl {A} (P : A -> A -> Prop) l : (forall x, P x x) -> Forall2 P l l.
Proof. intro H. induction l; constructor; auto. Qed.
Lemma f2_mono {A B} (P Q : A -> B -> Prop) a b : (forall x y, P x y -> Q x y) -> Forall2 P a b -> Forall2 Q a b.
Proof. intros H. induction 1; constructor; auto. Qed.
Lemma nth_close e j v v' : 0 <= e -> Forall2 (close e) v v' -> close e (nth j v 0) (nth j v' 0).
Proof. intros E H. revert j. induction H; intros [|j]; cbn [nth]; try (apply close_refl; exact E); auto. Qed.
Lemma col_close e j m m' : 0 <= e -> matclose e m m' -> Forall2 (close e) (colR m j) (colR m' j).
Proof. intros E H. unfold Elem.column. apply (f2_map _ _ _ _ _ _ H). intros v v'. now apply nth_close. Qed.
Lemma nth_within B j v : 0 <= B -> Forall (fun x => Rabs x <= B) v -> Rabs (nth j v 0) <= B.
Proof. intros B0 H. revert j. induction H; intros [|j]; cbn [nth]; try (rewrite Rabs_R0; exact B0); auto. Qed.
Lemma col_within B j m : 0 <= B -> within B m -> Forall (fun x => Rabs x <= B) (colR m j).
Proof. intros B0 H. unfold Elem.column. apply Forall_map. eapply Forall_impl; [|exact H]. intros v. now apply nth_within. Qed.
Lemma col_length j (m : list (list R)) : length (colR m j) = length m.
Proof. apply map_length. Qed.
Lemma close_within e B v v' : Forall2 (close e) v v' -> Forall (fun x => Rabs x <= B) v -> Forall (fun x => Rabs x <= B + e) v'.
Proof. induction 1 as [|x y v v' C H IH]; intro W; constructor; inversion W; subst; [now apply (close_abs e B x)|auto]. Qed.
Lemma mat_within e B m m' : matclose e m m' -> within B m -> within (B + e) m'.
Proof. induction 1 as [|v v' m m' C H IH]; intro W; constructor; inversion W; subst; [now apply (close_within e B v)|now apply IH]. Qed.

Section Products.
  Variables (rd : R -> R) (dot : nat -> nat -> nat -> list R -> list R -> R).
  Hypothesis RD : rounds double rd.
  Hypothesis DOT : forall site i j v w, computes rd (combine v w) (dot site i j v w).
  Notation rowdotR := (rowdot 0 Rplus Rmult).
  (** The error of a dot product, from that of the factors *)
  Definition after (n : nat) (S ea e B : R) : R := S * e + INR n * (ea * B + 2 * (1.01 * u2 * ((S + INR n * ea) * B) + low2)).
  Lemma rowdot_near site i k n ea e B S v v' m m' : Forall2 (close ea) v v' -> matclose e m m' -> length m = length v -> (length v <= 10)%nat -> 0 <= ea <= 0.01 -> 0 <= e -> 0 <= B < large -> within B m' -> sumabs v <= S -> S <= 4 ->
    Forall2 (close (after (length v) S ea e B)) (rowdotR n v m) (rowdot_fl dot site i k n v' m').
  Proof using RD DOT.
    intros V M L N EA E B0 W SA S4. unfold rowdot, rowdot_fl. apply f2_same. intros j _. unfold after.
    apply (dot_near rd RD ea B (S * e) S v v' (colR m j) (colR m' j)); try assumption.
    - now rewrite col_length.
    - rewrite col_length. rewrite <- L. symmetry. exact (f2_length _ _ _ M).
    - apply col_within; [lra|exact W].
    - eapply Rle_trans; [apply (werr_uniform e v E _ _ (col_close e j m m' E M))|]. apply Rmult_le_compat_r; assumption.
    - apply DOT.
  Qed.
  Definition rows_of (n : nat) (S : R) (x : list (list R)) : Prop := Forall (fun r => length r = n /\ sumabs r <= S) x.
  Lemma f2_and {A B} (P : A -> B -> Prop) (Q : A -> Prop) a b : Forall2 P a b -> Forall Q a -> Forall2 (fun x y => P x y /\ Q x) a b.
  Proof using. induction 1; intro K; constructor; inversion K; subst; auto. Qed.
  Lemma dot2_near site k n ea e B S x x' m m' : matclose ea x x' -> rows_of k S x -> matclose e m m' -> length m = k -> (k <= 10)%nat -> 0 <= ea <= 0.01 -> 0 <= e -> 0 <= B < large -> within B m' -> S <= 4 ->
    matclose (after k S ea e B) (dot2 0 Rplus Rmult n x m) (dot2_fl dot site n x' m').
  Proof using RD DOT.
    intros X XS M L N EA E B0 W S4. unfold dot2, dot2_fl. apply (f2_mapi _ _ _ _ _ _ (f2_and _ _ _ _ X XS)). intros i v v' (V & LV & SV). rewrite <- LV. apply (rowdot_near site i 0 n ea e B S v v' m m' V M); try assumption; congruence.
  Qed.
  Lemma dot3_near site k n ea e B S x x' (b b' : list (list (list R))) : matclose ea x x' -> rows_of k S x -> Forall2 (matclose e) b b' -> Forall (fun m => length m = k) b -> (k <= 10)%nat -> 0 <= ea <= 0.01 -> 0 <= e -> 0 <= B < large -> Forall (within B) b' -> S <= 4 ->
    Forall2 (matclose (after k S ea e B)) (dot3 0 Rplus Rmult n x b) (dot3_fl dot site n x' b').
  Proof using RD DOT.
    intros X XS M L N EA E B0 W S4. unfold dot3, dot3_fl. apply (f2_mapi _ _ _ _ _ _ (f2_and _ _ _ _ X XS)). intros i v v' (V & LV & SV).
    assert (M2 : Forall2 (fun m m' => matclose e m m' /\ length m = k /\ within B m') b b').
    { clear -M L W. induction M; constructor; inversion L; inversion W; subst; auto. }
    apply (f2_mapi _ _ _ _ _ _ M2). intros q m m' (Mm & Lm & Wm). rewrite <- LV. apply (rowdot_near site i _ n ea e B S v v' m m' V Mm); try assumption; congruence.
  Qed.
End Products.

(** *** Matrices times columns of points *)
Lemma nth_seq_map {A} (f : nat -> A) n j d : (j < n)%nat -> nth j (map f (seq 0 n)) d = f j.
Proof. intro H. rewrite (nth_indep _ d (f 0%nat)) by now rewrite map_length, seq_length. rewrite map_nth, seq_nth by exact H. reflexivity. Qed.
Lemma map_nth_seq (p : list R) : map (fun i => nth i p 0) (seq 0 (length p)) = p.
Proof. induction p as [|x p IH]; [reflexivity|]. cbn [length seq map nth]. f_equal. rewrite <- seq_shift, map_map. exact IH. Qed.
Lemma col_transp k P j : (j < length P)%nat -> length (nth j P []) = k -> colR (transp 0 k P) j = nth j P [].
Proof.
  intros J L. unfold transp. unfold Elem.column at 1. rewrite map_map. rewrite <- L. rewrite <- (map_nth_seq (nth j P [])) at 2. apply map_ext. intro i.
  unfold Elem.column. rewrite (nth_indep _ 0 (nth i [] 0)) by now rewrite map_length. exact (map_nth (fun r => nth i r 0) P [] j).
Qed.
Lemma times_points n k x P : (n <= length P)%nat -> Forall (fun p => length p = k) P ->
  transp 0 n (dot2 0 Rplus Rmult n x (transp 0 k P)) = map (fun j => map (fun r => dotsR r (nth j P [])) x) (seq 0 n).
Proof.
  intros N H. unfold transp at 1. apply map_ext_in. intros j J. apply in_seq in J. unfold Elem.column, dot2. rewrite map_map. apply map_ext. intro r. unfold rowdot. rewrite nth_seq_map by lia. f_equal. apply col_transp; [lia|].
  rewrite Forall_forall in H. apply H, nth_In. lia.
Qed.
Lemma times_points_fl dot site n k x P : (n <= length P)%nat -> Forall (fun p => length p = k) P ->
  transp 0 n (dot2_fl dot site n x (transp 0 k P)) = map (fun j => mapi (fun i r => dot site i j r (nth j P [])) x) (seq 0 n).
Proof.
  intros N H. unfold transp at 1. apply map_ext_in. intros j J. apply in_seq in J. unfold Elem.column at 1, dot2_fl. rewrite mapi_map. unfold mapi. apply map_ext. intros [i r]. cbn [fst snd]. unfold rowdot_fl. rewrite nth_seq_map by lia. f_equal. apply col_transp; [lia|].
  rewrite Forall_forall in H. apply H, nth_In. lia.
Qed.
Lemma points_near e n k x P P' (dot : nat -> nat -> nat -> list R -> list R -> R) site : n = length P -> n = length P' -> Forall (fun p => length p = k) P -> Forall (fun p => length p = k) P' ->
  (forall j, (j < n)%nat -> Forall2 (close e) (map (fun r => dotsR r (nth j P [])) x) (mapi (fun i r => dot site i j r (nth j P' [])) x)) ->
  matclose e (transp 0 n (dot2 0 Rplus Rmult n x (transp 0 k P))) (transp 0 n (dot2_fl dot site n x (transp 0 k P'))).
Proof. intros N N' H H' K. rewrite times_points by (assumption || lia). rewrite times_points_fl by (assumption || lia). apply f2_same. intros j J. apply K. apply in_seq in J. lia. Qed.

(** *** Sums of rows *)
Ltac abs_const := repeat match goal with |- context [Rabs ?x] => first [rewrite (Rabs_right x) by (pose proof root3; lra) | rewrite (Rabs_left x) by (pose proof root3; lra)] end.
Lemma xbm3_rows : rows_of 2 1.74 (xbm3 1 Rplus Rmult Rminus Rdiv (sqrt 3)).
Proof. pose proof root3. unfold xbm3, half, Elem.two. cbn [scale map]. repeat constructor; cbn [sumabs fold_right]; abs_const; lra. Qed.
Lemma xtri_rows : rows_of 3 3 (xtri 1 Rplus Ropp Rdiv).
Proof. unfold xtri, five, three, Elem.two. repeat constructor; cbn [sumabs fold_right]; abs_const; lra. Qed.
Lemma xquad_rows : rows_of 4 3 (xquad 1 Rplus Rmult Rminus Rdiv (sqrt 3)).
Proof.
  pose proof root3. pose proof (sqrt_sqrt 3 ltac:(lra)) as Q. unfold xquad, quarter, Elem.two. cbn [scale map].
  assert (PP : Rabs ((1 + sqrt 3) * (1 + sqrt 3) * (1 / ((1 + 1) * (1 + 1)))) = (4 + 2 * sqrt 3) / 4). { replace ((1 + sqrt 3) * (1 + sqrt 3) * (1 / ((1 + 1) * (1 + 1)))) with ((4 + 2 * sqrt 3) / 4); [rewrite Rabs_right; lra|]. nra. }
  assert (MM : Rabs ((1 - sqrt 3) * (1 - sqrt 3) * (1 / ((1 + 1) * (1 + 1)))) = (4 - 2 * sqrt 3) / 4). { replace ((1 - sqrt 3) * (1 - sqrt 3) * (1 / ((1 + 1) * (1 + 1)))) with ((4 - 2 * sqrt 3) / 4); [rewrite Rabs_right; lra|]. nra. }
  assert (PM : Rabs ((1 + sqrt 3) * (1 - sqrt 3) * (1 / ((1 + 1) * (1 + 1)))) = / 2). { replace ((1 + sqrt 3) * (1 - sqrt 3) * (1 / ((1 + 1) * (1 + 1)))) with (- / 2); [rewrite Rabs_left; lra|]. nra. }
  assert (MP : Rabs ((1 - sqrt 3) * (1 + sqrt 3) * (1 / ((1 + 1) * (1 + 1)))) = / 2). { replace ((1 - sqrt 3) * (1 + sqrt 3) * (1 / ((1 + 1) * (1 + 1)))) with (- / 2); [rewrite Rabs_left; lra|]. nra. }
  assert (P : Rabs ((1 + sqrt 3) * (1 / ((1 + 1) * (1 + 1)))) = (1 + sqrt 3) / 4) by (rewrite Rabs_right; lra).
  assert (M : Rabs ((1 - sqrt 3) * (1 / ((1 + 1) * (1 + 1)))) = (sqrt 3 - 1) / 4) by (rewrite Rabs_left; lra).
  repeat constructor; cbn [sumabs fold_right]; rewrite ?PP, ?MM, ?PM, ?MP, ?P, ?M; lra.
Qed.

Section Thick.
  Variables (rs rd ra : R -> R) (dot : nat -> nat -> nat -> list R -> list R -> R).
  Hypothesis RD : rounds double rd.
  Hypothesis GS : good u1 low1 rs.
  Hypothesis GA : good u1 low1 ra.
  Hypothesis DOT : forall site i j v w, computes rd (combine v w) (dot site i j v w).
  Variable M : R.
  Hypothesis M0 : 0 <= M.
  Hypothesis ML : 100 * M < large.
  Notation s3 := (sqrt 3).
  Notation unit := (u1 * M + low1).
  Notation ok := (fun x => Rabs x <= M).
  Notation low := (to_lower 1 Rplus Rmult Rminus Ropp Rdiv s3).
  Notation upp := (to_upper 1 Rplus Rmult Rminus Rdiv s3).
  Notation lowf := (surface_fl rs ra (c_lower rd)).
  Notation uppf := (surface_fl rs ra (c_upper rd)).
  Lemma unit_size : 0 <= u1 * M /\ 0 < low1 /\ 0 <= u2 * M /\ 500000000 * (u2 * M) <= u1 * M /\ unit <= 0.01 * M + low1 /\ 0 < low2 /\ 1000000 * low2 <= low1 /\ low1 <= / 1000000000000000 /\ 0 < u2 <= / 1000000000000000.
  Proof using M0.
    pose proof u1_size. pose proof u2_u1 as (U & U1 & U2). pose proof low2_small as (L & L1 & L2 & L3). assert (0 <= u1 * M) by (apply Rmult_le_pos; lra). assert (0 <= u2 * M) by (apply Rmult_le_pos; lra).
    assert (500000000 * u2 * M <= u1 * M) by (apply Rmult_le_compat_r; assumption). assert (u1 * M <= 0.01 * M) by (apply Rmult_le_compat_r; lra). lra.
  Qed.
  Ltac five l H := destruct l as [|?x0 [|?x1 [|?x2 [|?x3 [|?x4 [|? ?]]]]]]; try discriminate H.
  Ltac oks := repeat match goal with H : Forall _ (_ :: _) |- _ => inversion H; subst; clear H end.
  (** The ten numbers of one point at the surfaces *)
  Lemma point l u : length l = 5%nat -> length u = 5%nat -> Forall ok l -> Forall ok u ->
    exists p0 p1 p2 q0 q1 q2 p0' p1' p2' q0' q1' q2' s t s' t',
      first3 low l l u = [p0; p1; p2; s; t] /\ first3 upp u l u = [q0; q1; q2; s'; t'] /\ first3 lowf l l u = [p0'; p1'; p2'; s; t] /\ first3 uppf u l u = [q0'; q1'; q2'; s'; t'] /\
      Forall2 (close (6 * unit)) [p0; p1; p2] [p0'; p1'; p2'] /\ Forall2 (close (12.1 * unit)) [q0; q1; q2] [q0'; q1'; q2'] /\ Forall (fun x => Rabs x <= 1.74 * M) [p0; p1; p2; q0; q1; q2] /\ Forall ok [s; t; s'; t'].
  Proof using RD GS GA M0 ML.
    intros L U OL OU. five l L. five u U. oks. do 16 eexists. do 4 (split; [reflexivity|]). split; [|split; [|split]].
    - repeat (constructor; [apply (lower_near rs rd ra RD GS GA M); assumption|]). constructor.
    - repeat (constructor; [apply (upper_near rs rd ra RD GS GA M); assumption|]). constructor.
    - repeat (constructor; [apply (surface_sizes M); assumption|]). constructor.
    - repeat (apply Forall_cons; [assumption|]). constructor.
  Qed.
  Definition points5 (n : nat) (m : list (list R)) : Prop := length m = n /\ Forall (fun r => length r = 5%nat /\ Forall ok r) m.
  Lemma surfaces_near n l u : points5 n l -> points5 n u ->
    Forall2 (matclose (12.1 * unit)) (to_surfaces 1 Rplus Rmult Rminus Ropp Rdiv s3 [l; u]) (to_surfaces_fl rs rd ra [l; u]) /\
    Forall (within (1.74 * M)) (to_surfaces 1 Rplus Rmult Rminus Ropp Rdiv s3 [l; u]) /\ Forall (fun m => length m = n) (to_surfaces 1 Rplus Rmult Rminus Ropp Rdiv s3 [l; u]).
  Proof using RD GS GA M0 ML.
    intros (Ll & Pl) (Lu & Pu). pose proof unit_size as US. cbn [to_surfaces to_surfaces_fl]. subst n.
    assert (K : forall l u : list (list R), length u = length l -> Forall (fun r => length r = 5%nat /\ Forall ok r) l -> Forall (fun r => length r = 5%nat /\ Forall ok r) u ->
      matclose (12.1 * unit) (zip_with (fun lp up => first3 low lp lp up) l u) (zip_with (fun lp up => first3 lowf lp lp up) l u) /\ matclose (12.1 * unit) (zip_with (fun lp up => first3 upp up lp up) l u) (zip_with (fun lp up => first3 uppf up lp up) l u) /\
      within (1.74 * M) (zip_with (fun lp up => first3 low lp lp up) l u) /\ within (1.74 * M) (zip_with (fun lp up => first3 upp up lp up) l u)).
    { clear l u Pl Lu Pu. induction l as [|p l IH]; intros [|q u] L Pl Pu; try discriminate; [repeat split; constructor|]. inversion Pl as [|? ? [Lp Op] Pl']; subst. inversion Pu as [|? ? [Lq Oq] Pu']; subst.
      destruct (IH u ltac:(now injection L) Pl' Pu') as (I1 & I2 & I3 & I4). destruct (point p q Lp Lq Op Oq) as (p0 & p1 & p2 & q0 & q1 & q2 & p0' & p1' & p2' & q0' & q1' & q2' & s & t & s' & t' & E1 & E2 & E3 & E4 & C1 & C2 & B & O).
      unfold zip_with in *. cbn [combine map fst snd]. rewrite E1, E2, E3, E4. assert (Z : forall x, close (12.1 * unit) x x) by (intro; apply close_refl; lra).
      split; [|split; [|split]]; constructor; try assumption.
      - change [p0; p1; p2; s; t] with ([p0; p1; p2] ++ [s; t]). change [p0'; p1'; p2'; s; t] with ([p0'; p1'; p2'] ++ [s; t]). apply f2_app; [|now apply f2_refl]. eapply f2_mono; [|exact C1]. intros x y. apply close_le. lra.
      - change [q0; q1; q2; s'; t'] with ([q0; q1; q2] ++ [s'; t']). change [q0'; q1'; q2'; s'; t'] with ([q0'; q1'; q2'] ++ [s'; t']). apply f2_app; [exact C2|now apply f2_refl].
      - oks. cbn beta in *. repeat (apply Forall_cons; [lra|]). constructor.
      - oks. cbn beta in *. repeat (apply Forall_cons; [lra|]). constructor. }
    destruct (K l u Lu Pl Pu) as (K1 & K2 & K3 & K4). split; [repeat constructor; assumption|]. split; [repeat constructor; assumption|].
    unfold zip_with. repeat constructor; rewrite map_length, combine_length; lia.
  Qed.
  Lemma no_shear_near e (d d' : list (list (list R))) : 0 <= e -> Forall2 (matclose e) d d' -> Forall2 (matclose e) (no_shear 0 d) (no_shear 0 d').
  Proof using.
    intros E H. unfold no_shear. apply (f2_map _ _ _ _ _ _ H). intros m m' Hm. apply (f2_map _ _ _ _ _ _ Hm). intros v v' Hv. clear - E Hv.
    assert (Z : forall v v', Forall2 (close e) v v' -> Forall2 (close e) (map (fun _ => 0) v) (map (fun _ => 0) v')) by (induction 1; constructor; [apply close_refl; exact E|assumption]).
    destruct Hv as [|? ? ? ? C1 Hv]; [constructor|]. destruct Hv as [|? ? ? ? C2 Hv]; [cbn; auto|]. destruct Hv as [|? ? ? ? C3 Hv]; [cbn; auto|]. cbn [firstn skipn app]. repeat (apply Forall2_cons; [assumption|]). now apply Z.
  Qed.
  Lemma no_shear_within B d : 0 <= B -> Forall (within B) d -> Forall (within B) (no_shear 0 d).
  Proof using.
    intros B0 H. unfold no_shear. apply Forall_map. eapply Forall_impl; [|exact H]. intros m Hm. apply Forall_map. eapply Forall_impl; [|exact Hm]. intros v Hv. cbn beta in Hv. rewrite <- (firstn_skipn 3 v) in Hv. apply Forall_app in Hv as (H1 & H2). apply Forall_app. split; [exact H1|].
    apply Forall_map, Forall_forall. intros x _. rewrite Rabs_R0. exact B0.
  Qed.
  Lemma no_shear_length n (d : list (list (list R))) : Forall (fun m => length m = n) d -> Forall (fun m => length m = n) (no_shear 0 d).
  Proof using. intro H. apply Forall_map. eapply Forall_impl; [|exact H]. intros m E. cbn beta. now rewrite map_length. Qed.
  Lemma nth_zip {A B C} (f : A -> B -> C) l u j a b c : length l = length u -> (j < length l)%nat -> nth j (zip_with f l u) c = f (nth j l a) (nth j u b).
  Proof using. clear DOT dot. intros L J. unfold zip_with. rewrite (nth_indep _ c (f a b)) by (rewrite map_length, combine_length; lia). change (f a b) with ((fun p => f (fst p) (snd p)) (a, b)). rewrite map_nth, combine_nth by exact L. reflexivity. Qed.
  Notation XT := (x_decomp_thick 0 1 Rplus Ropp Rdiv).
  Lemma abs_split x b : Rabs x <= b -> - b <= x <= b.
  Proof using. intro H. pose proof (Rle_abs x). pose proof (Rle_abs (- x)) as H2. rewrite Rabs_Ropp in H2. lra. Qed.
  Lemma row_near site i j v p p' E : length v = 10%nat -> length p = 10%nat -> length p' = 10%nat -> Forall (fun x => Rabs x <= 2 * M + 13 * low1) p' -> werr v p p' <= E -> sumabs v <= 1.5 ->
    close (E + 0.01 * unit) (dotsR v p) (dot site i j v p').
  Proof using RD DOT M0 ML.
    intros L Lp Lp' W WE SA. pose proof unit_size as US. pose proof large_size. eapply close_le; [|apply (dot_near rd RD 0 (2 * M + 13 * low1) E 1.5 v v p p'); try assumption; try lra; try lia; [apply f2_refl; intro; apply close_refl; lra|apply DOT]].
    rewrite L. replace (INR 10) with 10 by (rewrite INR_IZR_INZ; reflexivity). assert (u2 * low1 <= / 1000000000000000 * low1) by (apply Rmult_le_compat_r; lra). lra.
  Qed.
  Lemma point_decomposed site j l u : length l = 5%nat -> length u = 5%nat -> Forall ok l -> Forall ok u ->
    let p := first3 low l l u ++ first3 upp u l u in let p' := first3 lowf l l u ++ first3 uppf u l u in
    Forall2 (close (9.1 * unit)) (map (fun r => dotsR r p) XT) (mapi (fun i r => dot site i j r p') XT) /\ Forall (fun x => Rabs x <= 1.74 * M) (map (fun r => dotsR r p) XT).
  Proof using RD GS GA DOT M0 ML.
    intros L U OL OU. pose proof unit_size as US. destruct (point l u L U OL OU) as (p0 & p1 & p2 & q0 & q1 & q2 & p0' & p1' & p2' & q0' & q1' & q2' & s & t & s' & t' & E1 & E2 & E3 & E4 & C1 & C2 & B & O). rewrite E1, E2, E3, E4. cbn [app]. cbv zeta.
    assert (W : Forall (fun x => Rabs x <= 2 * M + 13 * low1) [p0'; p1'; p2'; s; t; q0'; q1'; q2'; s'; t']).
    { pose proof u1_size. assert (UMs : u1 * M <= 0.001 * M) by (apply Rmult_le_compat_r; lra).
      change [p0; p1; p2; q0; q1; q2] with ([p0; p1; p2] ++ [q0; q1; q2]) in B. apply Forall_app in B as (Bp & Bq). pose proof (close_within _ _ _ _ C1 Bp) as Wp. pose proof (close_within _ _ _ _ C2 Bq) as Wq. clear Bp Bq C1 C2. oks. cbn beta in *. repeat (apply Forall_cons; [lra|]). constructor. }
    assert (RW : forall i v E, length v = 10%nat -> werr v [p0; p1; p2; s; t; q0; q1; q2; s'; t'] [p0'; p1'; p2'; s; t; q0'; q1'; q2'; s'; t'] <= E -> sumabs v <= 1.5 ->
      close (E + 0.01 * unit) (dotsR v [p0; p1; p2; s; t; q0; q1; q2; s'; t']) (dot site i j v [p0'; p1'; p2'; s; t; q0'; q1'; q2'; s'; t'])) by (intros; now apply row_near).
    clear W.
    assert (Z : forall x, Rabs (x - x) = 0) by (intro; rewrite Rminus_diag_eq, Rabs_R0; reflexivity).
    assert (AH : Rabs (1 / (1 + 1)) = / 2) by (rewrite Rabs_right; lra). assert (AM : Rabs (- (1 / (1 + 1))) = / 2) by (rewrite Rabs_left; lra). assert (AK : Rabs ((1 + 1 + 1) / (1 + 1)) = 1.5) by (rewrite Rabs_right; lra).
    repeat match goal with H : Forall2 _ (_ :: _) _ |- _ => inversion H; subst; clear H end. unfold close in *. oks. cbn beta in *. unfold x_decomp_thick, half, three, Elem.two, mapi. cbn [length seq combine map fst snd].
    split.
    - repeat (apply Forall2_cons; [eapply close_le; [|apply (RW _ _ (9.05 * unit)); [reflexivity| |]];
        [lra|cbn [werr]; rewrite ?Z, ?AH, ?AM, ?AK, ?Rabs_R0; lra|cbn [sumabs fold_right]; rewrite ?AH, ?AM, ?AK, ?Rabs_R0; lra]|]). constructor.
    - repeat match goal with H : Rabs _ <= _ * M |- _ => apply abs_split in H | H : Rabs _ <= M |- _ => apply abs_split in H end.
      repeat (apply Forall_cons; [cbn [dots]; apply Rabs_le; lra|]). constructor.
  Qed.
  Lemma roll_nth n (a b : list (list R)) j : (j < n)%nat -> nth j (map (@concat R) (roll1 n [a; b])) [] = nth j a [] ++ nth j b [].
  Proof using. intro J. unfold roll1. rewrite map_map, nth_seq_map by exact J. cbn [map concat]. now rewrite app_nil_r. Qed.
  Lemma roll_length n (d : list (list (list R))) : length (map (@concat R) (roll1 n d)) = n.
  Proof using. unfold roll1. now rewrite !map_length, seq_length. Qed.
  Lemma roll_rows n k (a b : list (list R)) : (forall j, (j < n)%nat -> length (nth j a [] ++ nth j b []) = k) -> Forall (fun p => length p = k) (map (@concat R) (roll1 n [a; b])).
  Proof using. intro H. apply Forall_forall. intros p Hp. apply (In_nth _ _ []) in Hp as (j & J & <-). rewrite roll_length in J. rewrite roll_nth by exact J. now apply H. Qed.
  Lemma first3_length f own l u : length own = 5%nat -> length l = 5%nat -> length u = 5%nat -> length (@first3 R f own l u) = 5%nat.
  Proof using. intros A B C. five own A. five l B. five u C. reflexivity. Qed.
  Lemma points5_nth n m j : points5 n m -> (j < n)%nat -> length (nth j m []) = 5%nat /\ Forall ok (nth j m []).
  Proof using. intros (<- & H) J. rewrite Forall_forall in H. apply H, nth_In, J. Qed.
  Lemma decomposed_near n l u : points5 n l -> points5 n u ->
    matclose (9.1 * unit) (decompose_thick 0 1 Rplus Rmult Ropp Rdiv n (to_surfaces 1 Rplus Rmult Rminus Ropp Rdiv s3 [l; u])) (decompose_thick_fl dot n (to_surfaces_fl rs rd ra [l; u])) /\
    within (1.74 * M) (decompose_thick 0 1 Rplus Rmult Ropp Rdiv n (to_surfaces 1 Rplus Rmult Rminus Ropp Rdiv s3 [l; u])) /\
    length (decompose_thick 0 1 Rplus Rmult Ropp Rdiv n (to_surfaces 1 Rplus Rmult Rminus Ropp Rdiv s3 [l; u])) = n.
  Proof using RD GS GA DOT M0 ML.
    intros Pl Pu. pose proof Pl as (Ll & _). pose proof Pu as (Lu & _). cbn [to_surfaces to_surfaces_fl]. unfold decompose_thick, decompose_thick_fl, x_decomp_thick_fl.
    assert (N : forall f g j, (j < n)%nat -> nth j (map (@concat R) (roll1 n [zip_with (fun lp up => first3 f lp lp up) l u; zip_with (fun lp up => first3 g up lp up) l u])) [] =
      first3 f (nth j l []) (nth j l []) (nth j u []) ++ first3 g (nth j u []) (nth j l []) (nth j u [])).
    { intros f g j J. rewrite roll_nth by exact J. rewrite !(nth_zip _ l u j [] []) by lia. reflexivity. }
    assert (K : forall f g, Forall (fun p => length p = 10%nat) (map (@concat R) (roll1 n [zip_with (fun lp up => first3 f lp lp up) l u; zip_with (fun lp up => first3 g up lp up) l u]))).
    { intros f g. apply roll_rows. intros j J. rewrite !(nth_zip _ l u j [] []) by lia. destruct (points5_nth n l j Pl J) as (A & _). destruct (points5_nth n u j Pu J) as (B & _). rewrite app_length, !first3_length by assumption. reflexivity. }
    split; [|split].
    - apply points_near; try (now rewrite roll_length); try apply K. intros j J. rewrite !N by exact J. destruct (points5_nth n l j Pl J) as (A & OA). destruct (points5_nth n u j Pu J) as (B & OB). apply (point_decomposed 0 j _ _ A B OA OB).
    - rewrite times_points; [|rewrite roll_length; lia|apply K]. unfold within. apply Forall_map, Forall_forall. intros j J. apply in_seq in J. rewrite N by lia. destruct (points5_nth n l j Pl ltac:(lia)) as (A & OA). destruct (points5_nth n u j Pu ltac:(lia)) as (B & OB). apply (point_decomposed 0 j _ _ A B OA OB).
    - unfold transp at 1. now rewrite map_length, seq_length.
  Qed.
  (** Thick shells *)
  Lemma ok_inj {A} (a b : A) : Ok a = Ok b -> a = b.
  Proof using. congruence. Qed.
  Notation flat3 := (fun d : list (list (list R)) => concat (map (@concat R) d)).
  Lemma flat3_near e (d d' : list (list (list R))) : Forall2 (matclose e) d d' -> Forall2 (close e) (flat3 d) (flat3 d').
  Proof using. intro H. apply f2_concat. apply (f2_map _ _ _ _ _ _ H). intros m m' Hm. now apply f2_concat. Qed.
  Lemma after_small k ea e : (k = 3 \/ k = 4)%nat -> 0 <= ea <= 15 * u2 -> 0 <= e <= 12.1 * unit -> after k 3 ea e (2 * M + 13 * low1) <= 3 * e + 0.1 * unit.
  Proof using M0.
    intros K EA E. pose proof unit_size as US. unfold after. assert (NK : 0 <= INR k <= 4) by (destruct K as [-> | ->]; cbn; lra). set (B := 2 * M + 13 * low1). assert (B0 : 0 <= B) by (unfold B; lra).
    assert (E1 : ea * B <= 15 * u2 * B) by (apply Rmult_le_compat_r; lra). assert (E2 : 0 <= INR k * ea <= 1) by (split; [apply Rmult_le_pos; lra|apply Rle_trans with (4 * (15 * u2)); [apply Rmult_le_compat; lra|lra]]).
    assert (E3 : 0 <= (3 + INR k * ea) * B <= 4 * B) by (split; [apply Rmult_le_pos; lra|apply Rmult_le_compat_r; lra]). assert (E4 : u2 * ((3 + INR k * ea) * B) <= u2 * (4 * B)) by (apply Rmult_le_compat_l; lra).
    assert (E5 : 0 <= ea * B) by (apply Rmult_le_pos; lra). assert (E6 : 0 <= u2 * ((3 + INR k * ea) * B)) by (apply Rmult_le_pos; lra).
    assert (E7 : INR k * (ea * B + 2 * (1.01 * u2 * ((3 + INR k * ea) * B) + low2)) <= 4 * (15 * u2 * B + 2 * (1.01 * (u2 * (4 * B)) + low2))) by (apply Rmult_le_compat; lra).
    assert (u2 * low1 <= / 1000000000000000 * low1) by (apply Rmult_le_compat_r; lra). unfold B in *. lra.
  Qed.
  Lemma double_limit : 0 <= 2 * M + 13 * low1 < large.
  Proof using M0 ML. pose proof unit_size. pose proof large_size. lra. Qed.
  Lemma within_more e m m' : 0 <= e <= 12.1 * unit -> matclose e m m' -> within (1.74 * M) m -> within (2 * M + 13 * low1) m'.
  Proof using M0.
    intros E C W. pose proof unit_size as US. pose proof u1_size. assert (u1 * M <= 0.001 * M) by (apply Rmult_le_compat_r; lra). pose proof (mat_within _ _ _ _ C W) as H'. unfold within in *. eapply Forall_impl; [|exact H']. intros v. apply Forall_impl. intros x X. lra.
  Qed.
  Lemma thick_near n x x' restype pos l u a : (n = 3 \/ n = 4)%nat -> matclose (15 * u2) x x' -> rows_of n 3 x -> points5 n l -> points5 n u ->
    forall d, shape3 2 n 5 d = Ok [l; u] -> process_thick 0 1 Rplus Rmult Rminus Ropp Rdiv s3 n x restype pos d = Ok a ->
    exists b, process_thick_fl rs rd ra dot n x' restype pos d = Ok b /\ n_shape b = n_shape a /\ Forall2 (close (37 * unit)) (n_flat a) (n_flat b).
  Proof using RD GS GA DOT M0 ML.
    intros HN X XS Pl Pu d SH. pose proof unit_size as US. unfold process_thick, process_thick_fl. rewrite SH. cbn [rbind]. destruct (String.eqb pos "respts").
    { intro OK. apply ok_inj in OK. subst a. eexists. split; [reflexivity|]. split; [reflexivity|]. apply f2_refl. intro. apply close_refl. lra. }
    destruct (String.eqb pos "nodes"); [|discriminate].
    destruct (surfaces_near n l u Pl Pu) as (C & W & L). destruct (decomposed_near n l u Pl Pu) as (CD & WD & LD).
    set (D := to_surfaces 1 Rplus Rmult Rminus Ropp Rdiv s3 [l; u]) in *. set (D' := to_surfaces_fl rs rd ra [l; u]) in *. cbv zeta. pose proof double_limit as DL.
    assert (K : forall b b', Forall2 (matclose (12.1 * unit)) b b' -> Forall (within (1.74 * M)) b -> Forall (fun m => length m = n) b ->
      n_shape (arr3 2 5 (dot3_fl dot 1 5 x' b')) = n_shape (arr3 2 5 (dot3 0 Rplus Rmult 5 x b)) /\ Forall2 (close (37 * unit)) (n_flat (arr3 2 5 (dot3 0 Rplus Rmult 5 x b))) (n_flat (arr3 2 5 (dot3_fl dot 1 5 x' b')))).
    { intros b b' Cb Wb Lb. assert (Wb' : Forall (within (2 * M + 13 * low1)) b'). { clear Lb. induction Cb; constructor; inversion Wb; subst; [eapply within_more; [|eassumption|assumption]; lra|auto]. }
      pose proof (dot3_near rd dot RD DOT 1 n 5 (15 * u2) (12.1 * unit) (2 * M + 13 * low1) 3 x x' b b' X XS Cb Lb ltac:(lia) ltac:(lra) ltac:(lra) DL Wb' ltac:(lra)) as H.
      split; [unfold arr3; cbn [n_shape]; f_equal; symmetry; exact (f2_length _ _ _ H)|]. unfold arr3; cbn [n_flat]. apply flat3_near. eapply f2_mono; [|exact H]. intros m m'. apply f2_mono. intros v v'. apply f2_mono. intros y y'. apply close_le. pose proof (after_small n (15 * u2) (12.1 * unit) HN ltac:(lra) ltac:(lra)). lra. }
    destruct (String.eqb restype "generalstress").
    { intro OK. apply ok_inj in OK. subst a. eexists. split; [reflexivity|]. apply K; [apply no_shear_near; [lra|exact C]|apply no_shear_within; [lra|exact W]|now apply no_shear_length]. }
    destruct (String.eqb restype "decomposedstress").
    - intro OK. apply ok_inj in OK. subst a. eexists. split; [reflexivity|].
      pose proof (dot2_near rd dot RD DOT 1 n 8 (15 * u2) (9.1 * unit) (2 * M + 13 * low1) 3 x x' _ _ X XS CD LD ltac:(lia) ltac:(lra) ltac:(lra) DL (within_more (9.1 * unit) _ _ ltac:(lra) CD WD) ltac:(lra)) as H.
      split; [unfold arr2; cbn [n_shape]; f_equal; symmetry; exact (f2_length _ _ _ H)|]. unfold arr2; cbn [n_flat]. apply f2_concat. eapply f2_mono; [|exact H]. intros v v'. apply f2_mono. intros y y'. apply close_le. pose proof (after_small n (15 * u2) (9.1 * unit) HN ltac:(lra) ltac:(lra)). lra.
    - intro OK. apply ok_inj in OK. subst a. eexists. split; [reflexivity|]. now apply K.
  Qed.
End Thick.

Lemma split_rows {A} n m (d : list A) : length d = (m * n)%nat -> exists rows, length rows = m /\ Forall (fun r => length r = n) rows /\ d = concat rows.
Proof.
  revert d. induction m as [|m IH]; intros d L.
  - exists []. destruct d; [repeat split; constructor|discriminate].
  - destruct (IH (skipn n d)) as (rows & Lr & Fr & E); [rewrite skipn_length; lia|]. exists (firstn n d :: rows). split; [cbn; lia|]. split; [constructor; [rewrite firstn_length; lia|exact Fr]|]. cbn [concat]. rewrite <- E. symmetry. apply firstn_skipn.
Qed.
Section Process.
  Variables (rs rd ra : R -> R) (dot : nat -> nat -> nat -> list R -> list R -> R).
  Hypothesis RD : rounds double rd.
  Hypothesis GS : good u1 low1 rs.
  Hypothesis GA : good u1 low1 ra.
  Hypothesis DOT : forall site i j v w, computes rd (combine v w) (dot site i j v w).
  Variable M : R.
  Hypothesis M0 : 0 <= M.
  Hypothesis ML : 100 * M < large.
  Notation s3 := (sqrt 3).
  Notation ok := (fun x => Rabs x <= M).
  Notation unit := (u1 * M + low1).
  Notation dunit := (u2 * M + low2).
  Lemma shape2_rows m n (d : list R) r : n <> 0%nat -> Forall ok d -> shape2 m n d = Ok r -> length r = m /\ Forall (fun v => length v = n) r /\ within M r.
  Proof using.
    clear DOT dot. intros N O. unfold shape2. destruct (Nat.eqb (length d) (m * n)) eqn:E; [|discriminate]. apply Nat.eqb_eq in E. destruct (split_rows n m d E) as (rows & L & F & ->). rewrite chunks_concat by (assumption || lia). intros [= <-]. split; [exact L|]. split; [exact F|].
    clear - O. unfold within. induction rows; constructor; cbn [concat] in O; apply Forall_app in O as (A & B); auto.
  Qed.
  Lemma shape3_rows n (d : list R) r : Forall ok d -> n <> 0%nat -> shape3 2 n 5 d = Ok r -> exists l u, r = [l; u] /\ points5 M n l /\ points5 M n u.
  Proof using.
    clear DOT dot. intros O N. unfold shape3. destruct (Nat.eqb (length d) (2 * (n * 5))) eqn:E; [|discriminate]. apply Nat.eqb_eq in E. destruct (split_rows (n * 5) 2 d E) as (rows & L & F & ->).
    rewrite chunks_concat by (assumption || lia). destruct rows as [|a [|b [|? ?]]]; try discriminate L. inversion F as [|? ? Fa F']; subst. inversion F' as [|? ? Fb _]; subst. cbn [concat] in O. rewrite app_nil_r in O. apply Forall_app in O as (Oa & Ob).
    assert (K : forall c, length c = (n * 5)%nat -> Forall ok c -> points5 M n (chunks 5 c)).
    { intros c Lc Oc. destruct (split_rows 5 n c Lc) as (rows & Lr & Fr & ->). rewrite chunks_concat by (assumption || lia). split; [exact Lr|]. clear - Fr Oc. induction Fr; constructor; cbn [concat] in Oc; apply Forall_app in Oc as (A & B); auto. }
    cbn [map]. intros [= <-]. do 2 eexists. split; [reflexivity|]. split; now apply K.
  Qed.
  Lemma dunit_size : 0 <= dunit /\ 0 <= u2 * M /\ 0 < low2 /\ 0 < u2 <= / 1000000000000000 /\ M < large.
  Proof using M0 ML. pose proof (unit_size M M0). lra. Qed.
  Lemma beam_near pos d a : Forall ok d -> process_23 0 1 Rplus Rmult Rminus Rdiv s3 pos d = Ok a ->
    exists b, process_23_fl rd dot pos d = Ok b /\ n_shape b = n_shape a /\ Forall2 (close (18 * dunit)) (n_flat a) (n_flat b).
  Proof using RD DOT M0 ML.
    intros O. pose proof dunit_size as US. unfold process_23, process_23_fl. destruct (shape2 2 6 d) as [m|] eqn:S; [|discriminate]. cbn [rbind]. destruct (shape2_rows 2 6 d m ltac:(discriminate) O S) as (L & F & W).
    destruct (String.eqb pos "nodes"); intro OK; apply ok_inj in OK; subst a; eexists; (split; [reflexivity|]).
    2:{ split; [reflexivity|]. apply f2_refl. intro. apply close_refl. lra. }
    assert (C : matclose 0 m m) by (apply f2_refl; intro; apply f2_refl; intro; apply close_refl; lra).
    pose proof (dot2_near rd dot RD DOT 1 2 6 (5 * u2) 0 M 1.74 _ _ m m (xbm3_near rd RD) xbm3_rows C L ltac:(lia) ltac:(lra) ltac:(lra) ltac:(lra) W ltac:(lra)) as H.
    split; [unfold arr2; cbn [n_shape]; f_equal; symmetry; exact (f2_length _ _ _ H)|]. unfold arr2; cbn [n_flat]. apply f2_concat. eapply f2_mono; [|exact H]. intros v v'. apply f2_mono. intros y y'. apply close_le.
    unfold after. cbn [INR]. assert (u2 * (u2 * M) <= / 1000000000000000 * (u2 * M)) by (apply Rmult_le_compat_r; lra). lra.
  Qed.
  Notation XN := (x_decomp_thin 0 1 Rplus Ropp Rdiv).
  Lemma thin_near n d : n = length d -> Forall (fun p => length (concat p) = 6%nat /\ Forall ok (concat p)) d ->
    matclose (13 * dunit) (decompose_thin 0 1 Rplus Rmult Ropp Rdiv n d) (decompose_thin_fl dot n d).
  Proof using RD DOT M0 ML.
    intros N H. pose proof dunit_size as US. unfold decompose_thin, decompose_thin_fl, x_decomp_thin_fl.
    assert (P : Forall (fun p => length p = 6%nat) (map (@concat R) d)) by (apply Forall_map; eapply Forall_impl; [|exact H]; now intros p (? & _)).
    apply points_near; try (now rewrite map_length); try exact P. intros j J.
    assert (Q : length (nth j (map (@concat R) d) []) = 6%nat /\ Forall ok (nth j (map (@concat R) d) [])). { rewrite N in J. change (@nil R) with (concat (@nil (list R))). rewrite map_nth. rewrite Forall_forall in H. apply H, nth_In, J. }
    destruct Q as (Lp & Op). set (p := nth j (map (@concat R) d) []) in *.
    assert (K : forall i v, length v = 6%nat -> sumabs v <= 1 -> close (13 * dunit) (dotsR v p) (dot 0%nat i j v p)).
    { intros i v Lv Sv. eapply close_le; [|apply (dot_near rd RD 0 M 0 1 v v p p); try assumption; try lra; try lia; [apply f2_refl; intro; apply close_refl; lra|rewrite werr_same; lra|apply DOT]]. rewrite Lv. replace (INR 6) with 6 by (rewrite INR_IZR_INZ; reflexivity). lra. }
    unfold mapi, x_decomp_thin, half, Elem.two. cbn [length seq combine map fst snd].
    assert (AH : Rabs (1 / (1 + 1)) = / 2) by (rewrite Rabs_right; lra). assert (AM : Rabs (- (1 / (1 + 1))) = / 2) by (rewrite Rabs_left; lra).
    repeat (apply Forall2_cons; [apply K; [reflexivity|cbn [sumabs fold_right]; rewrite ?AH, ?AM, ?Rabs_R0; lra]|]). constructor.
  Qed.
  Lemma agree_refl e l : 0 <= e -> Forall2 (close e) l l.
  Proof using. intro E. apply f2_refl. intro. now apply close_refl. Qed.
  Ltac rows1 L m r := match type of L with _ = S _ => destruct m as [|r m]; [discriminate L|] | _ => idtac end.
  Lemma rows_ok (r s : list R) : length r = 3%nat -> length s = 3%nat -> Forall ok r -> Forall ok s -> length (concat [r; s]) = 6%nat /\ Forall ok (concat [r; s]).
  Proof using. intros A B C D. cbn [concat]. rewrite app_nil_r. split; [rewrite app_length, A, B; reflexivity|now apply Forall_app]. Qed.
  Notation procR := (process 0 1 Rplus Rmult Rminus Ropp Rdiv s3).
  Theorem process_near t restype pos d a : Forall ok d -> procR t restype pos d = Ok a ->
    exists b, process_fl rs rd ra dot t restype pos d = Ok b /\ n_shape b = n_shape a /\ Forall2 (close (tolerance t restype M)) (n_flat a) (n_flat b).
  Proof using RD GS GA DOT M0 ML.
    intros O. pose proof dunit_size as US. pose proof (unit_size M M0) as US1. unfold process, process_fl.
    destruct (Z.eqb_spec t 15) as [->|N15]. { intro E. exists a. split; [exact E|]. split; [reflexivity|]. apply agree_refl. cbn. destruct (String.eqb restype "decomposedstress"); [fold u2; fold low2; change (0 <= 18 * dunit)|]; lra. }
    destruct (Z.eqb_spec t 23) as [->|N23]. { intro E. destruct (beam_near pos d a O E) as (b & E2 & Sh & C). exists b. split; [exact E2|]. split; [exact Sh|]. exact C. }
    destruct (Z.eqb_spec t 24) as [->|N24].
    { unfold process_24, process_24_fl. destruct (shape2 10 3 d) as [m|] eqn:S; [|discriminate]. cbn [rbind]. destruct (shape2_rows 10 3 d m ltac:(discriminate) O S) as (L & F & W).
      destruct m as [|r0 [|r1 [|r2 [|r3 [|r4 [|r5 [|r6 [|r7 [|r8 [|r9 [|? ?]]]]]]]]]]]; try discriminate L. unfold rows_at, idxquad. cbn [rmap nth_error rbind]. change (chunks 2 [r0; r5; r1; r6; r4; r9; r3; r8]) with [[r0; r5]; [r1; r6]; [r4; r9]; [r3; r8]]. cbv zeta.
      unfold tolerance. cbn [Z.eqb orb Pos.eqb]. destruct (String.eqb restype "decomposedstress"); intro OK; apply ok_inj in OK; subst a; eexists; (split; [reflexivity|]).
      2:{ split; [reflexivity|]. apply agree_refl. lra. }
      unfold within in W. repeat match goal with H : Forall _ (_ :: _) |- _ => inversion H; subst; clear H end. assert (H : matclose (13 * dunit) (decompose_thin 0 1 Rplus Rmult Ropp Rdiv 4 [[r0; r5]; [r1; r6]; [r4; r9]; [r3; r8]]) (decompose_thin_fl dot 4 [[r0; r5]; [r1; r6]; [r4; r9]; [r3; r8]])).
      { apply thin_near; [reflexivity|]. repeat (apply Forall_cons; [apply rows_ok; assumption|]). constructor. }
      split; [reflexivity|]. unfold arr2; cbn [n_flat]. apply f2_concat. eapply f2_mono; [|exact H]. intros v v'. apply f2_mono. intros y y'. apply close_le. change (13 * dunit <= 18 * dunit). lra. }
    destruct (Z.eqb_spec t 25) as [->|N25].
    { unfold process_25, process_25_fl. destruct (shape2 8 3 d) as [m|] eqn:S; [|discriminate]. cbn [rbind]. destruct (shape2_rows 8 3 d m ltac:(discriminate) O S) as (L & F & W).
      destruct m as [|r0 [|r1 [|r2 [|r3 [|r4 [|r5 [|r6 [|r7 [|? ?]]]]]]]]]; try discriminate L. unfold rows_at, idxtri. cbn [rmap nth_error rbind]. change (chunks 2 [r0; r4; r1; r5; r3; r7]) with [[r0; r4]; [r1; r5]; [r3; r7]]. cbv zeta.
      unfold tolerance. cbn [Z.eqb orb Pos.eqb]. destruct (String.eqb restype "decomposedstress"); intro OK; apply ok_inj in OK; subst a; eexists; (split; [reflexivity|]).
      2:{ split; [reflexivity|]. apply agree_refl. lra. }
      unfold within in W. repeat match goal with H : Forall _ (_ :: _) |- _ => inversion H; subst; clear H end. assert (H : matclose (13 * dunit) (decompose_thin 0 1 Rplus Rmult Ropp Rdiv 3 [[r0; r4]; [r1; r5]; [r3; r7]]) (decompose_thin_fl dot 3 [[r0; r4]; [r1; r5]; [r3; r7]])).
      { apply thin_near; [reflexivity|]. repeat (apply Forall_cons; [apply rows_ok; assumption|]). constructor. }
      split; [reflexivity|]. unfold arr2; cbn [n_flat]. apply f2_concat. eapply f2_mono; [|exact H]. intros v v'. apply f2_mono. intros y y'. apply close_le. change (13 * dunit <= 18 * dunit). lra. }
    destruct (Z.eqb_spec t 26) as [->|N26].
    { intro E. destruct (shape3 2 3 5 d) as [r|e] eqn:S; [|unfold process_thick in E; rewrite S in E; discriminate E]. destruct (shape3_rows 3 d r O ltac:(discriminate) S) as (l & u & -> & Pl & Pu).
      apply (thick_near rs rd ra dot RD GS GA DOT M M0 ML 3 (xtri 1 Rplus Ropp Rdiv) _ restype pos l u a ltac:(now left)); try assumption; [|exact xtri_rows]. eapply f2_mono; [|exact (xtri_near rd RD)]. intros v v'. apply f2_mono. intros y y'. apply close_le. lra. }
    destruct (Z.eqb_spec t 28) as [->|N28]; [|discriminate].
    intro E. destruct (shape3 2 4 5 d) as [r|e] eqn:S; [|unfold process_thick in E; rewrite S in E; discriminate E]. destruct (shape3_rows 4 d r O ltac:(discriminate) S) as (l & u & -> & Pl & Pu).
    apply (thick_near rs rd ra dot RD GS GA DOT M M0 ML 4 (xquad 1 Rplus Rmult Rminus Rdiv s3) _ restype pos l u a ltac:(now right)); try assumption; [exact (xquad_near rd RD)|exact xquad_rows].
  Qed.
End Process.
