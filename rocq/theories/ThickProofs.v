(** * ThickProofs: principal stresses of thick shells from eigenvalues with errors. *)
From Coq Require Import Reals Lra List Permutation.
From Verif Require Import Base Nd Calc CalcSpec ThickSpec.
Import ListNotations.
Open Scope list_scope.
Open Scope R_scope.

Lemma perm3 (a b c : R) l : Permutation [a; b; c] l -> l = [a; b; c] \/ l = [a; c; b] \/ l = [b; a; c] \/ l = [b; c; a] \/ l = [c; a; b] \/ l = [c; b; a].
Proof.
  intro P. pose proof (Permutation_length P) as L. destruct l as [|x [|y [|z [|]]]]; try discriminate L.
  assert (I : In x [a; b; c]) by (apply (Permutation_in _ (Permutation_sym P)); now left). destruct I as [<-|[<-|[<-|[]]]].
  - apply Permutation_cons_inv in P. apply Permutation_length_2_inv in P. destruct P as [E|E]; injection E as -> ->; tauto.
  - apply (Permutation_trans (perm_swap a b [c])) in P. apply Permutation_cons_inv in P. apply Permutation_length_2_inv in P. destruct P as [E|E]; injection E as -> ->; tauto.
  - assert (Q : Permutation [c; a; b] [a; b; c]) by (apply (Permutation_cons_app [a; b] [] c); reflexivity).
    apply (Permutation_trans Q) in P. apply Permutation_cons_inv in P. apply Permutation_length_2_inv in P. destruct P as [E|E]; injection E as -> ->; tauto.
Qed.
Lemma lt_true x y : x < y -> Rltb x y = true. Proof. intro. unfold Rltb. destruct (Rlt_dec x y); [reflexivity|lra]. Qed.
Lemma lt_false x y : ~ x < y -> Rltb x y = false. Proof. intro. unfold Rltb. destruct (Rlt_dec x y); [lra|reflexivity]. Qed.
(** The two that remain. *)
Lemma pick_two x y : exists q1 q2, (dor p1 <- amax Rltb [x; y]; dor p2 <- amin Rltb [x; y]; Ok [p1; p2]) = Ok [q1; q2] /\ q1 = Rmax x y /\ q2 = Rmin x y.
Proof.
  cbn [amax amin fold_left rbind]. do 2 eexists. split; [reflexivity|]. unfold Rltb, Rmax, Rmin. split; repeat destruct (Rlt_dec _ _); repeat destruct (Rle_dec _ _); lra.
Qed.
Lemma thick_clear q x y l : Permutation [x; y; q] l -> Rabs q < Rabs x -> Rabs q < Rabs y -> thickshell_of l = Ok [Rmax x y; Rmin x y].
Proof.
  intros P X Y. unfold thickshell_of.
  assert (D : exists u v, drop_at (argminR (map Rabs l)) l = [u; v] /\ ((u = x /\ v = y) \/ (u = y /\ v = x))).
  { apply perm3 in P. destruct P as [->|[->|[->|[->|[->| ->]]]]]; cbn [map argminR argmin_from]; unfold Rltb; repeat destruct (Rlt_dec _ _); try lra; unfold drop_at; cbn [firstn skipn app]; do 2 eexists; (split; [reflexivity|tauto]). }
  destruct D as (u & v & -> & D). destruct (pick_two u v) as (q1 & q2 & -> & -> & ->). destruct D as [[-> ->]|[-> ->]]; [reflexivity|]. now rewrite Rmax_comm, Rmin_comm.
Qed.
Lemma thick_near eps a b c p1 p2 l : 0 <= eps -> two_clear (2 * eps) a b c p1 p2 -> nearly eps a b c l ->
  exists q1 q2, thickshell_of l = Ok [q1; q2] /\ Rabs (q1 - p1) <= eps /\ Rabs (q2 - p2) <= eps.
Proof.
  intros E (q & P & H1 & H2 & O) (m & M & F).
  assert (M2 : Permutation [p1; p2; q] m) by (eapply Permutation_trans; [apply Permutation_sym; exact P|exact M]).
  assert (K : exists x y z, Permutation [x; y; z] l /\ Rabs (x - p1) <= eps /\ Rabs (y - p2) <= eps /\ Rabs (z - q) <= eps).
  { assert (S3 : exists u v w r s t, m = [u; v; w] /\ l = [r; s; t] /\ Rabs (r - u) <= eps /\ Rabs (s - v) <= eps /\ Rabs (t - w) <= eps).
    { pose proof (Permutation_length M) as L. destruct m as [|u [|v [|w [|]]]]; try discriminate L.
      inversion F as [|? r ? l1 A1 F1]; subst. inversion F1 as [|? s ? l2 A2 F2]; subst. inversion F2 as [|? t ? l3 A3 F3]; subst. inversion F3; subst.
      exists u, v, w, r, s, t. auto. }
    destruct S3 as (u & v & w & r & s & t & -> & -> & A1 & A2 & A3).
    apply perm3 in M2. destruct M2 as [K|[K|[K|[K|[K|K]]]]]; injection K as -> -> ->.
    - exists r, s, t. auto.
    - exists r, t, s. split; [apply perm_skip, perm_swap|auto].
    - exists s, r, t. split; [apply perm_swap|auto].
    - exists t, r, s. split; [apply (Permutation_cons_app [r; s] [] t); reflexivity|auto].
    - exists s, t, r. split; [apply Permutation_sym; apply (Permutation_cons_app [s; t] [] r); reflexivity|auto].
    - exists t, s, r. split; [|auto]. apply Permutation_trans with [s; t; r]; [apply perm_swap|]. apply Permutation_sym. apply (Permutation_cons_app [s; t] [] r). reflexivity. }
  destruct K as (x & y & z & PK & X & Y & Z).
  assert (T1 : Rabs z < Rabs x) by (unfold Rabs in *; repeat destruct (Rcase_abs _); lra).
  assert (T2 : Rabs z < Rabs y) by (unfold Rabs in *; repeat destruct (Rcase_abs _); lra).
  exists (Rmax x y), (Rmin x y). split; [exact (thick_clear z x y l PK T1 T2)|].
  clear - X Y O. unfold Rmax, Rmin, Rabs in *. repeat destruct (Rcase_abs _); destruct (Rle_dec x y); split; lra.
Qed.
