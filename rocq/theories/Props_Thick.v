(** * Principal stresses of thick shells and errors of the eigenvalues: C77

    Over the reals.  The assumptions listed are the axioms of the real numbers of
    the standard library. *)
From Coq Require Import Reals Lra List Permutation.
From Verif Require Import Base Nd Calc CalcSpec CalcProofs ThickSpec ThickProofs.
Import ListNotations.
Open Scope list_scope.
Open Scope R_scope.

(** C77.  Where the smallest eigenvalue is smaller than the other two by more than
    twice the error, the stresses have no larger error than the eigenvalues, in
    whatever order they come. *)
Theorem C77_clear : forall eig eps arr, 0 <= eps ->
  Forall (fun p => exists sxx syy txy txz tyz more a b c p1 p2, p = sxx :: syy :: txy :: txz :: tyz :: more /\
    eigenvalues3 sxx syy 0 txy txz tyz a b c /\ two_clear (2 * eps) a b c p1 p2 /\
    nearly eps a b c (eig [[sxx; txy; txz]; [txy; syy; tyz]; [txz; tyz; 0]])) arr ->
  exists out, principal_thickshell eig arr = Ok out /\
  Forall2 (fun p q => exists a b c p1 p2 q1 q2, point_eigen p a b c /\ two_clear (2 * eps) a b c p1 p2 /\
    q = [q1; q2] /\ Rabs (q1 - p1) <= eps /\ Rabs (q2 - p2) <= eps) arr out.
Proof.
  intros eig eps arr E. unfold principal_thickshell. induction 1 as [|p l (sxx & syy & txy & txz & tyz & more & a & b & c & p1 & p2 & -> & HE & HC & HN) HF (out & EO & IH)]; [exists []; split; [reflexivity|constructor]|].
  destruct (thick_near eps a b c p1 p2 _ E HC HN) as (q1 & q2 & E2 & Q1 & Q2). exists ([q1; q2] :: out). cbn [rmap]. unfold tensor at 1. unfold comp. cbn [nth_error rbind]. rewrite E2. cbn [rbind]. rewrite EO. split; [reflexivity|].
  constructor; [|exact IH]. exists a, b, c, p1, p2, q1, q2. split; [exists sxx, syy, txy, txz, tyz, more; auto|auto].
Qed.
Print Assumptions C77_clear.
(** Eigenvalues 3, 0, -3 with errors up to 1/2, in another order. *)
Example C77_clear_case : exists eig, eigenvalues3 1 (-1) 0 0 2 2 3 0 (-3) /\ two_clear (2 * (1 / 2)) 3 0 (-3) 3 (-3) /\
  nearly (1 / 2) 3 0 (-3) (eig [[1; 0; 2]; [0; -1; 2]; [2; 2; 0]]) /\ principal_thickshell eig [[1; -1; 0; 2; 2]] = Ok [[13 / 4; - (11 / 4)]].
Proof.
  exists (fun _ => [1 / 4; - (11 / 4); 13 / 4]). split; [intro x; unfold det3; ring|].
  assert (A : two_clear (2 * (1 / 2)) 3 0 (-3) 3 (-3)) by (exists 0; split; [apply perm_skip, perm_swap|]; rewrite Rabs_R0, (Rabs_right 3), (Rabs_left (-3)) by lra; lra).
  split; [exact A|]. split.
  - exists [0; -3; 3]. split; [apply (Permutation_cons_app [0; -3] [] 3), Permutation_refl|].
    constructor; [rewrite Rabs_right; lra|]. constructor; [rewrite Rabs_right; lra|]. constructor; [rewrite Rabs_right; lra|constructor].
  - unfold principal_thickshell, tensor, comp. cbn [rmap nth_error rbind].
    rewrite (thick_clear (1 / 4) (13 / 4) (- (11 / 4))); [cbn [rbind]; rewrite Rmax_left, Rmin_right by lra; reflexivity| | |].
    + apply Permutation_sym. apply Permutation_trans with [- (11 / 4); 13 / 4; 1 / 4]; [apply (Permutation_cons_app [- (11 / 4); 13 / 4] [] (1 / 4)), Permutation_refl|apply perm_swap].
    + rewrite !Rabs_right by lra. lra.
    + rewrite Rabs_right, Rabs_left by lra. lra.
Qed.

(** The order of the eigenvalues matters, without any error, where the two of
    smallest absolute value differ in sign only.  So does the least error. *)
Theorem C77_order_refuted : exists p a b c e1 e2,
  point_eigen p a b c /\ Permutation [a; b; c] e1 /\ Permutation [a; b; c] e2 /\
  principal_thickshell (fun _ => e1) [p] = Ok [[5; 1]] /\ principal_thickshell (fun _ => e2) [p] = Ok [[5; -1]].
Proof.
  exists [5; 0; 0; 0; 1], 5, 1, (-1), [5; -1; 1], [5; 1; -1].
  split; [exists 5, 0, 0, 0, 1, []; split; [reflexivity|intro x; unfold det3; ring]|]. split; [apply perm_skip, perm_swap|]. split; [apply Permutation_refl|].
  unfold principal_thickshell, tensor, comp, thickshell_of, argminR. cbn [rmap nth_error rbind map argmin_from].
  rewrite !(Rabs_left (-1)), !(Rabs_right 1), !(Rabs_right 5) by lra. unfold Rltb. repeat (destruct (Rlt_dec _ _); try lra). cbn [drop_at firstn skipn app amax amin fold_left rbind]. repeat (destruct (Rlt_dec _ _); try lra). split; reflexivity.
Qed.
Print Assumptions C77_order_refuted.
(** However small the error, it can move P2 from one of these to the other. *)
Theorem C77_error_refuted : exists p a b c, point_eigen p a b c /\ forall eps, 0 < eps -> eps < 1 -> exists e1 e2 q1 q2 r1 r2,
  nearly eps a b c e1 /\ nearly eps a b c e2 /\ principal_thickshell (fun _ => e1) [p] = Ok [[q1; q2]] /\ principal_thickshell (fun _ => e2) [p] = Ok [[r1; r2]] /\ 2 <= Rabs (q2 - r2).
Proof.
  exists [5; 0; 0; 0; 1], 5, 1, (-1). split; [exists 5, 0, 0, 0, 1, []; split; [reflexivity|intro x; unfold det3; ring]|]. intros eps L U.
  assert (N : forall x y z, Rabs (x - 5) <= eps -> Rabs (y - 1) <= eps -> Rabs (z - -1) <= eps -> nearly eps 5 1 (-1) [x; y; z]) by (intros; exists [5; 1; -1]; split; [apply Permutation_refl|repeat (constructor; [assumption|]); constructor]).
  assert (Z : forall x, Rabs (x - x) <= eps) by (intro x; replace (x - x) with 0 by ring; rewrite Rabs_R0; lra).
  assert (S1 : Rabs (1 + eps - 1) <= eps) by (rewrite Rabs_right; lra). assert (S2 : Rabs (-1 - eps - -1) <= eps) by (rewrite Rabs_left; lra).
  exists [5; 1 + eps; -1], [5; 1; -1 - eps], 5, (1 + eps), 5, (-1 - eps). split; [apply N; auto|]. split; [apply N; auto|].
  unfold principal_thickshell, tensor, comp. cbn [rmap nth_error rbind].
  rewrite (thick_clear (-1) 5 (1 + eps)); [| |rewrite Rabs_left, Rabs_right by lra; lra|rewrite Rabs_left, Rabs_right by lra; lra]; [|apply Permutation_refl].
  rewrite (thick_clear 1 5 (-1 - eps)); [| |rewrite !Rabs_right by lra; lra|rewrite Rabs_right, Rabs_left by lra; lra]; [|apply perm_skip, perm_swap].
  cbn [rbind]. rewrite !Rmax_left, !Rmin_right by lra. split; [reflexivity|]. split; [reflexivity|]. rewrite Rabs_right; lra.
Qed.
Print Assumptions C77_error_refuted.
(** The comment at the removal calls the value removed the middle one; it is so only
    where the middle one is the smallest in absolute value.  Here the smallest of
    the three stresses, the compression, is removed. *)
Theorem C77_middle_refuted : exists p a b c, point_eigen p a b c /\ c < b < a /\
  forall e, Permutation [a; b; c] e -> principal_thickshell (fun _ => e) [p] = Ok [[a; b]].
Proof.
  exists [3; 3; 0; 2; 0], 4, 3, (-1). split; [exists 3, 3, 0, 2, 0, []; split; [reflexivity|intro x; unfold det3; ring]|]. split; [lra|]. intros e P.
  unfold principal_thickshell, tensor, comp. cbn [rmap nth_error rbind].
  rewrite (thick_clear (-1) 4 3 e P); [|rewrite Rabs_left, Rabs_right by lra; lra|rewrite Rabs_left, Rabs_right by lra; lra].
  cbn [rbind]. rewrite Rmax_left, Rmin_right by lra. reflexivity.
Qed.
Print Assumptions C77_middle_refuted.
(** Where it is, the stresses are the largest and the smallest of the three. *)
Theorem C77_extremes : forall sxx syy txy txz tyz more a b c e,
  eigenvalues3 sxx syy 0 txy txz tyz a b c -> c <= b <= a -> Rabs b < Rabs a -> Rabs b < Rabs c -> Permutation [a; b; c] e ->
  principal_thickshell (fun _ => e) [sxx :: syy :: txy :: txz :: tyz :: more] = Ok [[a; c]].
Proof.
  intros sxx syy txy txz tyz more a b c e HE O A C P. unfold principal_thickshell, tensor, comp. cbn [rmap nth_error rbind].
  rewrite (thick_clear b a c e); [|eapply Permutation_trans; [apply perm_skip, perm_swap|exact P]|exact A|exact C].
  cbn [rbind]. rewrite Rmax_left, Rmin_right by lra. reflexivity.
Qed.
Print Assumptions C77_extremes.
Example C77_extremes_case : eigenvalues3 1 (-1) 0 0 2 2 3 0 (-3) /\ -3 <= 0 <= 3 /\ Rabs 0 < Rabs 3 /\ Rabs 0 < Rabs (-3).
Proof. split; [intro x; unfold det3; ring|]. rewrite Rabs_R0, (Rabs_right 3), (Rabs_left (-3)) by lra. lra. Qed.
