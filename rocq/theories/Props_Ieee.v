(** * Props_Ieee: stresses calculated in single and double precision (C68). *)
From Coq Require Import Reals ZArith Lia Lra List.
From Verif Require Import Base Nd Calc CalcSpec IeeeSpec IeeeFacts IeeeExists CalcFloat CalcFloatProofs.
Import ListNotations.
Open Scope list_scope.
Open Scope R_scope.

Definition a_of (f : format) : Z := if Z.eqb (f_prec f) 24 then (-39)%Z else (-450)%Z.
Definition b_of (f : format) : Z := if Z.eqb (f_prec f) 24 then 60%Z else 500%Z.
Lemma moderate_mod f x : f = single \/ f = double -> moderate f x -> mod_ f (a_of f) (b_of f) x.
Proof. intros [->| ->] [R [H|(a & b & [(E & -> & ->)|(E & -> & ->)] & H)]]; (split; [exact R|]); (now left) || (now right) || discriminate E. Qed.
Lemma micro f : f = single \/ f = double -> unit_of f <= / 1000000.
Proof.
  intro F. apply Rle_trans with (p2 (-20)).
  - unfold unit_of. apply p2_le. destruct F as [-> | ->]; cbn; lia.
  - change (p2 (-20)) with (/ p2 20). rewrite p2_nat by lia. apply Rinv_le_contravar; [lra|]. apply IZR_le. cbv. discriminate.
Qed.
Tactic Notation "ranges" constr(F) := destruct F as [-> | ->]; vm_compute; try reflexivity; intro; discriminate.

(** A point of an array: its three stresses, and other components. *)
Definition stresses (f : format) (p : list R) : Prop :=
  exists sxx syy txy more, p = sxx :: syy :: txy :: more /\ moderate f sxx /\ moderate f syy /\ moderate f txy.

Lemma eigen_sums sxx syy txy p1 p2 : eigenvalues2 sxx syy txy p1 p2 -> p1 + p2 = sxx + syy /\ p1 * p2 = sxx * syy - txy * txy.
Proof. intro H. pose proof (H 0) as H0. pose proof (H 1) as H1. split; lra. Qed.

Theorem C68_vonmises : forall f rnd arr,
  f = single \/ f = double -> rounds f rnd -> Forall (stresses f) arr ->
  exists out, vonmises2d_fl rnd arr = Ok out /\
  Forall2 (fun p v => exists sxx syy txy more, p = sxx :: syy :: txy :: more /\
    forall p1 p2, eigenvalues2 sxx syy txy p1 p2 -> 
    Rabs (v - sqrt (p1 ^ 2 - p1 * p2 + p2 ^ 2)) <= 5 * unit_of f * sqrt (p1 ^ 2 - p1 * p2 + p2 ^ 2)) arr out.
Proof.
  intros f rnd arr F RN. unfold vonmises2d_fl. induction 1 as [|p l (x & y & z & more & -> & MX & MY & MZ) HF (out & E & IH)]; [exists []; split; [reflexivity|constructor]|].
  cbn [rmap]. unfold vonmises2d_fl_at at 1. unfold comp. cbn [nth_error rbind]. rewrite E. cbn [rbind]. eexists. split; [reflexivity|]. constructor; [|exact IH]. exists x, y, z, more. split; [reflexivity|]. intros p1 p2 HE.
  destruct (eigen_sums _ _ _ _ _ HE) as [S P]. replace (p1 ^ 2 - p1 * p2 + p2 ^ 2) with (x * x + y * y - x * y + 3 * (z * z)); [|replace (p1 ^ 2 - p1 * p2 + p2 ^ 2) with ((p1 + p2) * (p1 + p2) - 3 * (p1 * p2)) by ring; rewrite S, P; ring].
  match goal with |- Rabs (?v - ?s) <= _ => enough (K : rel f 5 s v) by (unfold rel in K; rewrite (Rabs_pos_eq s) in K by apply sqrt_pos; exact K) end.
  apply (vonmises_error f rnd (a_of f) (b_of f)); try exact RN; try (now apply micro); try (now apply moderate_mod); ranges F.
Qed.
Print Assumptions C68_vonmises.

Theorem C68_principal : forall f rnd arr,
  f = single \/ f = double -> rounds f rnd -> Forall (stresses f) arr ->
  exists out, principal2d_fl rnd arr = Ok out /\
  Forall2 (fun p q => exists sxx syy txy more q1 q2, p = sxx :: syy :: txy :: more /\ q = [q1; q2] /\ q2 <= q1 /\
    forall p1 p2, eigenvalues2 sxx syy txy p1 p2 -> p2 <= p1 ->
    Rabs (q1 - p1) <= 5 * unit_of f * Rmax (Rabs p1) (Rabs p2) /\ Rabs (q2 - p2) <= 5 * unit_of f * Rmax (Rabs p1) (Rabs p2)) arr out.
Proof.
  intros f rnd arr F RN. unfold principal2d_fl. induction 1 as [|p l (x & y & z & more & -> & MX & MY & MZ) HF (out & E & IH)]; [exists []; split; [reflexivity|constructor]|].
  cbn [rmap]. unfold principal2d_fl_at at 1. unfold comp. cbn [nth_error rbind]. rewrite E. cbn [rbind]. eexists. split; [reflexivity|]. constructor; [|exact IH]. do 6 eexists. split; [reflexivity|]. split; [reflexivity|].
  assert (K : let q1 := (x + y) / 2 in let q2 := / 2 * sqrt ((x - y) * (x - y) + 4 * (z * z)) in
    let r1 := fdiv rnd (fadd rnd x y) 2 in let r2 := fmul rnd (/ 2) (fsqrt rnd (fadd rnd (fsq rnd (fsub rnd x y)) (fmul rnd 4 (fsq rnd z)))) in
    Rabs (fadd rnd r1 r2 - (q1 + q2)) <= 5 * unit_of f * (Rabs q1 + q2) /\ Rabs (fsub rnd r1 r2 - (q1 - q2)) <= 5 * unit_of f * (Rabs q1 + q2) /\ fsub rnd r1 r2 <= fadd rnd r1 r2).
  { apply (principal_error f rnd (a_of f) (b_of f)); try exact RN; try (now apply micro); try (now apply moderate_mod); ranges F. }
  cbv zeta in K. destruct K as (K1 & K2 & K3). split; [exact K3|]. intros p1 p2 HE LE. destruct (eigen_sums _ _ _ _ _ HE) as [S P].
  assert (ED : sqrt ((x - y) * (x - y) + 4 * (z * z)) = p1 - p2).
  { replace ((x - y) * (x - y) + 4 * (z * z)) with ((p1 - p2) * (p1 - p2)); [apply sqrt_square; lra|]. replace ((p1 - p2) * (p1 - p2)) with ((p1 + p2) * (p1 + p2) - 4 * (p1 * p2)) by ring. rewrite S, P. ring. }
  rewrite ED in K1, K2. replace ((x + y) / 2 + / 2 * (p1 - p2)) with p1 in K1 by lra. replace ((x + y) / 2 - / 2 * (p1 - p2)) with p2 in K2 by lra.
  assert (EM : Rabs ((x + y) / 2) + / 2 * (p1 - p2) = Rmax (Rabs p1) (Rabs p2)). { rewrite <- S. unfold Rmax. destruct (Rle_dec _ _) as [M|M]; unfold Rabs in *; repeat destruct (Rcase_abs _) in *; lra. }
  rewrite EM in K1, K2. now split.
Qed.
Print Assumptions C68_principal.

(** There are such roundings. *)
Theorem C68_rounding : rounds single (ieee single) /\ rounds double (ieee double).
Proof. split; apply ieee_rounds; vm_compute; reflexivity. Qed.
Print Assumptions C68_rounding.
(** A point with integer stresses in double precision: no operation is inexact. *)
Lemma integer_rep n : (Z.abs n < 2 ^ 53)%Z -> representable double (IZR n).
Proof. intro H. exists n, 0%Z. split; [exact H|]. split; [cbn; lia|]. cbn. ring. Qed.
Lemma integer_rnd rnd n : rounds double rnd -> (Z.abs n < 2 ^ 53)%Z -> rnd (IZR n) = IZR n.
Proof.
  intros RN H. apply (rnd_exact double rnd RN); [|now apply integer_rep]. rewrite <- abs_IZR. apply Rlt_le_trans with (p2 53); [rewrite p2_nat by lia; now apply IZR_lt|]. apply p2_le. cbn. lia.
Qed.
Lemma integer_moderate n : (0 < Z.abs n < 2 ^ 53)%Z -> moderate double (IZR n).
Proof.
  intro H. split; [now apply integer_rep|]. right. exists (-450)%Z, 500%Z. split; [now right|]. rewrite <- abs_IZR. split.
  - apply Rle_trans with (p2 0); [apply p2_le; lia|]. cbn. apply IZR_le. lia.
  - apply Rle_trans with (p2 53); [rewrite p2_nat by lia; apply IZR_le; lia|]. apply p2_le. lia.
Qed.
Example C68_case : forall rnd, rounds double rnd ->
  Forall (stresses double) [[1; 1; 4; 9]] /\ eigenvalues2 1 1 4 5 (-3) /\ principal2d_fl rnd [[1; 1; 4; 9]] = Ok [[5; -3]] /\ vonmises2d_fl rnd [[1; 1; 4; 9]] = Ok [7].
Proof.
  intros rnd RN. pose proof (fun n => integer_rnd rnd n RN) as I. split; [|split; [|split]].
  - constructor; [|constructor]. exists 1, 1, 4, [9]. split; [reflexivity|]. repeat split; apply integer_moderate; vm_compute; split; reflexivity.
  - intro x. ring.
  - unfold principal2d_fl, principal2d_fl_at, comp, fadd, fsub, fsqrt, fsq, fdiv, fmul. cbn [rmap nth_error rbind].
    replace (1 + 1) with (IZR 2) by (cbn; lra). replace (1 - 1) with (IZR 0) by lra. replace (4 * 4) with (IZR 16) by lra. rewrite !I by (vm_compute; reflexivity). replace (0 * 0) with (IZR 0) by lra. replace (4 * 16) with (IZR 64) by lra. replace (2 / 2) with (IZR 1) by lra. rewrite !I by (vm_compute; reflexivity).
    replace (0 + 64) with (IZR 64) by lra. rewrite !I by (vm_compute; reflexivity). replace (sqrt 64) with (IZR 8) by (symmetry; apply sqrt_lem_1; lra). rewrite !I by (vm_compute; reflexivity). replace (/ 2 * 8) with (IZR 4) by lra. rewrite !I by (vm_compute; reflexivity).
    replace (1 + 4) with (IZR 5) by lra. replace (1 - 4) with (IZR (-3)) by lra. rewrite !I by (vm_compute; reflexivity). reflexivity.
  - unfold vonmises2d_fl, vonmises2d_fl_at, comp, fadd, fsub, fsqrt, fsq, fmul. cbn [rmap nth_error rbind].
    replace (1 * 1) with (IZR 1) by lra. replace (4 * 4) with (IZR 16) by lra. rewrite !I by (vm_compute; reflexivity). replace (1 + 1) with (IZR 2) by (cbn; lra). replace (3 * 16) with (IZR 48) by lra. rewrite !I by (vm_compute; reflexivity). replace (2 - 1) with (IZR 1) by lra. rewrite !I by (vm_compute; reflexivity).
    replace (1 + 48) with (IZR 49) by lra. rewrite !I by (vm_compute; reflexivity). replace (sqrt 49) with (IZR 7) by (symmetry; apply sqrt_lem_1; lra). rewrite !I by (vm_compute; reflexivity). reflexivity.
Qed.
