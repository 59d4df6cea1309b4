(** * Properties of the calculations: C46-C48

    Over the reals; rounding is not modelled.  The assumptions listed are the
    axioms of the real numbers of the standard library. *)
From Coq Require Import Reals Lra Permutation.
From Verif Require Import Base Flt H5 Nd NdProofs Calc CalcSpec CalcProofs CalcEigen.
Open Scope list_scope.
Open Scope R_scope.

(** C46.  An axis is counted from the first (from 0) or from behind (from -1). *)
Theorem C46_along_axis : forall (a : nd R) (z : Z) (k : nat),
  wf a -> (k < length (n_shape a))%nat -> (z = Z.of_nat k \/ z = Z.of_nat k - Z.of_nat (length (n_shape a)))%Z -> (0 < nth k (n_shape a) 0)%nat ->
  exists r, absmax Rltb Ropp a (Some z) = Ok r /\ n_shape r = firstn k (n_shape a) ++ skipn (S k) (n_shape a) /\ wf r /\
    forall idx, inside (n_shape r) idx = true -> exists v, at_ r idx = Some v /\ on_line a k idx v /\ forall y, on_line a k idx y -> Rabs y <= Rabs v.
Proof. intros a z k Hw Hk Hz. exact (absmax_axis a z k Hw (conj Hk Hz)). Qed.
Print Assumptions C46_along_axis.
Theorem C46_over_all : forall a : nd R, n_flat a <> [] -> exists v, absmax Rltb Ropp a None = Ok (mkNd [] [v]) /\ In v (n_flat a) /\ forall y, In y (n_flat a) -> Rabs y <= Rabs v.
Proof. exact absmax_all. Qed.
Print Assumptions C46_over_all.
Ltac decide_R := cbv [Rltb]; repeat (destruct (Rlt_dec _ _); try lra).
(** The largest of column 1 and of column 2; of everything. *)
Definition e46 : nd R := mkNd [2; 2]%nat [3; -7; -5; 2].
Example C46_case : absmax Rltb Ropp e46 (Some 0%Z) = Ok (mkNd [2%nat] [-5; -7]) /\ absmax Rltb Ropp e46 (Some (-1)%Z) = Ok (mkNd [2%nat] [-7; -5]) /\
  absmax Rltb Ropp e46 None = Ok (mkNd [] [-7]) /\ wf e46.
Proof. repeat split; try (cbv -[Rlt_dec Ropp IZR]; decide_R; reflexivity). Qed.
(** Integers, whose smallest has no opposite of their size: the rule fails for
    arrays of them.  Bytes here. *)
Definition neg8 (z : Z) : Z := ((- z + 128) mod 256 - 128)%Z.
Theorem C46_integers_refuted : exists a : nd Z, Forall (fun z => -128 <= z < 128)%Z (n_flat a) /\ absmax Z.ltb neg8 a None = Ok (mkNd [] [1%Z]) /\ In (-128)%Z (n_flat a).
Proof. exists (mkNd [2%nat] [(-128)%Z; 1%Z]). split; [repeat constructor; lia|]. split; [reflexivity|now left]. Qed.
Print Assumptions C46_integers_refuted.

(** C47, at every point of an array. *)
Theorem C47_principal : forall arr, Forall (fun p => 3 <= length p)%nat arr -> exists out, principal2d arr = Ok out /\
  Forall2 (fun p q => exists sxx syy txy more p1 p2, p = sxx :: syy :: txy :: more /\ q = [p1; p2] /\ eigenvalues2 sxx syy txy p1 p2 /\ p2 <= p1) arr out.
Proof.
  unfold principal2d. induction 1 as [|p l Hp HF (out & E & IH)]; [exists []; split; [reflexivity|constructor]|].
  destruct p as [|sxx [|syy [|txy more]]]; cbn [length] in Hp; try lia. destruct (principal_plane sxx syy txy more) as (p1 & p2 & E1 & HE & HO).
  exists ([p1; p2] :: out). cbn [rmap]. rewrite E1. cbn [rbind]. rewrite E. split; [reflexivity|]. constructor; [|exact IH]. exists sxx, syy, txy, more, p1, p2. auto.
Qed.
Print Assumptions C47_principal.
Theorem C47_von_mises : forall arr, Forall (fun p => 3 <= length p)%nat arr -> exists out, vonmises2d arr = Ok out /\
  Forall2 (fun p v => exists sxx syy txy more, p = sxx :: syy :: txy :: more /\ 0 <= v /\ (v = 0 <-> sxx = 0 /\ syy = 0 /\ txy = 0) /\
    forall p1 p2, eigenvalues2 sxx syy txy p1 p2 -> v ^ 2 = p1 ^ 2 - p1 * p2 + p2 ^ 2) arr out.
Proof.
  unfold vonmises2d. induction 1 as [|p l Hp HF (out & E & IH)]; [exists []; split; [reflexivity|constructor]|].
  destruct p as [|sxx [|syy [|txy more]]]; cbn [length] in Hp; try lia. destruct (principal_plane sxx syy txy more) as (p1 & p2 & E1 & HE & HO).
  destruct (mises_plane sxx syy txy more p1 p2 HE) as (v & E2 & M1 & M2 & M3). exists (v :: out). cbn [rmap]. rewrite E2. cbn [rbind]. rewrite E. split; [reflexivity|]. constructor; [|exact IH].
  exists sxx, syy, txy, more. split; [reflexivity|]. split; [exact M2|]. split; [exact M3|]. intros q1 q2 Hq. destruct (mises_plane sxx syy txy more q1 q2 Hq) as (v' & E3 & N1 & _). congruence.
Qed.
Print Assumptions C47_von_mises.
Example C47_case : principal2d [[1; 1; 4; 9]] = Ok [[5; -3]] /\ vonmises2d [[1; 1; 4; 9]] = Ok [7] /\ eigenvalues2 1 1 4 5 (-3).
Proof.
  split; [|split].
  - unfold principal2d, principal2d_at, comp. cbn [rmap nth_error rbind]. replace (sqrt ((1 - 1) ^ 2 + 4 * 4 ^ 2)) with 8; [do 2 f_equal; f_equal; [lra|f_equal; lra]|].
    symmetry. apply sqrt_lem_1; lra.
  - unfold vonmises2d, vonmises2d_at, comp. cbn [rmap nth_error rbind]. do 2 f_equal. apply sqrt_lem_1; lra.
  - intro x. ring.
Qed.

(** C48.  [eig] gives the eigenvalues of the tensors in some order. *)
Theorem C48_thickshell : forall eig arr,
  Forall (fun p => exists sxx syy txy txz tyz more a b c, p = sxx :: syy :: txy :: txz :: tyz :: more /\
    eig [[sxx; txy; txz]; [txy; syy; tyz]; [txz; tyz; 0]] = [a; b; c] /\ eigenvalues3 sxx syy 0 txy txz tyz a b c) arr ->
  exists out, principal_thickshell eig arr = Ok out /\
  Forall2 (fun p q => exists sxx syy txy txz tyz more a b c p1 p2, p = sxx :: syy :: txy :: txz :: tyz :: more /\ q = [p1; p2] /\
    eigenvalues3 sxx syy 0 txy txz tyz a b c /\ two_largest [a; b; c] p1 p2 /\
    (txz = 0 -> tyz = 0 -> eigenvalues2 sxx syy txy p1 p2 /\ principal2d [p] = Ok [q])) arr out.
Proof.
  intros eig arr. unfold principal_thickshell. induction 1 as [|p l (sxx & syy & txy & txz & tyz & more & a & b & c & -> & E1 & HE) HF (out & E & IH)]; [exists []; split; [reflexivity|constructor]|].
  destruct (thickshell_two a b c) as (p1 & p2 & E2 & HT). exists ([p1; p2] :: out). cbn [rmap]. unfold tensor at 1. unfold comp. cbn [nth_error rbind]. rewrite E1, E2. cbn [rbind]. rewrite E. split; [reflexivity|].
  constructor; [|exact IH]. exists sxx, syy, txy, txz, tyz, more, a, b, c, p1, p2. split; [reflexivity|]. split; [reflexivity|]. split; [exact HE|]. split; [exact HT|]. intros -> ->.
  destruct (principal_plane sxx syy txy (0 :: 0 :: more)) as (q1 & q2 & Q1 & Q2 & Q3). pose proof (thickshell_plane sxx syy txy a b c (0 :: 0 :: more) HE) as K. rewrite E2, Q1 in K. injection K as <- <-.
  split; [exact Q2|]. unfold principal2d. cbn [rmap]. rewrite Q1. reflexivity.
Qed.
Print Assumptions C48_thickshell.
(** There are always three real eigenvalues. *)
Theorem C48_eigenvalues : forall sxx syy szz txy txz tyz, exists a b c, eigenvalues3 sxx syy szz txy txz tyz a b c.
Proof. exact eigenvalues3_exist. Qed.
Print Assumptions C48_eigenvalues.
(** One tensor with transverse shears; its eigenvalues 0, 3, -3 in an order of
    which none is that of size.  One without. *)
Example C48_case : exists eig, eig [[1; 0; 2]; [0; -1; 2]; [2; 2; 0]] = [3; 0; -3] /\ eigenvalues3 1 (-1) 0 0 2 2 3 0 (-3) /\
  eig [[1; 4; 0]; [4; 1; 0]; [0; 0; 0]] = [-3; 0; 5] /\ eigenvalues3 1 1 0 4 0 0 (-3) 0 5 /\
  principal_thickshell eig [[1; -1; 0; 2; 2]; [1; 1; 4; 0; 0]] = Ok [[3; -3]; [5; -3]].
Proof.
  exists (fun s => match s with [[a; b; c]; _; _] => if Rlt_dec 3 b then [-3; 0; 5] else [3; 0; -3] | _ => [] end).
  destruct (Rlt_dec 3 0); [lra|]. destruct (Rlt_dec 3 4); [|lra]. split; [reflexivity|]. split; [intro x; unfold det3; ring|]. split; [reflexivity|]. split; [intro x; unfold det3; ring|].
  unfold principal_thickshell, tensor, comp. cbn [rmap nth_error rbind]. destruct (Rlt_dec 3 0); [lra|]. destruct (Rlt_dec 3 4); [|lra].
  unfold thickshell_of, argminR. cbn [map argmin_from]. rewrite !(Rabs_left (-3)), !Rabs_R0, !(Rabs_right 3), !(Rabs_right 5) by lra. decide_R. cbn [drop_at firstn skipn app amax amin fold_left rbind]. decide_R. reflexivity.
Qed.
