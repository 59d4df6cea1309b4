(** * HierNum: rounding errors of products of matrices. *)
From Verif Require Import Base ListFacts Flt H5 Data Struc Trans TransSpec CoordsProofs IeeeSpec IeeeFacts DotSpec DotProofs ElemFloat ElemFloatNum CoordsFloat Props_CoordsFloat.
From Coq Require Import Reals Lra Lia.
Open Scope R_scope.
Open Scope list_scope.

Definition el (m : list (list R)) (i j : nat) : R := nth j (nth i m []) 0.
Definition mabs (m : list (list R)) : list (list R) := map (map Rabs) m.
Definition sum4 (f : nat -> R) : R := f 0%nat + f 1%nat + f 2%nat + f 3%nat.
Notation rdot := (Trans.dot 0 Rplus Rmult).
Notation rdots := (Trans.dots 0 Rplus Rmult).
Notation rcol := (Trans.column 0).

Lemma four_row (m : list (list R)) i : four m -> (i < 4)%nat -> length (nth i m []) = 4%nat.
Proof. intros [L F] I. rewrite Forall_forall in F. apply F, nth_In. lia. Qed.
Lemma four_mabs m : four m -> four (mabs m).
Proof. intros [L F]. split; [unfold mabs; now rewrite map_length|]. unfold mabs. rewrite Forall_map. eapply Forall_impl; [|exact F]. cbn beta. intros r H. now rewrite map_length. Qed.
Lemma el_mabs m i j : four m -> (i < 4)%nat -> (j < 4)%nat -> el (mabs m) i j = Rabs (el m i j).
Proof.
  intros F I J. unfold el, mabs. rewrite (nth_indep _ [] (map Rabs [])) by (rewrite map_length; destruct F; lia). rewrite map_nth.
  rewrite (nth_indep _ 0 (Rabs 0)) by (rewrite map_length, (four_row m i F I); lia). now rewrite map_nth.
Qed.
Lemma el_col m j k : four m -> (k < 4)%nat -> nth k (rcol m j) 0 = el m k j.
Proof. intros [L _] K. unfold Trans.column, el. rewrite (nth_indep _ 0 (nth j [] 0)) by (rewrite map_length; lia). now rewrite (map_nth (fun r => nth j r 0)). Qed.
Lemma dots4 v w : length v = 4%nat -> length w = 4%nat -> rdots v w = sum4 (fun k => nth k v 0 * nth k w 0).
Proof.
  intros V W. destruct v as [|a [|b [|c [|d [|]]]]]; try discriminate V. destruct w as [|p [|q [|r [|s [|]]]]]; try discriminate W. unfold sum4. cbn [Trans.dots nth]. ring.
Qed.
Lemma total4 v w : length v = 4%nat -> length w = 4%nat -> total (combine v w) = sum4 (fun k => nth k v 0 * nth k w 0).
Proof.
  intros V W. destruct v as [|a [|b [|c [|d [|]]]]]; try discriminate V. destruct w as [|p [|q [|r [|s [|]]]]]; try discriminate W. unfold sum4, total. cbn [combine fold_right fst snd nth]. ring.
Qed.
Lemma sizes4 v w : length v = 4%nat -> length w = 4%nat -> sizes (combine v w) = sum4 (fun k => Rabs (nth k v 0) * Rabs (nth k w 0)).
Proof.
  intros V W. destruct v as [|a [|b [|c [|d [|]]]]]; try discriminate V. destruct w as [|p [|q [|r [|s [|]]]]]; try discriminate W. unfold sum4, sizes. cbn [combine fold_right fst snd nth]. rewrite !Rabs_mult. ring.
Qed.
Lemma el_dot a m i j : four a -> four m -> (i < 4)%nat -> (j < 4)%nat -> el (rdot a m) i j = sum4 (fun k => el a i k * el m k j).
Proof.
  intros A M I J. unfold el at 1, Trans.dot. rewrite (nth_indep _ [] (Trans.rowdot 0 Rplus Rmult [] m)) by (rewrite map_length; destruct A; lia). rewrite (map_nth (fun r => Trans.rowdot 0 Rplus Rmult r m)).
  unfold Trans.rowdot. replace (nth j (map _ _) 0) with (rdots (nth i a []) (rcol m j)) by (destruct j as [|[|[|[|j]]]]; [reflexivity..|lia]).
  rewrite dots4; [|now apply four_row|now apply column_length]. unfold sum4. rewrite !el_col by (assumption || lia). reflexivity.
Qed.
Lemma four_dot a m : four a -> four (rdot a m).
Proof. intros [L F]. split; [unfold Trans.dot; now rewrite map_length|]. unfold Trans.dot. rewrite Forall_map. apply Forall_forall. intros r _. reflexivity. Qed.
Lemma mapi_nth {A B} (f : nat -> A -> B) l d e : forall i, (i < length l)%nat -> nth i (mapi f l) e = f i (nth i l d).
Proof.
  intros i I. unfold mapi. rewrite (nth_indep _ e (f (fst (0%nat, d)) (snd (0%nat, d)))) by (rewrite map_length, combine_length, seq_length; lia).
  rewrite (map_nth (fun p => f (fst p) (snd p))). rewrite combine_nth by apply seq_length. cbn [fst snd]. now rewrite seq_nth by exact I.
Qed.
Lemma mapi_len {A B} (f : nat -> A -> B) l : length (mapi f l) = length l.
Proof. unfold mapi. rewrite map_length, combine_length, seq_length. lia. Qed.
Lemma el_times d a m i j : four a -> (i < 4)%nat -> (j < 4)%nat -> el (times_fl d a m) i j = d i j (nth i a []) (rcol m j).
Proof.
  intros [L F] I J. unfold el, times_fl. rewrite (mapi_nth _ a [] []) by lia. destruct j as [|[|[|[|j]]]]; [reflexivity..|lia].
Qed.
Lemma four_times d a m : four a -> four (times_fl d a m).
Proof.
  intros [L F]. split; [unfold times_fl; now rewrite mapi_len|]. apply Forall_forall. intros r I. unfold times_fl, mapi in I. apply in_map_iff in I as (p & <- & _). reflexivity.
Qed.

(** ** One product *)
Lemma sum4_le f g : (forall k, (k < 4)%nat -> f k <= g k) -> sum4 f <= sum4 g.
Proof. intro H. unfold sum4. pose proof (H 0%nat ltac:(lia)). pose proof (H 1%nat ltac:(lia)). pose proof (H 2%nat ltac:(lia)). pose proof (H 3%nat ltac:(lia)). lra. Qed.
Lemma sum4_abs f : Rabs (sum4 f) <= sum4 (fun k => Rabs (f k)).
Proof. unfold sum4. eapply Rle_trans; [apply Rabs_triang|]. apply Rplus_le_compat_r. eapply Rle_trans; [apply Rabs_triang|]. apply Rplus_le_compat_r. apply Rabs_triang. Qed.
(** the sum of the sizes of every column is at most [c] *)
Definition narrow (c : R) (m : list (list R)) : Prop := forall j, (j < 4)%nat -> sum4 (fun k => Rabs (el m k j)) <= c.

Section Chain.
  Variables (rs : R -> R) (dot : nat -> nat -> list R -> list R -> R) (c : R).
  Hypothesis RS : rounds single rs.
  Hypothesis HD : forall i j v w, computes rs (combine v w) (dot i j v w).
  Hypothesis C1 : 1 <= c.
  Definition bad (k : nat) : R := 8 * INR k * low1 * (2 * c) ^ k.
  Definition inv (k : nat) (X P S : list (list R)) : Prop := forall i j, (i < 4)%nat -> (j < 4)%nat ->
    Rabs (el X i j - el P i j) <= 8.2 * INR k * u1 * el S i j + bad k /\ Rabs (el P i j) <= el S i j /\ el S i j <= (2 * c) ^ (k + 1).
  Lemma two_c_pow k : 1 <= (2 * c) ^ k.
  Proof using C1. apply pow_R1_Rle. lra. Qed.
  Lemma two_c_mono k l : (k <= l)%nat -> (2 * c) ^ k <= (2 * c) ^ l.
  Proof using C1. intro. apply Rle_pow; [lra|assumption]. Qed.
  Lemma one_product k X P S T : (k < 1000)%nat -> four X -> four P -> four S -> four T -> narrow c T -> (2 * c) ^ (k + 2) <= p2 99 -> inv k X P S ->
    inv (k + 1) (times_fl dot X T) (rdot P T) (rdot S (mabs T)).
  Proof using RS HD C1.
    intros K FX FP FS FT N B I i j Hi Hj. rewrite el_times by assumption. rewrite !el_dot by (try apply four_mabs; assumption).
    pose proof (N j Hj) as NJ. pose proof u1_size as U. pose proof low2_small as LS. pose proof u2_u1 as UU.
    assert (L1 : 0 < low1) by (unfold low1; apply p2_pos).
    assert (KR : 0 <= INR k <= 1000). { split; [apply pos_INR|]. replace 1000 with (INR 1000) by (rewrite INR_IZR_INZ; reflexivity). apply le_INR. lia. }
    set (S' := sum4 (fun k0 => el S i k0 * el (mabs T) k0 j)).
    set (t := fun q => Rabs (el T q j)).
    assert (TP : forall q, 0 <= t q) by (intro; apply Rabs_pos).
    assert (ES : S' = sum4 (fun q => el S i q * t q)). { unfold S', t, sum4. rewrite !el_mabs by (assumption || lia). reflexivity. }
    set (al := 8.2 * INR k * u1).
    assert (AL : 0 <= al <= 0.001). { unfold al. split; [apply Rmult_le_pos; lra|]. apply Rle_trans with (8.2 * 1000 * u1); [|lra]. apply Rmult_le_compat_r; lra. }
    assert (BP : 0 <= bad k). { unfold bad. pose proof (two_c_pow k). repeat apply Rmult_le_pos; lra. }
    assert (SP : forall q, (q < 4)%nat -> 0 <= el S i q). { intros q Q. destruct (I i q Hi Q) as (_ & A & _). pose proof (Rabs_pos (el P i q)). lra. }
    assert (S0 : 0 <= S'). { rewrite ES. replace 0 with (sum4 (fun _ => 0)) by (unfold sum4; lra). apply sum4_le. intros q Q. apply Rmult_le_pos; [now apply SP|apply TP]. }
    assert (BC : bad k * sum4 t <= bad k * c) by (apply Rmult_le_compat_l; [exact BP|exact NJ]).
    (* exact product of the wrong matrix *)
    assert (D1 : Rabs (sum4 (fun q => el X i q * el T q j) - sum4 (fun q => el P i q * el T q j)) <= al * S' + bad k * c).
    { replace (sum4 (fun q => el X i q * el T q j) - sum4 (fun q => el P i q * el T q j)) with (sum4 (fun q => (el X i q - el P i q) * el T q j)) by (unfold sum4; ring).
      eapply Rle_trans; [apply sum4_abs|]. apply Rle_trans with (sum4 (fun q => (al * el S i q + bad k) * t q)).
      - apply sum4_le. intros q Q. rewrite Rabs_mult. apply Rmult_le_compat_r; [apply TP|]. exact (proj1 (I i q Hi Q)).
      - apply Rle_trans with (al * S' + bad k * sum4 t); [|lra]. rewrite ES. unfold sum4. lra. }
    (* its size *)
    set (z := sizes (combine (nth i X []) (rcol T j))).
    assert (Z1 : z <= (1 + al) * S' + bad k * c).
    { unfold z. rewrite sizes4 by (try apply column_length; try apply four_row; assumption). apply Rle_trans with (sum4 (fun q => ((1 + al) * el S i q + bad k) * t q)).
      - apply sum4_le. intros q Q. rewrite el_col by assumption. apply Rmult_le_compat_r; [apply Rabs_pos|]. destruct (I i q Hi Q) as (A1 & A2 & _).
        change (nth q (nth i X []) 0) with (el X i q). replace (el X i q) with ((el X i q - el P i q) + el P i q) by ring. eapply Rle_trans; [apply Rabs_triang|]. fold al in A1. lra.
      - apply Rle_trans with ((1 + al) * S' + bad k * sum4 t); [|lra]. rewrite ES. unfold sum4. lra. }
    assert (S2 : S' <= (2 * c) ^ (k + 2)).
    { replace (k + 2)%nat with (Datatypes.S (k + 1)) by lia. apply Rle_trans with ((2 * c) ^ (k + 1) * sum4 t).
      - rewrite ES. replace ((2 * c) ^ (k + 1) * sum4 t) with (sum4 (fun q => (2 * c) ^ (k + 1) * t q)) by (unfold sum4; ring). apply sum4_le. intros q Q. apply Rmult_le_compat_r; [apply TP|]. exact (proj2 (proj2 (I i q Hi Q))).
      - rewrite <- tech_pow_Rmult. rewrite (Rmult_comm (2 * c)). apply Rmult_le_compat_l; [pose proof (two_c_pow (k + 1)); lra|]. change (sum4 t <= 2 * c). unfold t. lra. }
    assert (BS : bad k * c <= 0.001 * (2 * c) ^ (k + 2)).
    { assert (M : (2 * c) ^ (k + 1) <= (2 * c) ^ (k + 2)) by (apply two_c_mono; lia). pose proof (two_c_pow k). replace (k + 1)%nat with (Datatypes.S k) in M by lia. cbn [pow] in M.
      unfold bad. replace (8 * INR k * low1 * (2 * c) ^ k * c) with ((4 * INR k * low1) * (2 * c * (2 * c) ^ k)) by ring.
      apply Rle_trans with (0.001 * (2 * c * (2 * c) ^ k)); [|lra]. apply Rmult_le_compat_r; [apply Rmult_le_pos; lra|].
      apply Rle_trans with (4 * 1000 * low1); [apply Rmult_le_compat_r; lra|]. lra. }
    assert (Z2 : z <= p2 100). { replace (p2 100) with (2 * p2 99) by (change 100%Z with (99 + 1)%Z; rewrite p2_add; change (p2 1) with (2 * 1); ring).
      assert (al * S' <= 0.001 * S') by (apply Rmult_le_compat_r; lra). lra. }
    pose proof (single_near rs RS _ _ (HD i j (nth i X []) (rcol T j))) as D2. rewrite combine_length, (four_row X i FX Hi), column_length in D2 by assumption.
    specialize (D2 eq_refl Z2). rewrite total4 in D2 by (try apply column_length; try apply four_row; assumption). unfold off_single in D2. fold u1 low1 z in D2.
    assert (ET : sum4 (fun q => nth q (nth i X []) 0 * nth q (rcol T j) 0) = sum4 (fun q => el X i q * el T q j)). { unfold sum4. rewrite !el_col by (assumption || lia). reflexivity. }
    rewrite ET in D2. split; [|split].
    - set (v := dot i j (nth i X []) (rcol T j)) in *. set (a := sum4 (fun q => el X i q * el T q j)) in *. set (b := sum4 (fun q => el P i q * el T q j)) in *.
      replace (v - b) with ((v - a) + (a - b)) by ring. eapply Rle_trans; [apply Rabs_triang|].
      assert (E1 : 8.1 * u1 * z <= 8.2 * u1 * S' + bad k * c).
      { apply Rle_trans with (8.1 * u1 * ((1 + al) * S' + bad k * c)); [apply Rmult_le_compat_l; lra|].
        assert (al * S' <= 0.001 * S') by (apply Rmult_le_compat_r; lra). assert (u1 * (al * S') <= u1 * (0.001 * S')) by (apply Rmult_le_compat_l; lra).
        assert (0 <= bad k * c) by (apply Rmult_le_pos; lra). assert (8.1 * u1 * (bad k * c) <= 1 * (bad k * c)) by (apply Rmult_le_compat_r; lra).
        assert (0 <= u1 * S') by (apply Rmult_le_pos; lra). lra. }
      assert (E2 : 2 * (bad k * c) + 8 * low1 <= bad (k + 1)).
      { unfold bad. rewrite plus_INR. cbn [INR]. replace (k + 1)%nat with (Datatypes.S k) by lia. rewrite <- tech_pow_Rmult.
        assert (1 <= 2 * c * (2 * c) ^ k) by (rewrite tech_pow_Rmult; apply two_c_pow). assert (8 * low1 * 1 <= 8 * low1 * (2 * c * (2 * c) ^ k)) by (apply Rmult_le_compat_l; lra). lra. }
      fold S'. replace (8.2 * INR (k + 1) * u1 * S') with (al * S' + 8.2 * u1 * S') by (unfold al; rewrite plus_INR; cbn [INR]; ring). lra.
    - fold S'. eapply Rle_trans; [apply sum4_abs|]. rewrite ES. apply sum4_le. intros q Q. rewrite Rabs_mult. apply Rmult_le_compat_r; [apply TP|]. exact (proj1 (proj2 (I i q Hi Q))).
    - fold S'. replace (k + 1 + 1)%nat with (k + 2)%nat by lia. exact S2.
  Qed.
  Lemma many ms : forall k X P S, (k + length ms <= 1000)%nat -> four X -> four P -> four S -> Forall four ms -> Forall (narrow c) ms -> (2 * c) ^ (k + length ms + 1) <= p2 99 -> inv k X P S ->
    inv (k + length ms) (fold_left (times_fl dot) ms X) (fold_left rdot ms P) (fold_left rdot (map mabs ms) S).
  Proof using RS HD C1.
    induction ms as [|T ms IH]; intros k X P S K FX FP FS F N B I; cbn [length fold_left map] in *.
    - now rewrite Nat.add_0_r.
    - inversion F; subst. inversion N; subst. replace (k + Datatypes.S (length ms))%nat with ((k + 1) + length ms)%nat in * by lia.
      apply IH; try assumption; try lia; [now apply four_times|now apply four_dot|now apply four_dot|].
      apply one_product; try assumption; [lia|]. eapply Rle_trans; [apply two_c_mono|exact B]. lia.
  Qed.
  Lemma chain_near m ms : (length ms <= 1000)%nat -> Forall four (m :: ms) -> Forall (narrow c) (m :: ms) -> (2 * c) ^ (length ms + 1) <= p2 99 ->
    forall i j, (i < 4)%nat -> (j < 4)%nat ->
    Rabs (el (fold_left (times_fl dot) ms m) i j - el (fold_left rdot ms m) i j) <=
      8.2 * INR (length ms) * u1 * el (fold_left rdot (map mabs ms) (mabs m)) i j + 8 * INR (length ms) * low1 * (2 * c) ^ length ms.
  Proof using RS HD C1.
    intros L F N B i j Hi Hj. inversion F as [|? ? F1 F2]; subst. inversion N as [|? ? N1 N2]; subst.
    destruct (many ms 0 m m (mabs m) L F1 F1 (four_mabs m F1) F2 N2 B) with (i := i) (j := j) as (A & _); [|exact Hi|exact Hj|exact A].
    intros p q Hp Hq. rewrite el_mabs by assumption. rewrite Rminus_diag_eq, Rabs_R0 by reflexivity. pose proof (Rabs_pos (el m p q)) as RP. unfold bad. cbn [INR]. split; [lra|]. split; [lra|].
    cbn [Nat.add pow]. specialize (N1 q Hq). unfold sum4 in N1. pose proof (Rabs_pos (el m 0 q)). pose proof (Rabs_pos (el m 1 q)). pose proof (Rabs_pos (el m 2 q)). pose proof (Rabs_pos (el m 3 q)).
    destruct p as [|[|[|[|p]]]]; [lra..|lia].
  Qed.
End Chain.
