(** * StressBound: stresses at the nodes are at most six times the greatest of the record. *)
From Coq Require Import Reals ZArith Lia Lra.
From Verif Require Import Base ListFacts Nd IeeeSpec IeeeFacts DotSpec CalcFloat Elem ElemSpec ElemValuesSpec ElemValuesProofs ElemFloat ElemFloatNum ElemFloatSpec ElemFloatProofs Props_Elem Props_ElemFloat.
Open Scope string_scope.
Open Scope list_scope.
Open Scope R_scope.

Lemma dots_within B v w : 0 <= B -> Forall (fun x => Rabs x <= B) w -> Rabs (dotsR v w) <= sumabs v * B.
Proof.
  intros B0 W. revert v. induction W as [|b w Hb W IH]; intros [|a v]; cbn [dots sumabs fold_right]; rewrite ?Rabs_R0; try lra.
  - apply Rmult_le_pos; [|exact B0]. apply Rplus_le_le_0_compat; [apply Rabs_pos|]. induction v as [|c v IH]; cbn; [lra|]. pose proof (Rabs_pos c). lra.
  - fold (sumabs v). specialize (IH v). apply Rle_trans with (1 := Rabs_triang _ _). rewrite Rabs_mult. assert (Rabs a * Rabs b <= Rabs a * B) by (apply Rmult_le_compat_l; [apply Rabs_pos|exact Hb]). lra.
Qed.
Lemma dot3_within n k S B x (b : list (list (list R))) : 0 <= B -> rows_of k S x -> Forall (within B) b -> Forall (fun y => Rabs y <= S * B) (concat (map (@concat R) (dot3 0 Rplus Rmult n x b))).
Proof.
  intros B0 X W. apply Forall_concat, Forall_map. unfold dot3. apply Forall_map. eapply Forall_impl; [|exact X]. intros r (_ & Sr). cbn beta. apply Forall_concat, Forall_map. eapply Forall_impl; [|exact W].
  intros m Hm. cbn beta. apply Forall_map, Forall_forall. intros j _. apply Rle_trans with (sumabs r * B); [apply dots_within; [exact B0|now apply col_within]|]. now apply Rmult_le_compat_r.
Qed.
Section Bound.
  Variables (rs rd ra : R -> R).
  Hypothesis RD : rounds double rd.
  Hypothesis GS : good u1 low1 rs.
  Hypothesis GA : good u1 low1 ra.
  Variable M : R.
  Hypothesis M0 : 0 <= M.
  Hypothesis ML : 100 * M < large.
  Lemma thick_within n k x w sh out : k <> 0%nat -> rows_of n 3 x -> Forall (fun y => Rabs y <= M) w -> process_thick 0 1 Rplus Rmult Rminus Ropp Rdiv (sqrt 3) k x "generalstress" "nodes" w = Ok (mkNd sh out) ->
    Forall (fun y => Rabs y <= 6 * M) out.
  Proof using RD GS GA M0 ML.
    intros K X W. unfold process_thick. destruct (shape3 2 k 5 w) as [r|] eqn:S; [|discriminate]. destruct (shape3_rows M k w r W K S) as (l & u & -> & Pl & Pu). cbn [rbind]. cbn [String.eqb Ascii.eqb Bool.eqb].
    intro E. apply ok_inj in E. unfold arr3 in E. assert (F : out = concat (map (@concat R) (dot3 0 Rplus Rmult 5 x (no_shear 0 (to_surfaces 1 Rplus Rmult Rminus Ropp Rdiv (sqrt 3) [l; u]))))) by congruence. rewrite F.
    destruct (surfaces_near rs rd ra RD GS GA M M0 ML k l u Pl Pu) as (_ & SW & _). eapply Forall_impl; [|apply (dot3_within 5 n 3 (1.74 * M)); [lra|exact X|apply no_shear_within; [lra|exact SW]]]. intros y Hy. cbn beta in Hy. lra.
  Qed.
  Lemma values_within t w out : valuesR t "generalstress" w out -> Forall (fun y => Rabs y <= M) w -> Forall (fun y => Rabs y <= 6 * M) out.
  Proof using RD GS GA M0 ML.
    intros V W. destruct real_numbers as (R1 & R2 & R3 & R4). destruct (values_processed 0 1 Rplus Rmult Rminus Ropp Rdiv Rinv (sqrt 3) R1 R2 R3 R4 _ _ _ _ V) as (sh & E).
    assert (LE : forall l, Forall (fun y => Rabs y <= M) l -> Forall (fun y => Rabs y <= 6 * M) l) by (intros l H; eapply Forall_impl; [|exact H]; intros y Hy; cbn beta in Hy; lra).
    assert (T : t = 24%Z \/ t = 25%Z \/ t = 26%Z \/ t = 28%Z) by (inversion V; auto). clear V. destruct T as [->|[->|[->| ->]]]; unfold process in E; cbn [Z.eqb Pos.eqb] in E.
    - apply LE. unfold process_24 in E. destruct (shape2 10 3 _) as [m|] eqn:S in E; [|discriminate E]. destruct (shape2_rows M 10 3 _ m ltac:(discriminate) W S) as (L & _ & WM).
      destruct m as [|r0 [|r1 [|r2 [|r3 [|r4 [|r5 [|r6 [|r7 [|r8 [|r9 [|? ?]]]]]]]]]]]; try discriminate L. cbn in E. apply ok_inj in E. unfold arr3 in E. injection E as _ <-. unfold within in WM.
      repeat match goal with H : Forall _ (_ :: _) |- _ => inversion H; subst; clear H end. rewrite ?app_nil_r. repeat (apply Forall_app; split); assumption.
    - apply LE. unfold process_25 in E. destruct (shape2 8 3 _) as [m|] eqn:S in E; [|discriminate E]. destruct (shape2_rows M 8 3 _ m ltac:(discriminate) W S) as (L & _ & WM).
      destruct m as [|r0 [|r1 [|r2 [|r3 [|r4 [|r5 [|r6 [|r7 [|? ?]]]]]]]]]; try discriminate L. cbn in E. apply ok_inj in E. unfold arr3 in E. injection E as _ <-. unfold within in WM.
      repeat match goal with H : Forall _ (_ :: _) |- _ => inversion H; subst; clear H end. rewrite ?app_nil_r. repeat (apply Forall_app; split); assumption.
    - apply (thick_within 3 3 _ _ _ _ ltac:(discriminate) xtri_rows W E).
    - apply (thick_within 4 4 _ _ _ _ ltac:(discriminate) xquad_rows W E).
  Qed.
End Bound.
