(** * ElemValuesProofs: every record of the right length is that of a field. *)
From Coq Require Import Field.
From Verif Require Import Base Flt H5 Schema Data Struc Nd NdProofs ListFacts Elem ElemSpec ElemProofs ElemResSpec ElemRes ElemValuesSpec.
Open Scope string_scope.
Open Scope Z_scope.
Open Scope list_scope.

Open Scope nat_scope.
(** The inverse of quad_place, tri_place (ElemSpec). *)
Definition quad_index (p : option nat) : nat := match p with None => 2 | Some 2 => 4 | Some n => n end.
Definition tri_index (p : option nat) : nat := match p with None => 2 | Some 2 => 3 | Some n => n end.
Definition thin_index (n : nat) (u : bool) (i c : nat) : nat := (if u then n else 0) + 3 * i + c.
Open Scope Z_scope.
Open Scope list_scope.
Section Numbers.
  Context {F : Type}.
  Variables (zero one : F) (add mul sub : F -> F -> F) (opp : F -> F) (div : F -> F -> F) (inv : F -> F) (s3 : F).
  Hypothesis Ff : field_theory zero one add mul sub opp div inv eq.
  Notation "x + y" := (add x y).
  Notation "x * y" := (mul x y).
  Notation "x - y" := (sub x y).
  Notation "x / y" := (div x y).
  Notation "- x" := (opp x).
  Notation "0" := zero.
  Notation "1" := one.
  Hypothesis H2 : 1 + 1 <> 0.
  Hypothesis H3 : 1 + 1 + 1 <> 0.
  Hypothesis Hs : s3 * s3 = 1 + 1 + 1.
  Add Field Ffield : Ff.
  Notation process := (process zero one add mul sub opp div s3).
  Notation gauss := (gauss one div s3).
  Notation node_values := (node_values zero one add mul sub opp div s3).
  Let s3_nz := s3_nz zero one add mul sub opp div inv s3 Ff H3 Hs.
  Let nz_mul := nz_mul zero one add mul sub opp div inv Ff.
  Let n3 := n3 zero one add mul sub opp div inv Ff H3.
  Let n4 := n4 zero one add mul sub opp div inv Ff H2.
  Let n6 := n6 zero one add mul sub opp div inv Ff H2 H3.
  Ltac nz := repeat split; first [assumption | exact n3 | exact n4 | exact n6 | exact s3_nz | apply nz_mul; nz].

  (** *** Soundness *)
  Lemma quad4_decomposed (f : option nat -> bool -> nat -> F) pos :
    process 24 "decomposedstress" pos (thin_record quad_place f) = Ok (mkNd [4; 6]%nat (flat_map (fun n => mean_and_rest one add sub div (f (Some n))) [0; 1; 2; 3]%nat)).
  Proof using Ff H2.
    match goal with |- ?a = _ => let b := eval cbn in a in change a with b end. unfold arr2, mean_and_rest, half, two, int2. cbn [flat_map map seq app length concat].
 match goal with |- Ok (mkNd ?s _) = _ => apply (f_equal (fun l => Ok (mkNd s l))) end.
    repeat (apply cons_eq; [field; nz|]). reflexivity.
  Qed.
  Lemma tri3_decomposed (f : option nat -> bool -> nat -> F) pos :
    process 25 "decomposedstress" pos (thin_record tri_place f) = Ok (mkNd [3; 6]%nat (flat_map (fun n => mean_and_rest one add sub div (f (Some n))) [0; 1; 2]%nat)).
  Proof using Ff H2.
    match goal with |- ?a = _ => let b := eval cbn in a in change a with b end. unfold arr2, mean_and_rest, half, two, int2. cbn [flat_map map seq app length concat]. match goal with |- Ok (mkNd ?s _) = _ => apply (f_equal (fun l => Ok (mkNd s l))) end.
    repeat (apply cons_eq; [field; nz|]). reflexivity.
  Qed.
  Theorem values_processed t restype w out : node_values t restype w out -> exists sh, process t restype "nodes" w = Ok (mkNd sh out).
  Proof using Ff H2 H3 Hs.
    intros [a b c Ha Hb Hc|f Hf|f|f|f|f|f Hf|f Hf|f Hf|f Hf]; eexists.
    - now apply beam2_nodes.
    - now apply (beam3_nodes zero one add mul sub opp div inv s3 Ff H2 H3 Hs).
    - apply quad4_nodes.
    - apply quad4_decomposed.
    - apply tri3_nodes.
    - apply tri3_decomposed.
    - now apply (tri_general zero one add mul sub opp div inv s3 Ff H2 H3 Hs).
    - now apply (tri_decomposed zero one add mul sub opp div inv s3 Ff H2 H3 Hs).
    - now apply (quad_general zero one add mul sub opp div inv s3 Ff H2 H3 Hs).
    - now apply (quad_decomposed zero one add mul sub opp div inv s3 Ff H2 H3 Hs).
  Qed.
  Theorem values_unique t restype w a b : node_values t restype w a -> node_values t restype w b -> a = b.
  Proof using Ff H2 H3 Hs. intros Ha Hb. destruct (values_processed _ _ _ _ Ha) as (sa & Ea). destruct (values_processed _ _ _ _ Hb) as (sb & Eb). congruence. Qed.

  (** *** Fields through given values *)
  Definition along (p q : F) (x : F) : F := (p + q) / int2 one add + (q - p) / int2 one add * s3 * x.
  Definition in_quad (v : nat -> F) (p : F * F) : F :=
    (v 0%nat + v 1%nat + v 2%nat + v 3%nat) / (int2 one add * int2 one add)
    + (v 1%nat + v 3%nat - v 0%nat - v 2%nat) / (int2 one add * int2 one add) * s3 * fst p
    + (v 2%nat + v 3%nat - v 0%nat - v 1%nat) / (int2 one add * int2 one add) * s3 * snd p
    + (v 0%nat + v 3%nat - v 1%nat - v 2%nat) / (int2 one add * int2 one add) * int3 one add * (fst p * snd p).
  Definition of_tri (a b c : F) : F := (a + a + a + a + a - b - c) / int3 one add.
  Definition in_tri (v : nat -> F) (p : F * F * F) : F :=
    of_tri (v 0%nat) (v 1%nat) (v 2%nat) * fst (fst p) + of_tri (v 1%nat) (v 0%nat) (v 2%nat) * snd (fst p) + of_tri (v 2%nat) (v 0%nat) (v 1%nat) * snd p.
  Lemma along_linear p q : linear1 add mul (along p q).
  Proof using. eexists _, _. intro x. reflexivity. Qed.
  Lemma in_quad_bilinear v : bilinear add mul (in_quad v).
  Proof using. eexists _, _, _, _. intros x y. reflexivity. Qed.
  Lemma in_tri_linear v : linear3 add mul (in_tri v).
  Proof using. eexists _, _, _. intros x y z. reflexivity. Qed.
  Lemma along_at p q : along p q (- gauss) = p /\ along p q gauss = q.
  Proof using Ff H2 H3 Hs. unfold along, ElemSpec.gauss, int2. split; field; nz. Qed.
  Lemma in_quad_at v : map (in_quad v) (quad_points one opp div s3) = map v [0; 1; 2; 3]%nat.
  Proof using Ff H2 H3 Hs.
    unfold quad_points, in_quad, int2, int3. cbn [map fst snd]. rewrite !(gauss_3 zero one add mul sub opp div inv s3 Ff H3 Hs). repeat (apply cons_eq; [field [Hs]; nz|]). reflexivity.
  Qed.
  Lemma in_tri_at v : map (in_tri v) (tri_points one add mul div) = map v [0; 1; 2]%nat.
  Proof using Ff H2 H3.
    unfold tri_points, in_tri, of_tri, int6, int2, int3. cbn [map fst snd]. repeat (apply cons_eq; [field; nz|]). reflexivity.
  Qed.

  (** Values at the points of the lower and the upper level, component by component. *)
  Definition between {P} (at_ : (nat -> F) -> P -> F) (lo up : nat -> nat -> F) (c : nat) (p : P) (z : F) : F :=
    at_ (fun i => (lo c i + up c i) / int2 one add) p + z * at_ (fun i => (up c i - lo c i) / int2 one add * s3) p.
  Lemma between_through {P} at_ (lin : (P -> F) -> Prop) lo up c : (forall v, lin (at_ v)) -> through add mul lin (between at_ lo up c).
  Proof using. intro H. eexists _, _. split; [apply H|]. split; [apply H|]. intros p z. reflexivity. Qed.
  Lemma between_lo a b : (a + b) / int2 one add + (- gauss) * ((b - a) / int2 one add * s3) = a.
  Proof using Ff H2 H3 Hs. unfold ElemSpec.gauss, int2. field. nz. Qed.
  Lemma between_up a b : (a + b) / int2 one add + gauss * ((b - a) / int2 one add * s3) = b.
  Proof using Ff H2 H3 Hs. unfold ElemSpec.gauss, int2. field. nz. Qed.
  Lemma thick_is {P} (pts : list P) at_ n lo up : (forall v, map (at_ v) pts = map v (seq 0 n)) ->
    thick_record one opp div s3 pts (between at_ lo up) =
    flat_map (fun i => map (fun c => lo c i) (seq 0 5)) (seq 0 n) ++ flat_map (fun i => map (fun c => up c i) (seq 0 5)) (seq 0 n).
  Proof using Ff H2 H3 Hs.
    intro H. unfold thick_record. cbn [flat_map]. rewrite app_nil_r.
    assert (G : forall z (w : nat -> nat -> F), (forall c i, (lo c i + up c i) / int2 one add + z * ((up c i - lo c i) / int2 one add * s3) = w c i) ->
      flat_map (fun p => map (fun c => between at_ lo up c p z) (seq 0 5)) pts = flat_map (fun i => map (fun c => w c i) (seq 0 5)) (seq 0 n)).
    { intros z w Hw. assert (L : length pts = n) by (pose proof (f_equal (@length F) (H (fun _ => 0))) as E; now rewrite !map_length, seq_length in E).
      assert (E : forall i p v, nth_error pts i = Some p -> at_ v p = v i).
      { intros i p v Hp. pose proof (f_equal (fun l => nth_error l i) (H v)) as E. cbv beta in E. rewrite (map_nth_error _ _ _ Hp) in E.
        assert (Hi : (i < n)%nat) by (rewrite <- L; apply nth_error_Some; congruence).
        rewrite (map_nth_error v i (seq 0 n) (d := i)) in E; [congruence|]. rewrite (nth_error_nth' _ 0%nat) by now rewrite seq_length. now rewrite seq_nth. }
      clear H. rewrite <- L. clear L. assert (G : forall k l, (forall i p, nth_error l i = Some p -> nth_error pts (k + i) = Some p) ->
        flat_map (fun p => map (fun c => between at_ lo up c p z) (seq 0 5)) l = flat_map (fun i => map (fun c => w c i) (seq 0 5)) (seq k (length l))).
      { intros k l. revert k. induction l as [|p l IH]; intros k Hk; [reflexivity|]. cbn [length]. cbn [seq flat_map]. f_equal.
        - assert (Hp : nth_error pts k = Some p) by (rewrite <- (Hk 0%nat p eq_refl); f_equal; lia). unfold between. cbn [map]. rewrite !(E k p _ Hp), !Hw. reflexivity.
        - apply (IH (S k)). intros i q Hq. rewrite <- (Hk (S i) q Hq). f_equal. lia. }
      apply (G 0%nat pts). intros i p Hp. exact Hp. }
    now rewrite (G (- gauss) lo), (G gauss up) by (intros; auto using between_lo, between_up).
  Qed.

  Ltac listed d H := repeat (destruct d as [|? d]; [discriminate H|]); destruct d; [|discriminate H].
  Lemma thick_of n w : length w = (2 * (n * 5))%nat ->
    w = flat_map (fun i => map (fun c => nth (5 * i + c) w 0) (seq 0 5)) (seq 0 n) ++ flat_map (fun i => map (fun c => nth (5 * (n + i) + c) w 0) (seq 0 5)) (seq 0 n).
  Proof using. intro H. exact (listed_rec2 zero n w H). Qed.
  Theorem values_exist restype t len nn tail w : In (t, (len, nn, tail)) (elem_sizes restype) -> In restype (map fst result_kinds) -> length w = len ->
    exists out, node_values t restype w out.
  Proof using Ff H2 H3 Hs.
    intros HI HK HL.
    assert (T28 : length w = 40%nat -> exists f, (forall c, (c < 5)%nat -> through add mul (bilinear add mul) (f c)) /\ w = thick_record one opp div s3 (quad_points one opp div s3) f).
    { intro E. eexists (between in_quad (fun c i => nth (5 * i + c) w 0) (fun c i => nth (5 * (4 + i) + c) w 0)). split; [intros c _; apply between_through, in_quad_bilinear|].
      rewrite (thick_is _ _ 4) by exact in_quad_at. exact (thick_of 4 w E). }
    assert (T26 : length w = 30%nat -> exists f, (forall c, (c < 5)%nat -> through add mul (linear3 add mul) (f c)) /\ w = thick_record one opp div s3 (tri_points one add mul div) f).
    { intro E. eexists (between in_tri (fun c i => nth (5 * i + c) w 0) (fun c i => nth (5 * (3 + i) + c) w 0)). split; [intros c _; apply between_through, in_tri_linear|].
      rewrite (thick_is _ _ 3) by exact in_tri_at. exact (thick_of 3 w E). }
    assert (T24 : length w = 30%nat -> exists f, w = thin_record quad_place f).
    { intro E. exists (fun p u c => nth (thin_index 15 u (quad_index p) c) w 0). clear - E. listed w E. reflexivity. }
    assert (T25 : length w = 24%nat -> exists f, w = thin_record tri_place f).
    { intro E. exists (fun p u c => nth (thin_index 12 u (tri_index p) c) w 0). clear - E. listed w E. reflexivity. }
    assert (T23 : length w = 12%nat -> exists f, (forall c, (c < 6)%nat -> linear1 add mul (f c)) /\ w = beam_record (beam_points one opp div s3) f).
    { intro E. exists (fun c => along (nth c w 0) (nth (6 + c) w 0)). split; [intros c _; apply along_linear|]. unfold beam_record, beam_points. clear T24 T25 T26 T28. listed w E.
      cbn [flat_map map seq app nth Nat.add]. rewrite !(proj1 (along_at _ _)), !(proj2 (along_at _ _)). reflexivity. }
    assert (T15 : length w = 18%nat -> exists a b c, length a = 6%nat /\ length b = 6%nat /\ length c = 6%nat /\ w = a ++ b ++ c).
    { intro E. exists (firstn 6 w), (firstn 6 (skipn 6 w)), (skipn 12 w). clear - E. listed w E. repeat split. }
    destruct HK as [<-|[<-|[<-|[]]]]; cbn [elem_sizes String.eqb Ascii.eqb Bool.eqb fst] in HI;
      repeat destruct HI as [E|HI]; try destruct HI; injection E as <- <- <- <-.
    - destruct (T15 HL) as (a & b & c & Ha & Hb & Hc & ->). eexists. now constructor.
    - destruct (T23 HL) as (f & Hf & ->). eexists. now constructor.
    - destruct (T24 HL) as (f & ->). eexists. constructor.
    - destruct (T25 HL) as (f & ->). eexists. constructor.
    - destruct (T26 HL) as (f & Hf & ->). eexists. now constructor.
    - destruct (T28 HL) as (f & Hf & ->). eexists. now constructor.
    - destruct (T24 HL) as (f & ->). eexists. constructor.
    - destruct (T25 HL) as (f & ->). eexists. constructor.
    - destruct (T26 HL) as (f & Hf & ->). eexists. now constructor.
    - destruct (T28 HL) as (f & Hf & ->). eexists. now constructor.
  Qed.
End Numbers.
