(** * Props_ElemFloat: property C69.

    Element results at nodes in the arithmetic of the machine. *)
From Coq Require Import Reals Lra Sorted.
From Verif Require Import Base Flt H5 Schema StoreSpec ParserSpec FileSpec Data Struc StrucSpec DataFacts StrucProofs StrucGet StrucRes StrucExist StrucSample
  Nd NdProofs Elem ElemSpec ElemProofs ElemResSpec ElemRes ElemMore ElemValuesSpec ElemValuesProofs Props_Elem Props_ElemValues
  IeeeSpec IeeeFacts IeeeExists DotSpec CalcFloat ElemFloat ElemFloatSpec ElemFloatNum ElemFloatProofs.
Open Scope string_scope.
Open Scope Z_scope.
Open Scope list_scope.

Notation valuesR := (node_values 0%R 1%R Rplus Rmult Rminus Ropp Rdiv (sqrt 3)).
Lemma small_enough M : (M <= powerRZ 2 100)%R -> (100 * M < large)%R.
Proof.
  intro H. unfold large. replace 120 with (100 + 20) by reflexivity. rewrite p2_add. pose proof (p2_pos 100) as P. rewrite (p2_nat 20) by lia. change (2 ^ 20) with 1048576. nra.
Qed.
(** One record: the numbers at the nodes are those of the field (C65) up to
    rounding, whatever the order of summation and the version of NumPy. *)
Theorem C69_record : forall rs rd ra dot t restype w out M, numpy rs rd ra dot -> valuesR t restype w out ->
  Forall (fun x => Rabs x <= M)%R w -> (0 <= M <= powerRZ 2 100)%R ->
  exists b, process_fl rs rd ra dot t restype "nodes" w = Ok b /\ agree (tolerance t restype M) out (n_flat b).
Proof.
  intros rs rd ra dot t restype w out M (HS & HD & HA & HDot) HV HW HM. destruct real_numbers as (R1 & R2 & R3 & R4).
  destruct (values_processed 0%R 1%R Rplus Rmult Rminus Ropp Rdiv Rinv (sqrt 3) R1 R2 R3 R4 _ _ _ _ HV) as (sh & E).
  assert (GA : good u1 low1 ra) by (destruct HA as [-> | ->]; [now apply good_single|now apply good_weak, good_double]).
  destruct (process_near rs rd ra dot HD (good_single rs HS) GA HDot M (proj1 HM) (small_enough M (proj2 HM)) t restype "nodes" w _ HW E) as (b & Eb & _ & C). exists b. split; [exact Eb|exact C].
Qed.
Print Assumptions C69_record.

Ltac listed d H := repeat (destruct d as [|? d]; [discriminate H|]); destruct d; [|discriminate H].
Lemma process_fl_sizes rs rd ra dot restype t len nn tail d : In (t, (len, nn, tail)) (elem_sizes restype) -> In restype (map fst result_kinds) -> length d = len ->
  exists a, process_fl rs rd ra dot t restype "nodes" d = Ok a /\ n_shape a = nn :: tail /\ wf a.
Proof.
  intros HI HK HL. destruct HK as [<-|[<-|[<-|[]]]]; cbn [elem_sizes String.eqb Ascii.eqb Bool.eqb fst] in HI;
    repeat destruct HI as [E|HI]; try destruct HI; injection E as <- <- <- <-; listed d HL; eexists; (split; [reflexivity|]); split; reflexivity.
Qed.
(** The element results of a data set at the nodes, as in C65, real ones. *)
Theorem C69_results : forall rs0 rd ra dot M (num : cell -> R) h d ns es nms ms sets restype rn cn kind idx rs run cs arg sel bs sh,
  numpy rs0 rd ra dot -> (0 <= M <= powerRZ 2 100)%R ->
  d_open d = true -> mesh_in h (d_group d) ns es -> In (restype, (rn, cn, kind)) result_kinds ->
  proper h (d_group d) es nms ms sets kind -> selected es nms ms sets kind idx -> idx <> [] ->
  refs_in h (d_group d) rs -> cases_arg cs arg -> asked_refs run cs rs sel -> sel <> [] -> NoDup (map rf_ires sel) ->
  (forall r, In r sel -> rf_complex r = 0) ->
  elemres_in h (d_group d) rn es bs ->
  filter (fun i => zmem i (map rf_ires sel)) (map fst bs) = map rf_ires sel ->
  (forall b, In b bs -> In (fst b) (map rf_ires sel) -> map fst (filter (fun ev => existsb (Nat.eqb (fst ev)) idx) (snd b)) = idx) ->
  (forall j e, In j idx -> nth_error es j = Some e -> exists len, In (el_typ e, (len, length (el_nodes e), sh)) (elem_sizes restype) /\
     forall b v, In b bs -> In (fst b) (map rf_ires sel) -> In (j, v) (snd b) -> length v = len) ->
  (forall b j v c, In b bs -> In (j, v) (snd b) -> In c v -> Rabs (num c) <= M)%R ->
  exists parts : list (list (list R)),
    get_elementresults_fl rs0 rd ra dot num h d restype "nodes" run arg sets =
      Ok (with_cases (length sel) (length (flat_map el_nodes (pick es idx)) :: sh) (concat (map (@concat R) parts))) /\
    Forall2 (fun r ps => Forall2 (fun j found => exists e b v out, nth_error es j = Some e /\ In b bs /\ fst b = rf_ires r /\ In (j, v) (snd b) /\
      valuesR (el_typ e) restype (map num v) out /\ agree (tolerance (el_typ e) restype M) out found) idx ps) sel parts.
Proof.
  intros rs0 rd ra dot M num h d ns es nms ms sets restype rn cn kind idx rs run cs arg sel bs sh HN HM0 Ho HM HT HP HI Hne HRf HA HS Hsel Hnd Hc HB Hord Heach Hty Hbig.
  destruct (elementresults_stated_with (process_fl rs0 rd ra dot) num (process_fl_sizes rs0 rd ra dot) h d ns es nms ms sets restype rn cn kind idx rs run cs arg sel bs 0 sh Ho HM HT HP HI Hne HRf HA HS Hsel Hnd Hc HB Hord Heach) as (parts & E & HF).
  { intros j e Hj He. destruct (Hty j e Hj He) as (len & Hl & Hx). exists len. split; [exact Hl|]. intros b v Hb Hi Hv. exists v. split; [reflexivity|exact (Hx b v Hb Hi Hv)]. }
  exists (map (map n_flat) parts). split.
  - etransitivity; [exact E|]. do 2 f_equal. rewrite map_map, <- flat_map_concat_map. apply flat_map_ext. intro l. apply flat_map_concat_map.
  - assert (One : forall r j a, In r sel -> In j idx ->
      (exists e b v w, nth_error es j = Some e /\ In b bs /\ fst b = rf_ires r /\ In (j, v) (snd b) /\ numbers 0 v w /\
        process_fl rs0 rd ra dot (el_typ e) restype "nodes" (map num w) = Ok a /\ n_shape a = length (el_nodes e) :: sh /\ wf a) ->
      exists e b v out, nth_error es j = Some e /\ In b bs /\ fst b = rf_ires r /\ In (j, v) (snd b) /\ valuesR (el_typ e) restype (map num v) out /\ agree (tolerance (el_typ e) restype M) out (n_flat a)).
    { intros r j a Hr Hj (e & b & v & w & He & Hb & Eb & Hv & Hw & Hp & _). assert (w = v) by exact Hw. subst w. destruct (Hty j e Hj He) as (len & Hl & Hx). specialize (Hx b v Hb ltac:(rewrite Eb; now apply in_map) Hv).
      destruct real_numbers as (R1 & R2 & R3 & R4).
      destruct (values_exist 0%R 1%R Rplus Rmult Rminus Ropp Rdiv Rinv (sqrt 3) R1 R2 R3 R4 restype _ _ _ _ (map num v) Hl (in_map fst _ _ HT) ltac:(now rewrite map_length)) as (out & Hout).
      destruct (C69_record rs0 rd ra dot _ _ _ _ M HN Hout) as (a' & Ea & HAg); [|exact HM0|].
      { apply Forall_map, Forall_forall. intros c Hc'. now apply (Hbig b j v c). }
      rewrite Ea in Hp. injection Hp as <-. exists e, b, v, out. repeat (split; [assumption|]). exact HAg. }
    clear - HF One. revert HF. generalize (fun r j a => One r j a). clear One.
    induction sel as [|r sel IH] in parts |- *; intros One HF; inversion HF as [|? ps ? parts' HP HF']; subst; cbn [map]; constructor; [|apply IH; [|exact HF']; intros r' j a Hr; apply One; now right].
    specialize (fun j a => One r j a (or_introl eq_refl)). clear - HP One. induction HP as [|j a idx ps H1 HP IH]; cbn [map]; constructor; [apply One; [now left|exact H1]|apply IH; intros j' a' Hj'; apply One; now right].
Qed.
Print Assumptions C69_results.

(** Such arithmetic exists: IEEE roundings, sums from the right. *)
Fixpoint from_right (rd : R -> R) (l : list (R * R)) : R :=
  match l with
  | [] => 0%R
  | p :: l => rd (rd (fst p * snd p) + from_right rd l)%R
  end.
Lemma from_right_computes rd l : computes rd l (from_right rd l).
Proof. induction l as [|[a b] l IH]; [constructor|]. apply (c_sum rd [(a, b)] l); [constructor|exact IH]. Qed.
Definition machine_dot (site i j : nat) (v w : list R) : R := from_right (ieee double) (combine v w).
Theorem C69_numpy : numpy (ieee single) (ieee double) (ieee single) machine_dot /\ numpy (ieee single) (ieee double) (ieee double) machine_dot.
Proof.
  assert (S : rounds single (ieee single)) by (apply ieee_rounds; reflexivity). assert (D : rounds double (ieee double)) by (apply ieee_rounds; reflexivity).
  split; (split; [exact S|split; [exact D|split]]); auto; intros; apply from_right_computes.
Qed.
Print Assumptions C69_numpy.
(** The eight-node shell of C65: at most 0.0000023 from the exact values. *)
Example C69_case : exists found,
  get_elementresults_fl (ieee single) (ieee double) (ieee double) machine_dot e_num e_h x_d "generalstress" "nodes" 1 (OneCase 5) [] = Ok (mkNd [8; 2; 5]%nat found) /\
  agree 0.0000023 (flat_map (fun _ : nat => flat_map (fun s => [s; s; s; 0; 0]%R) [(1 / 2 + -1 * (sqrt 3 / 2))%R; (1 / 2 + 1 * (sqrt 3 / 2))%R]) (seq 0 8)) found.
Proof.
  destruct (C69_results (ieee single) (ieee double) (ieee double) machine_dot 1%R e_num e_h x_d v_ns e_es [] [] [] "generalstress" "RVSTRESS" "stress" "shell" [0]%nat
    [mkRef 1 1 5 0] 1 (Some [5]) (OneCase 5) [mkRef 1 1 5 0] e_stress [2; 5]%nat) as (parts & E & HF).
  - apply C69_numpy.
  - split; [lra|]. apply (p2_ge1 100). lia.
  - reflexivity.
  - exact e_mesh.
  - right. now left.
  - apply properb_spec; [intro K; congruence|vm_compute; reflexivity|cbn; tauto].
  - selz.
  - discriminate.
  - exact e_has_refs.
  - right. eexists. split; reflexivity.
  - repeat (first [apply sub_nil | apply sub_in; [split; [reflexivity|cbn; tauto]|] | apply sub_out; [intros [H1 H2]; vm_compute in H1, H2; intuition congruence|]]).
  - discriminate.
  - repeat constructor; cbn; intuition congruence.
  - intros r [<-|[]]; reflexivity.
  - exact e_has_stress.
  - reflexivity.
  - intros b [<-|[]] _; reflexivity.
  - intros j e [<-|[]] E; injection E as <-. exists 40%nat. split; [cbn; tauto|]. intros b v [<-|[]] _ [K|[]]. injection K as <-. reflexivity.
  - intros b j v c [<-|[]] [K|[]] Hc. injection K as <- <-. change (In c (repeat (fz 0) 20 ++ repeat (fz 1) 20)) in Hc. apply in_app_or in Hc as [Hc|Hc]; apply repeat_spec in Hc; subst c.
    + change (e_num (fz 0)) with 0%R. rewrite Rabs_R0. lra.
    + replace (e_num (fz 1)) with 1%R; [rewrite Rabs_right; lra|]. change (e_num (fz 1)) with (1 * 1 * 1)%R. ring.
  - inversion HF as [|? ps ? ? HP HF']; subst. inversion HF'; subst. inversion HP as [|? found ? ? HO HP']; subst. inversion HP'; subst. clear HF HF' HP HP'.
    destruct HO as (e & b & v & out & He & [<-|[]] & _ & [K|[]] & Hn & HAg). injection He as <-. injection K as <-.
    change (valuesR 28 "generalstress" (map e_num (repeat (fz 0) 20 ++ repeat (fz 1) 20)) out) in Hn. rewrite e_record in Hn. destruct real_numbers as (R1 & R2 & R3 & R4).
    rewrite (values_unique 0%R 1%R Rplus Rmult Rminus Ropp Rdiv Rinv (sqrt 3) R1 R2 R3 R4 _ _ _ _ _ Hn (nv_quad8 _ _ _ _ _ _ _ _ e_field e_through)) in HAg.
    exists found. cbn [concat map] in E. rewrite !app_nil_r in E. split; [exact E|]. eapply f2_mono; [|exact HAg]. intros x y Hxy. eapply Rle_trans; [exact Hxy|]. cbn [el_typ tolerance Z.eqb Pos.eqb orb e_es].
    pose proof u1_size as U. pose proof low2_small. pose proof u2_u1. change (37 * (u1 * 1 + low1) <= 0.0000023)%R. assert (u1 <= / 16700000)%R; [|lra].
    unfold u1. pose proof (p2_add (-24) 24) as E24. change (-24 + 24) with 0 in E24. rewrite (p2_nat 24) in E24 by lia. change (p2 0) with 1%R in E24. change (2 ^ 24) with 16777216 in E24. lra.
Qed.
