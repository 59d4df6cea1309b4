(** * Props_Stress: property C84.

    Von Mises and principal stresses of a results file are accurate. *)
From Coq Require Import Reals Lra Sorted.
From Verif Require Import Base Flt H5 Schema StoreSpec ParserSpec FileSpec Data Struc StrucSpec DataFacts StrucProofs StrucGet StrucRes StrucExist StrucSample
  Nd NdProofs CalcSpec Elem ElemSpec ElemProofs ElemResSpec ElemRes ElemMore ElemValuesSpec ElemValuesProofs Props_Elem Props_ElemValues
  IeeeSpec IeeeFacts IeeeExists DotSpec CalcFloat ElemFloat ElemFloatSpec ElemFloatNum ElemFloatProofs Props_ElemFloat StressProofs StressBound.
Open Scope string_scope.
Open Scope Z_scope.
Open Scope list_scope.

(** The stresses of a place (sxx, syy, txy and perhaps more), exactly; and what is
    calculated for it: the von Mises stress and the two principal stresses.  [e]
    bounds the error of the stresses used. *)
Definition accurate (f : format) (e : R) (place : list R) (s : R * (R * R)) : Prop :=
  exists sxx syy txy more, place = sxx :: syy :: txy :: more /\ (snd (snd s) <= fst (snd s))%R /\
  forall p1 p2, eigenvalues2 sxx syy txy p1 p2 -> (p2 <= p1)%R ->
    let least := powerRZ 2 (f_low f / 2 + 3) in
    let vm := sqrt (p1 ^ 2 - p1 * p2 + p2 ^ 2) in let big := Rmax (Rabs p1) (Rabs p2) in
    (Rabs (fst s - vm) <= 5 * unit_of f * vm + 3 * e + least /\
     Rabs (fst (snd s) - p1) <= 6 * unit_of f * big + 3 * e + least /\ Rabs (snd (snd s) - p2) <= 6 * unit_of f * big + 3 * e + least)%R.
Definition pair (s : R * (R * R)) : list R := [fst (snd s); snd (snd s)].

Lemma eigen_sums sxx syy txy p1 p2 : eigenvalues2 sxx syy txy p1 p2 -> (p1 + p2 = sxx + syy /\ p1 * p2 = sxx * syy - txy * txy)%R.
Proof. intro H. pose proof (H 0%R) as H0. pose proof (H 1%R) as H1. split; lra. Qed.
Lemma max_parts p q : (q <= p -> Rabs ((p + q) / 2) + (p - q) / 2 = Rmax (Rabs p) (Rabs q))%R.
Proof. intro H. unfold Rmax. destruct (Rle_dec _ _) as [N|N]; unfold Rabs in *; repeat destruct (Rcase_abs _); lra. Qed.
Section One.
  Local Open Scope R_scope.
  Variable f : format.
  Hypothesis F : f = single \/ f = double.
  Notation B := (p2 56).
  Notation u := (unit_of f).
  Notation eta := (/ 2 * p2 (f_low f)).
  Local Lemma f1 : (1 < f_prec f)%Z. Proof using F. destruct F as [-> | ->]; reflexivity. Qed.
  Local Lemma f2 : (f_low f + f_prec f < f_high f)%Z. Proof using F. destruct F as [-> | ->]; reflexivity. Qed.
  Local Lemma f3 : u <= / 1000000.
  Proof using F.
    apply Rle_trans with (p2 (-20)); [unfold unit_of; apply p2_le; destruct F as [-> | ->]; cbn; lia|]. change (p2 (-20)) with (/ p2 20). rewrite p2_nat by lia. apply Rinv_le_contravar; [lra|]. apply IZR_le. cbv. discriminate.
  Qed.
  Local Lemma f4 : eta <= / 100000000 * u.
  Proof using F.
    assert (K : p2 (f_low f) * p2 30 <= u) by (rewrite <- p2_add; unfold unit_of; apply p2_le; destruct F as [-> | ->]; cbn; lia). rewrite (p2_nat 30) in K by lia. change (IZR (2 ^ 30)) with 1073741824 in K. pose proof (p2_pos (f_low f)). lra.
  Qed.
  Local Lemma f5 : 40 * (B * B) + 40 < p2 (f_high f - 1).
  Proof using F.
    rewrite <- p2_add. change (56 + 56)%Z with 112%Z. apply Rlt_le_trans with (p2 120); [|apply p2_le; destruct F as [-> | ->]; cbn; lia]. replace 120%Z with (112 + 8)%Z by reflexivity. rewrite p2_add, (p2_nat 8) by lia. change (IZR (2 ^ 8)) with 256. pose proof (p2_ge1 112 ltac:(lia)). lra.
  Qed.
  Local Lemma f6 : 5 * sqrt eta <= p2 (f_low f / 2 + 3).
  Proof using F.
    replace (f_low f / 2 + 3)%Z with (f_low f / 2 + 1 + 1 + 1)%Z by lia. rewrite !p2_S. enough (sqrt eta <= p2 (f_low f / 2)) by (pose proof (p2_pos (f_low f / 2)); lra).
    pose proof (p2_pos (f_low f / 2)) as P. rewrite <- (sqrt_square (p2 (f_low f / 2))) by lra. apply sqrt_le_1; [pose proof (p2_pos (f_low f)); lra|apply Rmult_le_pos; lra|]. rewrite <- p2_add.
    destruct F as [-> | ->]; cbn [f_low single double].
    - replace (-149)%Z with (-149 / 2 + -149 / 2 + 1)%Z at 1 by reflexivity. rewrite p2_S. lra.
    - replace (-1074)%Z with (-1074 / 2 + -1074 / 2)%Z at 1 by reflexivity. set (q := p2 (-1074 / 2 + -1074 / 2)). assert (0 < q) by apply p2_pos. lra.
  Qed.
  Variable rnd : R -> R.
  Hypothesis RN : rounds f rnd.
  Lemma one_accurate e x y t more x' y' t' : 0 <= e -> Rabs (x' - x) <= e -> Rabs (y' - y) <= e -> Rabs (t' - t) <= e -> Rabs x' <= B -> Rabs y' <= B -> Rabs t' <= B ->
    let part1 := fdiv rnd (fadd rnd x' y') 2 in let part2 := fmul rnd (/ 2) (fsqrt rnd (fadd rnd (fsq rnd (fsub rnd x' y')) (fmul rnd 4 (fsq rnd t')))) in
    accurate f e (x :: y :: t :: more) (fsqrt rnd (fadd rnd (fsub rnd (fadd rnd (fsq rnd x') (fsq rnd y')) (fmul rnd x' y')) (fmul rnd 3 (fsq rnd t'))), (fadd rnd part1 part2, fsub rnd part1 part2)).
  Proof using F RN.
    intros E X Y T BX BY BT part1 part2. exists x, y, t, more. split; [reflexivity|]. cbn [fst snd].
    pose proof (vm_rounded f rnd B f1 f2 RN f3 f4 f5 x' y' t' BX BY BT) as V. destruct (principal_rounded f rnd B f1 f2 RN f3 f4 f5 x' y' t' BX BY BT) as (Q1 & Q2 & Q3). split; [exact Q3|]. fold part1 part2 in Q1, Q2.
    intros p1 q2 HE LE. destruct (eigen_sums _ _ _ _ _ HE) as [S P]. pose proof f6 as LST. pose proof f3 as U3. assert (U0 : 0 < u) by apply p2_pos. cbv zeta.
    pose proof (vm_lipschitz x y t x' y' t' e X Y T) as LV. pose proof (dev_lipschitz x y t x' y' t' e X Y T) as LD.
    replace (p1 ^ 2 - p1 * q2 + q2 ^ 2) with (vm2 x y t); [|unfold vm2; replace (p1 ^ 2 - p1 * q2 + q2 ^ 2) with ((p1 + q2) * (p1 + q2) - 3 * (p1 * q2)) by ring; rewrite S, P; ring].
    assert (ED : sqrt (dev2 x y t) = p1 - q2).
    { unfold dev2. replace ((x - y) * (x - y) + 4 * (t * t)) with ((p1 - q2) * (p1 - q2)); [apply sqrt_square; lra|]. replace ((p1 - q2) * (p1 - q2)) with ((p1 + q2) * (p1 + q2) - 4 * (p1 * q2)) by ring. rewrite S, P. ring. }
    assert (UE : 0 <= u * e <= 0.000001 * e) by (split; [apply Rmult_le_pos; lra|apply Rmult_le_compat_r; lra]).
    split.
    - set (v := sqrt (vm2 x y t)) in *. set (v' := sqrt (vm2 x' y' t')) in *. assert (L : v' <= v + 2.45 * e) by (apply abs_sq in LV; lra). assert (u * v' <= u * (v + 2.45 * e)) by (apply Rmult_le_compat_l; lra).
      match type of V with Rabs (?a - _) <= _ => replace (a - v) with ((a - v') + (v' - v)) by ring end. apply Rle_trans with (1 := Rabs_triang _ _). lra.
    - set (m := (x + y) / 2). set (m' := (x' + y') / 2) in *. rewrite ED in LD. set (r' := sqrt (dev2 x' y' t')) in *. apply abs_sq in X. apply abs_sq in Y. apply abs_sq in LD.
      assert (ML : - e <= m' - m <= e) by (unfold m, m'; lra). assert (E1 : p1 = m + (p1 - q2) / 2) by (unfold m; lra). assert (E2 : q2 = m - (p1 - q2) / 2) by (unfold m; lra).
      assert (EM : Rabs m + (p1 - q2) / 2 = Rmax (Rabs p1) (Rabs q2)) by (unfold m; rewrite <- S; now apply max_parts).
      rewrite <- EM. assert (MM : Rabs m' <= Rabs m + e). { replace m' with (m + (m' - m)) by ring. apply Rle_trans with (1 := Rabs_triang _ _). assert (Rabs (m' - m) <= e) by (apply Rabs_le; lra). lra. }
      assert (UL : u * (Rabs m' + r' / 2) <= u * (Rabs m + (p1 - q2) / 2 + 2.42 * e)) by (apply Rmult_le_compat_l; lra).
      assert (D1 : Rabs (m' + r' / 2 - p1) <= 2.42 * e) by (apply Rabs_le; lra). assert (D2 : Rabs (m' - r' / 2 - q2) <= 2.42 * e) by (apply Rabs_le; lra).
      split; [replace (fadd rnd part1 part2 - p1) with ((fadd rnd part1 part2 - (m' + r' / 2)) + (m' + r' / 2 - p1)) by ring|replace (fsub rnd part1 part2 - q2) with ((fsub rnd part1 part2 - (m' - r' / 2)) + (m' - r' / 2 - q2)) by ring]; apply Rle_trans with (1 := Rabs_triang _ _); lra.
  Qed.
End One.

(** Arrays whose entries are known up to [e], of whatever size below overflow. *)
Theorem C84_arrays : forall f rnd e exact arr, f = single \/ f = double -> rounds f rnd -> (0 <= e)%R ->
  Forall2 (agree e) exact arr -> Forall (fun p => (3 <= length p)%nat /\ Forall (fun x => Rabs x <= powerRZ 2 56)%R p) arr ->
  exists res, vonmises2d_fl rnd arr = Ok (map fst res) /\ principal2d_fl rnd arr = Ok (map pair res) /\ Forall2 (accurate f e) exact res.
Proof.
  intros f rnd e exact arr F RN E H. unfold vonmises2d_fl, principal2d_fl. induction H as [|p q l l' A H IH]; intro W; [exists []; repeat split; constructor|]. inversion W as [|? ? [L O] W']; subst.
  destruct (IH W') as (res & E1 & E2 & HF). destruct A as [|x x' p q AX A]; [cbn in L; lia|]. destruct A as [|y y' p q AY A]; [cbn in L; lia|]. destruct A as [|t t' p q AT A]; [cbn in L; lia|].
  inversion O as [|? ? OX O1]; subst. inversion O1 as [|? ? OY O2]; subst. inversion O2 as [|? ? OT _]; subst.
  pose proof (one_accurate f F rnd RN e x y t p x' y' t' E AX AY AT OX OY OT) as K. cbv zeta in K. match type of K with accurate _ _ _ ?s => exists (s :: res) end.
  cbn [rmap]. unfold vonmises2d_fl_at at 1, principal2d_fl_at at 1. unfold comp. cbn [nth_error rbind]. rewrite E1, E2. cbn [rbind map]. split; [reflexivity|]. split; [reflexivity|]. now constructor.
Qed.
Print Assumptions C84_arrays.
(** The number whose root vonmises2d takes (vonmises.py:22), as rounded, is never
    negative although terms cancel: there is no NaN. *)
Theorem C84_root : forall f rnd sxx syy txy, f = single \/ f = double -> rounds f rnd ->
  (Rabs sxx <= powerRZ 2 56 -> Rabs syy <= powerRZ 2 56 -> Rabs txy <= powerRZ 2 56 ->
   0 <= rnd (rnd (rnd (rnd (sxx * sxx) + rnd (syy * syy)) - rnd (sxx * syy)) + rnd (3 * rnd (txy * txy))))%R.
Proof. intros f rnd x y t F RN X Y T. exact (proj2 (vm_under f rnd (powerRZ 2 56) (f1 f F) (f2 f F) RN (f3 f F) (f4 f F) (f5 f F) x y t X Y T)). Qed.
Print Assumptions C84_root.
Example C84_root_case : rounds single (ieee single) /\
  (0 <= ieee single (ieee single (ieee single (ieee single (0.1 * 0.1) + ieee single (0.1 * 0.1)) - ieee single (0.1 * 0.1)) + ieee single (3 * ieee single (0 * 0))))%R.
Proof.
  assert (R : rounds single (ieee single)) by (apply ieee_rounds; reflexivity). split; [exact R|]. assert (0.1 <= powerRZ 2 56)%R by (pose proof (p2_ge1 56 ltac:(lia)); lra).
  apply (C84_root single (ieee single) 0.1 0.1 0); auto; rewrite Rabs_right; lra.
Qed.

(** What is calculated for a list of places, each with [k] components. *)
Definition calculated (rnd : R -> R) (k : nat) (pts : list (list R)) (res : list (R * (R * R))) : Prop :=
  Forall (fun p => length p = k) pts /\ vonmises2d_fl rnd pts = Ok (map fst res) /\ principal2d_fl rnd pts = Ok (map pair res).
Lemma rmap_app {A B} (g : A -> Res B) l l' r r' : rmap g l = Ok r -> rmap g l' = Ok r' -> rmap g (l ++ l') = Ok (r ++ r').
Proof.
  revert r. induction l as [|a l IH]; intros r E E'; [injection E as <-; exact E'|]. cbn [rmap app] in *. destruct (g a) as [x|x]; [|discriminate E]. destruct (rmap g l) as [y|y]; [|discriminate E]. injection E as <-. now rewrite (IH y eq_refl E').
Qed.
Lemma calculated_app rnd k p p' r r' : calculated rnd k p r -> calculated rnd k p' r' -> calculated rnd k (p ++ p') (r ++ r').
Proof. intros (A & B & C) (A' & B' & C'). split; [now apply Forall_app|]. rewrite !map_app. split; now apply rmap_app. Qed.
Lemma calculated_nil rnd k : calculated rnd k [] [].
Proof. repeat split; constructor. Qed.
(** One element. *)
Lemma agree_split e k (pts : list (list R)) : forall exact, agree e exact (concat pts) -> Forall (fun p => length p = k) pts ->
  exists places, exact = concat places /\ Forall (fun p => length p = k) places /\ Forall2 (agree e) places pts.
Proof.
  induction pts as [|p pts IH]; intros exact A F; [inversion A; exists []; repeat split; constructor|]. inversion F; subst. cbn [concat] in A. apply Forall2_app_inv_r in A as (x & y & A1 & A2 & ->).
  destruct (IH y A2 H2) as (pl & -> & F1 & F2). exists (x :: pl). split; [reflexivity|]. split; [constructor; [exact (f2_length _ _ _ A1)|exact F1]|]. now constructor.
Qed.
Lemma sizes_three t len nn sh : In (t, (len, nn, sh)) (elem_sizes "generalstress") -> (3 <= last sh 0)%nat /\ exists m, size (nn :: sh) = (m * last sh 0)%nat.
Proof.
  cbn [elem_sizes String.eqb Ascii.eqb Bool.eqb]. intros [E|[E|[E|[E|[]]]]]; injection E as <- <- <- <-; (split; [cbn; lia|]); [exists 8%nat|exists 6%nat|exists 12%nat|exists 16%nat]; reflexivity.
Qed.
Lemma tol_small t M : (0 <= M <= powerRZ 2 50)%R -> (0 <= tolerance t "generalstress" M <= powerRZ 2 50)%R.
Proof.
  intros [M0 M1]. unfold tolerance. assert (P1 : (0 < powerRZ 2 (-24) <= / 1000000)%R). { split; [apply p2_pos|]. apply Rle_trans with (p2 (-20)); [apply p2_le; lia|]. change (p2 (-20)) with (/ p2 20)%R. rewrite p2_nat by lia. apply Rinv_le_contravar; [lra|]. apply IZR_le. cbv. discriminate. }
  assert (P2 : forall n, (n <= -24)%Z -> (0 < powerRZ 2 n <= / 1000000)%R) by (intros n H; split; [apply p2_pos|apply Rle_trans with (p2 (-24)); [now apply p2_le|apply P1]]).
  pose proof (p2_ge1 50 ltac:(lia)) as P3. destruct (P2 (-149)%Z ltac:(lia)). destruct (P2 (-53)%Z ltac:(lia)). destruct (P2 (-1074)%Z ltac:(lia)).
  assert (Q : forall a, (0 < a <= / 1000000 -> 0 <= a * M <= / 1000000 * powerRZ 2 50)%R) by (intros a Ha; split; [apply Rmult_le_pos; lra|apply Rmult_le_compat; lra]).
  destruct (Q (powerRZ 2 (-24)) P1). destruct (Q (powerRZ 2 (-53)) ltac:(auto)). destruct (_ || _)%bool; [lra|]. destruct (_ || _)%bool; lra.
Qed.
Lemma one_element rs0 rd ra dot f rnd M t len nn sh w out found : numpy rs0 rd ra dot -> f = single \/ f = double -> rounds f rnd -> (0 <= M <= powerRZ 2 50)%R ->
  In (t, (len, nn, sh)) (elem_sizes "generalstress") -> length w = len -> Forall (fun x => Rabs x <= M)%R w ->
  valuesR t "generalstress" w out -> agree (tolerance t "generalstress" M) out found ->
  exists places pts s, out = concat places /\ found = concat pts /\ Forall (fun p => length p = last sh 0%nat) places /\ calculated rnd (last sh 0%nat) pts s /\
    Forall2 (accurate f (tolerance t "generalstress" M)) places s.
Proof.
  intros HN F RN HM HI HL HW HV HA. assert (HM' : (0 <= M <= powerRZ 2 100)%R) by (split; [lra|]; apply Rle_trans with (powerRZ 2 50); [lra|apply p2_le; lia]).
  destruct (C69_record rs0 rd ra dot _ _ _ _ M HN HV HW HM') as (b & Eb & Ab).
  destruct (process_fl_sizes rs0 rd ra dot "generalstress" t len nn sh w HI ltac:(cbn; tauto) HL) as (b' & Eb' & Sb & Wb). rewrite Eb in Eb'. injection Eb' as <-. unfold wf in Wb. rewrite Sb in Wb.
  destruct (sizes_three _ _ _ _ HI) as (H3 & m & Hm). assert (LF : length found = (m * last sh 0)%nat) by (rewrite <- Hm, <- Wb; rewrite <- (f2_length _ _ _ Ab); symmetry; exact (f2_length _ _ _ HA)).
  destruct (split_rows _ _ found LF) as (pts & _ & FP & ->). destruct (agree_split _ _ pts out HA FP) as (places & -> & FPl & F2).
  destruct (tol_small t M HM) as [T0 T1].
  assert (WI : Forall (fun y => Rabs y <= 6 * M)%R (concat places)).
  { destruct HN as (HS & HD & HAr & _). apply (values_within rs0 rd ra HD (good_single _ HS)) with (t := t) (w := w); try assumption; [destruct HAr as [-> | ->]; [now apply good_single|now apply good_weak, good_double]|lra|apply small_enough; lra]. }
  assert (WF : Forall (fun y => Rabs y <= powerRZ 2 56)%R (concat pts)).
  { replace 56 with (50 + 6) by reflexivity. rewrite p2_add, (p2_nat 6) by lia. change (IZR (2 ^ 6)) with 64%R. clear - HA WI T1 HM. unfold agree in HA. induction HA as [|x y l l' A HA IH]; [constructor|]. inversion WI; subst. constructor; [|now apply IH].
    replace y with ((y - x) + x)%R by ring. apply Rle_trans with (1 := Rabs_triang _ _). lra. }
  destruct (C84_arrays f rnd (tolerance t "generalstress" M) places pts F RN T0 F2) as (s & E1 & E2 & HF).
  { clear - FP WF H3. induction FP as [|p l E FP IH]; [constructor|]. cbn [concat] in WF. apply Forall_app in WF as [W1 W2]. constructor; [split; [lia|exact W1]|now apply IH]. }
  exists places, pts, s. repeat split; auto.
Qed.

(** The stresses of a data set at the nodes ("generalstress"), handed to the functions
    for von Mises and principal stresses: place by place, in the order of the array,
    what comes out is that of the exact field of the record (C65), up to errors
    bounded by the tolerances of C69 and the rounding of the precision used. *)
Theorem C84_results : forall rs0 rd ra dot f rnd M (num : cell -> R) h d ns es nms ms sets idx rs run cs arg sel bs sh,
  numpy rs0 rd ra dot -> f = single \/ f = double -> rounds f rnd -> (0 <= M <= powerRZ 2 50)%R ->
  d_open d = true -> mesh_in h (d_group d) ns es ->
  proper h (d_group d) es nms ms sets "shell" -> selected es nms ms sets "shell" idx -> idx <> [] ->
  refs_in h (d_group d) rs -> cases_arg cs arg -> asked_refs run cs rs sel -> sel <> [] -> NoDup (map rf_ires sel) ->
  (forall r, In r sel -> rf_complex r = 0) ->
  elemres_in h (d_group d) "RVSTRESS" es bs ->
  filter (fun i => zmem i (map rf_ires sel)) (map fst bs) = map rf_ires sel ->
  (forall b, In b bs -> In (fst b) (map rf_ires sel) -> map fst (filter (fun ev => existsb (Nat.eqb (fst ev)) idx) (snd b)) = idx) ->
  (forall j e, In j idx -> nth_error es j = Some e -> exists len, In (el_typ e, (len, length (el_nodes e), sh)) (elem_sizes "generalstress") /\
     forall b v, In b bs -> In (fst b) (map rf_ires sel) -> In (j, v) (snd b) -> length v = len) ->
  (forall b j v c, In b bs -> In (j, v) (snd b) -> In c v -> Rabs (num c) <= M)%R ->
  exists pts per,
    get_elementresults_fl rs0 rd ra dot num h d "generalstress" "nodes" run arg sets =
      Ok (with_cases (length sel) (length (flat_map el_nodes (pick es idx)) :: sh) (concat pts)) /\
    calculated rnd (last sh 0%nat) pts (concat (map (@concat _) per)) /\
    Forall2 (fun r pr => Forall2 (fun j s => exists e b v places, nth_error es j = Some e /\ In b bs /\ fst b = rf_ires r /\ In (j, v) (snd b) /\
      valuesR (el_typ e) "generalstress" (map num v) (concat places) /\ Forall (fun p => length p = last sh 0%nat) places /\
      Forall2 (accurate f (tolerance (el_typ e) "generalstress" M)) places s) idx pr) sel per.
Proof.
  intros rs0 rd ra dot f rnd M num h d ns es nms ms sets idx rs run cs arg sel bs sh HN F RN HM0 Ho HM HP HI Hne HRf HA HS Hsel Hnd Hc HB Hord Heach Hty Hbig.
  assert (HM' : (0 <= M <= powerRZ 2 100)%R) by (split; [lra|]; apply Rle_trans with (powerRZ 2 50); [lra|apply p2_le; lia]).
  destruct (C69_results rs0 rd ra dot M num h d ns es nms ms sets "generalstress" "RVSTRESS" "stress" "shell" idx rs run cs arg sel bs sh HN HM' Ho HM (or_intror (or_introl eq_refl)) HP HI Hne HRf HA HS Hsel Hnd Hc HB Hord Heach Hty Hbig) as (parts & E & HF).
  enough (K : exists pts per, concat (map (@concat R) parts) = concat pts /\ calculated rnd (last sh 0%nat) pts (concat (map (@concat _) per)) /\
    Forall2 (fun r pr => Forall2 (fun j s => exists e b v places, nth_error es j = Some e /\ In b bs /\ fst b = rf_ires r /\ In (j, v) (snd b) /\
      valuesR (el_typ e) "generalstress" (map num v) (concat places) /\ Forall (fun p => length p = last sh 0%nat) places /\
      Forall2 (accurate f (tolerance (el_typ e) "generalstress" M)) places s) idx pr) sel per) by (destruct K as (pts & per & K1 & K2 & K3); exists pts, per; rewrite <- K1; auto).
  clear E. assert (HR : forall r, In r sel -> In (rf_ires r) (map rf_ires sel)) by (intros r Hr; now apply in_map).
  assert (ONE : forall js found1, (forall j, In j js -> In j idx) -> forall r, In r sel ->
    Forall2 (fun j found => exists e b v out, nth_error es j = Some e /\ In b bs /\ fst b = rf_ires r /\ In (j, v) (snd b) /\
      valuesR (el_typ e) "generalstress" (map num v) out /\ agree (tolerance (el_typ e) "generalstress" M) out found) js found1 ->
    exists pts pr, concat found1 = concat pts /\ calculated rnd (last sh 0%nat) pts (concat pr) /\
      Forall2 (fun j s => exists e b v places, nth_error es j = Some e /\ In b bs /\ fst b = rf_ires r /\ In (j, v) (snd b) /\
      valuesR (el_typ e) "generalstress" (map num v) (concat places) /\ Forall (fun p => length p = last sh 0%nat) places /\
      Forall2 (accurate f (tolerance (el_typ e) "generalstress" M)) places s) js pr).
  { intros js found1 Hj r Hr H. induction H as [|j found js found1 HH H IH]; [exists [], []; repeat split; constructor|]. destruct IH as (pts & pr & I1 & I2 & I3); [intros j' Hj'; apply Hj; now right|].
    destruct HH as (e & b & v & out & He & Hb & Hi & Hv & HV & HAg). destruct (Hty j e (Hj j (or_introl eq_refl)) He) as (len & Hin & Hlen). assert (L : length v = len) by (apply (Hlen b); [exact Hb|rewrite Hi; now apply HR|exact Hv]).
    destruct (one_element rs0 rd ra dot f rnd M _ _ _ _ (map num v) out found HN F RN HM0 Hin ltac:(now rewrite map_length)) as (places & pts1 & s & -> & -> & FP & HC & HAc); try assumption.
    { apply Forall_forall. intros y Hy. apply in_map_iff in Hy as (c & <- & Hc'). exact (Hbig b j v c Hb Hv Hc'). }
    exists (pts1 ++ pts), (s :: pr). cbn [concat]. split; [now rewrite concat_app, I1|]. split; [now apply calculated_app|]. constructor; [|exact I3]. exists e, b, v, places. repeat split; assumption. }
  match goal with |- exists pts per, _ /\ _ /\ Forall2 ?Q _ _ => set (Q0 := Q) end. match type of HF with Forall2 ?Q _ _ => set (Q1 := Q) in HF end.
  enough (G : forall l, (forall r, In r l -> In r sel) -> Forall2 Q1 l parts -> exists pts per, concat (map (@concat R) parts) = concat pts /\ calculated rnd (last sh 0%nat) pts (concat (map (@concat _) per)) /\ Forall2 Q0 l per) by (apply G; auto).
  clear HF. intros l SUB HF. induction HF as [|r ps l parts HH HF IH]; [exists [], []; repeat split; constructor|].
  destruct IH as (pts & per & I1 & I2 & I3). { intros r' Hr'. apply SUB. now right. } destruct (ONE idx ps (fun j H => H) r (SUB r (or_introl eq_refl)) HH) as (pts1 & pr & J1 & J2 & J3).
  exists (pts1 ++ pts), (pr :: per). cbn [map concat]. split; [now rewrite concat_app, I1, J1|]. split; [now apply calculated_app|]. now constructor.
Qed.
Print Assumptions C84_results.

(** The eight-node shell of C65, in single precision: the first place has the stresses
    [s, s, s] with s = (1 - sqrt 3) / 2, hence the von Mises stress sqrt 3 - 1 and the
    principal stresses 0 and 1 - sqrt 3. *)
Example C84_case : exists pts vm pr,
  get_elementresults_fl (ieee single) (ieee double) (ieee double) machine_dot e_num e_h x_d "generalstress" "nodes" 1 (OneCase 5) [] = Ok (mkNd [8; 2; 5]%nat (concat pts)) /\
  vonmises2d_fl (ieee single) pts = Ok vm /\ principal2d_fl (ieee single) pts = Ok pr /\
  exists v p1 p2 vms prs, vm = v :: vms /\ pr = [p1; p2] :: prs /\
    (Rabs (v - (sqrt 3 - 1)) <= 0.00001 /\ Rabs p1 <= 0.00001 /\ Rabs (p2 - (1 - sqrt 3)) <= 0.00001)%R.
Proof.
  destruct (C84_results (ieee single) (ieee double) (ieee double) machine_dot single (ieee single) 1%R e_num e_h x_d v_ns e_es [] [] [] [0]%nat
    [mkRef 1 1 5 0] 1 (Some [5]) (OneCase 5) [mkRef 1 1 5 0] e_stress [2; 5]%nat) as (pts & per & E & (HC & C1 & C2) & HF).
  - apply C69_numpy.
  - now left.
  - apply ieee_rounds; reflexivity.
  - split; [lra|]. apply (p2_ge1 50). lia.
  - reflexivity.
  - exact e_mesh.
  - apply properb_spec; [intro K; congruence|vm_compute; reflexivity|cbn; tauto].
  - selz.
  - discriminate.
  - exact e_has_refs.
  - right. eexists. split; reflexivity.
  - repeat (first [apply sub_nil | apply sub_in; [split; [reflexivity|cbn; tauto]|] | apply sub_out; [intros [H1 H2]; vm_compute in H1, H2; intuition congruence|]]).
  - discriminate.
  - repeat constructor; cbn; intuition congruence.
  - intros r [<-|[]]; reflexivity.
  - exact e_has_stress.
  - reflexivity.
  - intros b [<-|[]] _; reflexivity.
  - intros j e [<-|[]] E; injection E as <-. exists 40%nat. split; [cbn; tauto|]. intros b v [<-|[]] _ [K|[]]. injection K as <-. reflexivity.
  - intros b j v c [<-|[]] [K|[]] Hc. injection K as <- <-. change (In c (repeat (fz 0) 20 ++ repeat (fz 1) 20)) in Hc. apply in_app_or in Hc as [Hc|Hc]; apply repeat_spec in Hc; subst c.
    + change (e_num (fz 0)) with 0%R. rewrite Rabs_R0. lra.
    + replace (e_num (fz 1)) with 1%R; [rewrite Rabs_right; lra|]. change (e_num (fz 1)) with (1 * 1 * 1)%R. ring.
  - inversion HF as [|? ps ? ? HP HF']; subst. inversion HF'; subst. inversion HP as [|? s ? ? HO HP']; subst. inversion HP'; subst. clear HF HF' HP HP'.
    destruct HO as (e & b & v & places & He & [<-|[]] & _ & [K|[]] & Hn & HL & HAc). injection He as <-. injection K as <-.
    change (valuesR 28 "generalstress" (map e_num (repeat (fz 0) 20 ++ repeat (fz 1) 20)) (concat places)) in Hn. rewrite e_record in Hn. destruct real_numbers as (R1 & R2 & R3 & R4).
    pose proof (values_unique 0%R 1%R Rplus Rmult Rminus Ropp Rdiv Rinv (sqrt 3) R1 R2 R3 R4 _ _ _ _ _ Hn (nv_quad8 _ _ _ _ _ _ _ _ e_field e_through)) as EP.
    exists pts. do 2 eexists. split; [exact E|]. split; [exact C1|]. split; [exact C2|]. cbn [map concat]. rewrite !app_nil_r.
    destruct HAc as [|p [w [q1 q2]] places s HA HAc]; [discriminate EP|]. cbn [map pair fst snd]. do 5 eexists. split; [reflexivity|]. split; [reflexivity|].
    destruct HA as (sxx & syy & txy & mre & -> & _ & HA). cbn [concat app seq flat_map map] in EP. injection EP as -> -> -> _. cbn [fst snd] in HA.
    pose proof (sqrt_sqrt 3 ltac:(lra)) as S2. pose proof (sqrt_pos 3) as S0. assert (S1 : (1 < sqrt 3 < 2)%R) by (split; apply Rsqr_incrst_0; unfold Rsqr; lra).
    set (r := sqrt 3) in *. destruct (HA 0%R (1 - r)%R) as (H1 & H2 & H3).
    { intro x. unfold e_field in *. fold r. field. }
    { lra. }
    replace (0 ^ 2 - 0 * (1 - r) + (1 - r) ^ 2)%R with ((r - 1) * (r - 1))%R in H1 by ring. rewrite sqrt_square in H1 by lra.
    replace (Rmax (Rabs 0) (Rabs (1 - r))) with (r - 1)%R in H2, H3 by (rewrite Rabs_R0, Rabs_left, Rmax_right; lra). rewrite Rminus_0_r in H2.
    change (unit_of single) with (p2 (-24)) in *. change (f_low single / 2 + 3) with (-72) in *. cbn [el_typ tolerance Z.eqb Pos.eqb orb e_es] in *.
    assert (U : (0 < p2 (-24) <= / 16777216)%R). { split; [apply p2_pos|]. change (p2 (-24)) with (/ p2 24)%R. rewrite p2_nat by lia. apply Rle_refl. }
    assert (V : forall n, n <= -48 -> (0 < p2 n <= / 16777216 * / 16777216)%R). { intros n Hn'. split; [apply p2_pos|]. apply Rle_trans with (p2 (-48)); [now apply p2_le|]. replace (-48) with (-24 + -24) by reflexivity. rewrite p2_add. apply Rmult_le_compat; lra. }
    pose proof (V (-149) ltac:(lia)) as V1. pose proof (V (-72) ltac:(lia)) as V2.
    assert (UR : (0 <= p2 (-24) * (r - 1) <= / 16777216 * 1)%R) by (split; [apply Rmult_le_pos|apply Rmult_le_compat]; lra).
    clear - H1 H2 H3 U UR V1 V2. rewrite (Rmult_assoc 5) in H1. rewrite (Rmult_assoc 6) in H2, H3. generalize dependent (p2 (-24) * (r - 1))%R. intros m. generalize dependent (p2 (-24)). intros a. generalize dependent (p2 (-149)). intros b. generalize dependent (p2 (-72)). intros c. intros. split; [|split]; [eapply Rle_trans; [exact H1|]|eapply Rle_trans; [exact H2|]|eapply Rle_trans; [exact H3|]]; clear H1 H2 H3; lra.
Qed.
