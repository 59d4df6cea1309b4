(** * ElemMore: element results, stated without choices; a small data set. *)
From Coq Require Import Sorted.
From Verif Require Import Base Flt H5 Schema StoreSpec ParserSpec Data Struc StrucSpec ListFacts DataFacts StrucProofs StrucGet StrucRes Nd NdProofs Elem ElemSpec ElemResSpec ElemRes.
Open Scope string_scope.
Open Scope Z_scope.
Open Scope list_scope.
Open Scope monad_scope.

Lemma find_first {A} (f : A -> Z) (p : Z -> bool) (l : list A) x : NoDup (filter p (map f l)) -> In x l -> p (f x) = true -> find (fun y => f y =? f x) l = Some x.
Proof.
  intros Hnd Hx Hin. induction l as [|y l IH]; [destruct Hx|]. cbn [map filter find] in *. destruct (Z.eqb_spec (f y) (f x)) as [E|E].
  - destruct Hx as [->|Hx]; [reflexivity|]. exfalso. rewrite E, Hin in Hnd. inversion Hnd as [|? ? H1 H2]. apply H1. apply filter_In. split; [now apply in_map|exact Hin].
  - destruct Hx as [->|Hx]; [congruence|]. apply IH; [|exact Hx]. destruct (p (f y)); [now inversion Hnd|exact Hnd].
Qed.
Lemma find_firstn {A} (p : nat -> bool) (l : list (nat * A)) x : NoDup (map fst (filter (fun y => p (fst y)) l)) -> In x l -> p (fst x) = true -> find (fun y => Nat.eqb (fst y) (fst x)) l = Some x.
Proof.
  intros Hnd Hx Hin. induction l as [|y l IH]; [destruct Hx|]. cbn [filter find] in *. destruct (Nat.eqb_spec (fst y) (fst x)) as [E|E].
  - destruct Hx as [->|Hx]; [reflexivity|]. exfalso. rewrite E, Hin in Hnd. cbn [map] in Hnd. inversion Hnd as [|? ? H1 H2]. apply H1. rewrite E. apply in_map. apply filter_In. now split.
  - destruct Hx as [->|Hx]; [congruence|]. apply IH; [|exact Hx]. destruct (p (fst y)); [now inversion Hnd|exact Hnd].
Qed.
Lemma sorted_nodup l : StronglySorted lt l -> NoDup l.
Proof.
  induction 1 as [|x l Hs IH HF]; constructor; [|exact IH]. intro H. rewrite Forall_forall in HF. specialize (HF x H). lia.
Qed.
Section Stated.
  Context {F : Type}.
  Variables (process : Z -> string -> string -> list F -> Res (nd F)) (num : cell -> F).
  Notation get_elementresults := (get_elementresults_with num process).
  Hypothesis process_sizes : forall restype t len nn tail d, In (t, (len, nn, tail)) (elem_sizes restype) -> In restype (map fst result_kinds) -> length d = len ->
    exists a, process t restype "nodes" d = Ok a /\ n_shape a = nn :: tail /\ wf a.
  Theorem elementresults_stated_with h d ns es nms ms sets restype rn cn kind idx rs run cs arg sel bs f sh :
    d_open d = true -> mesh_in h (d_group d) ns es -> In (restype, (rn, cn, kind)) result_kinds ->
    proper h (d_group d) es nms ms sets kind -> selected es nms ms sets kind idx -> idx <> [] ->
    refs_in h (d_group d) rs -> cases_arg cs arg -> asked_refs run cs rs sel -> sel <> [] -> NoDup (map rf_ires sel) ->
    (forall r, In r sel -> rf_complex r = f) ->
    elemres_in h (d_group d) rn es bs ->
    filter (fun i => zmem i (map rf_ires sel)) (map fst bs) = map rf_ires sel ->
    (forall b, In b bs -> In (fst b) (map rf_ires sel) -> map fst (filter (fun ev => existsb (Nat.eqb (fst ev)) idx) (snd b)) = idx) ->
    (forall j e, In j idx -> nth_error es j = Some e -> exists len, In (el_typ e, (len, length (el_nodes e), sh)) (elem_sizes restype) /\
       forall b v, In b bs -> In (fst b) (map rf_ires sel) -> In (j, v) (snd b) -> exists w, numbers f v w /\ length w = len) ->
    exists parts : list (list (nd F)),
      get_elementresults h d restype "nodes" run arg sets =
        Ok (with_cases (length sel) (length (flat_map el_nodes (pick es idx)) :: sh) (flat_map (flat_map n_flat) parts)) /\
      Forall2 (fun r ps => Forall2 (fun j a => exists e b v w, nth_error es j = Some e /\ In b bs /\ fst b = rf_ires r /\ In (j, v) (snd b) /\ numbers f v w /\
        process (el_typ e) restype "nodes" (map num w) = Ok a /\ n_shape a = length (el_nodes e) :: sh /\ wf a) idx ps) sel parts.
  Proof using process_sizes.
    intros Ho HM HT HP HI Hne HRf HA HS Hsel Hnd Hreal HB Hord Heach Hty.
    set (val := fun (i : Z) (j : nat) => match find (fun b : eblock => fst b =? i) bs with
      | Some b => match find (fun ev => Nat.eqb (fst ev) j) (snd b) with Some ev => match (if f =? 0 then Ok (snd ev) else to_complex (snd ev)) with Ok w => w | Err _ => [] end | None => [] end | None => [] end).
    set (arr := fun i j => match nth_error es j with Some e => match process (el_typ e) restype "nodes" (map num (val i j)) with Ok a => a | Err _ => mkNd [] [] end | None => mkNd [] [] end).
    set (nn := fun j => match nth_error es j with Some e => length (el_nodes e) | None => 0%nat end).
    assert (Hmem : forall j, In j idx -> existsb (Nat.eqb j) idx = true). { intros j Hj. apply existsb_exists. exists j. split; [exact Hj|apply Nat.eqb_refl]. }
    assert (Hnone : NoDup idx) by (apply sorted_nodup, HI).
    assert (Hv : forall b ev w, In b bs -> In (fst b) (map rf_ires sel) -> In ev (snd b) -> In (fst ev) idx -> numbers f (snd ev) w -> val (fst b) (fst ev) = w).
    { intros b ev w Hb Hi He Hj Hw. unfold val. replace (find (fun b0 : eblock => fst b0 =? fst b) bs) with (Some b) by (symmetry; apply (find_first fst (fun i => zmem i (map rf_ires sel)) bs b); [rewrite Hord; exact Hnd|exact Hb|now apply zmem_spec]).
      rewrite (find_firstn (fun j => existsb (Nat.eqb j) idx) (snd b) ev); [|rewrite (Heach b Hb Hi); exact Hnone|exact He|now apply Hmem]. now rewrite (numbers_ok _ _ _ Hw). }
    assert (HJ : forall j, In j idx -> exists e, nth_error es j = Some e). { intros j Hj. apply HI in Hj as (e & He & _). eauto. }
    assert (HBl : forall i j, In i (map rf_ires sel) -> In j idx -> exists b v, In b bs /\ fst b = i /\ In (j, v) (snd b)).
    { intros i j Hi Hj. assert (Hi' : In i (map fst bs)). { rewrite <- Hord in Hi. now apply filter_In in Hi as [Hi _]. }
      apply in_map_iff in Hi' as (b & <- & Hb). rewrite <- (Heach b Hb Hi) in Hj. apply in_map_iff in Hj as ((j' & v) & <- & Hv'). apply filter_In in Hv' as [Hv' _]. exists b, v. auto. }
    assert (HK : In restype (map fst result_kinds)) by exact (in_map fst _ _ HT).
    assert (HAr : forall i j e, In i (map rf_ires sel) -> In j idx -> nth_error es j = Some e ->
       process (el_typ e) restype "nodes" (map num (val i j)) = Ok (arr i j) /\ n_shape (arr i j) = nn j :: sh /\ wf (arr i j)).
    { intros i j e Hi Hj He. destruct (HBl i j Hi Hj) as (b & v & Hb & <- & Hin). destruct (Hty j e Hj He) as (len & Hl & Hw). destruct (Hw b v Hb Hi Hin) as (w & Hn & Hlen).
      unfold arr, nn. rewrite He. rewrite (Hv b (j, v) w Hb Hi Hin Hj Hn : val (fst b) j = w).
      destruct (process_sizes restype _ _ _ _ (map num w) Hl HK) as (a & -> & A1 & A2); [now rewrite map_length|]. now split. }
    exists (map (fun r => map (fun j => arr (rf_ires r) j) idx) sel). split.
    - rewrite (elementresults_ok process num h d ns es Ho HM nms ms sets restype rn cn kind HT HP idx HI Hne rs run cs arg sel HRf HA HS bs HB Hord Hnd Hsel f Hreal Heach "nodes" val arr sh nn).
      + f_equal. f_equal.
        * f_equal. unfold pick, nn. clear. induction idx as [|j l IH]; [reflexivity|]. cbn [map fold_right flat_map]. rewrite flat_map_app, app_length, IH. destruct (nth_error es j); cbn [flat_map length]; rewrite ?app_nil_r; reflexivity.
        * clear. induction sel as [|r l IH]; [reflexivity|]. cbn [flat_map map]. f_equal; [|exact IH]. clear. induction idx as [|j l IH]; [reflexivity|]. cbn [flat_map map]. now rewrite IH.
      + intros b ev Hb Hi He Hj. destruct (HJ _ Hj) as (e & Hne'). destruct (Hty _ e Hj Hne') as (len & _ & Hw). destruct ev as [j v]. destruct (Hw b v Hb Hi He) as (w & Hn & _). cbn [fst snd]. rewrite (Hv b (j, v) w Hb Hi He Hj Hn : val (fst b) j = w). exact Hn.
      + exact HAr.
      + destruct idx as [|j l]; [congruence|]. destruct (HJ j (or_introl eq_refl)) as (e & He). destruct (Hty j e (or_introl eq_refl) He) as (len & Hl & _). clear -HK Hl.
        destruct HK as [<-|[<-|[<-|[]]]]; cbn [elem_sizes String.eqb Ascii.eqb Bool.eqb fst] in *; repeat destruct Hl as [E|Hl]; try destruct Hl; injection E as _ _ _ <-; eexists; (split; [reflexivity|lia]).
      + intros j Hj. destruct (HJ j Hj) as (e & He). destruct (Hty j e Hj He) as (len & Hl & _). unfold nn. rewrite He. revert Hl. generalize (length (el_nodes e)) as q. clear -HK. intros q Hl.
        destruct HK as [<-|[<-|[<-|[]]]]; cbn [elem_sizes String.eqb Ascii.eqb Bool.eqb fst] in *; repeat destruct Hl as [E|Hl]; try destruct Hl; injection E as _ _ <- _; lia.
    - assert (G : forall l, incl l sel -> Forall2 (fun r ps => Forall2 (fun j a => exists e b v w, nth_error es j = Some e /\ In b bs /\ fst b = rf_ires r /\ In (j, v) (snd b) /\ numbers f v w /\
        process (el_typ e) restype "nodes" (map num w) = Ok a /\ n_shape a = length (el_nodes e) :: sh /\ wf a) idx ps) l (map (fun r => map (fun j => arr (rf_ires r) j) idx) l)); [|apply G, incl_refl].
      induction l as [|r l IH]; intro Hl; [constructor|]. constructor; [|apply IH; intros x Hx; apply Hl; now right].
      assert (Hr : In (rf_ires r) (map rf_ires sel)) by (apply in_map, Hl; now left).
      assert (G : forall k, incl k idx -> Forall2 (fun j a => exists e b v w, nth_error es j = Some e /\ In b bs /\ fst b = rf_ires r /\ In (j, v) (snd b) /\ numbers f v w /\
        process (el_typ e) restype "nodes" (map num w) = Ok a /\ n_shape a = length (el_nodes e) :: sh /\ wf a) k (map (fun j => arr (rf_ires r) j) k)); [|apply G, incl_refl].
      induction k as [|j k IHk]; intro Hk; [constructor|]. constructor; [|apply IHk; intros x Hx; apply Hk; now right].
      assert (Hj : In j idx) by (apply Hk; now left). destruct (HJ j Hj) as (e & He). destruct (HBl _ j Hr Hj) as (b & v & Hb & Eb & Hin). assert (Hi : In (fst b) (map rf_ires sel)) by now rewrite Eb.
      destruct (Hty j e Hj He) as (len & _ & Hw). destruct (Hw b v Hb Hi Hin) as (w & Hn & _). exists e, b, v, w. split; [exact He|]. split; [exact Hb|]. split; [exact Eb|]. split; [exact Hin|]. split; [exact Hn|].
      destruct (HAr _ j e Hr Hj He) as (A1 & A2 & A3). rewrite <- Eb in A1 at 1. rewrite (Hv b (j, v) w Hb Hi Hin Hj Hn : val (fst b) j = w) in A1. unfold nn in A2. rewrite He in A2. auto.
  Qed.
End Stated.
Definition elementresults_stated {F : Type} (zero one : F) add mul sub opp div s3 num :=
  elementresults_stated_with (process zero one add mul sub opp div s3) num (process_sizes zero one add mul sub opp div s3).

(** The small structure of StrucSample with forces of both beams in two cases and
    stresses of the shell in one; and one with a thin and a thick shell. *)
From Verif Require Import StrucSample.
Definition z_nums (z : Z) (n : nat) : list cell := map (fun i => fz (z + Z.of_nat i)) (seq 0 n).
Definition z_forces : list eblock := [(1, [(0%nat, z_nums 100 18); (2%nat, z_nums 200 18)]); (3, [(0%nat, z_nums 300 18); (2%nat, z_nums 400 18)])].
Definition z_stress : list eblock := [(1, [(1%nat, z_nums 100 30)])].
Definition z_h : h5 := x_h ++ [
  tab w_x "RVFORCES" [map CI [25; 1; 1; 0; 15; 0; 18]; map CI [25; 1; 3; 0; 15; 18; 36]; map CI [25; 3; 1; 0; 15; 36; 54]; map CI [25; 3; 3; 0; 15; 54; 72]];
  arr1 w_x "RVFORCES" (z_nums 100 18 ++ z_nums 200 18 ++ z_nums 300 18 ++ z_nums 400 18);
  tab w_x "RVSTRESS" [map CI [37; 1; 2; 0; 24; 0; 30]];
  arr1 w_x "RVSTRESS" (z_nums 100 30)].
Definition zf : cell -> cell := fun c => c.
Definition op2 : cell -> cell -> cell := fun _ _ => CI 0.
(** forces and thin shell stresses need no arithmetic *)
Definition get_plain := get_elementresults (CI 0) (CI 1) op2 op2 op2 zf op2 (CI 0) zf.
Lemma z_mesh : mesh_in z_h w_x x_ns x_es.
Proof.
  split; [|split; [|split]].
  - eexists. split; [holds_|]. split; [reflexivity|]. apply nth_cases. repeat split; do 2 eexists; reflexivity.
  - eexists. split; [holds_|]. split; [reflexivity|]. apply nth_cases. repeat split.
  - eexists. split; [holds_|]. split; [reflexivity|]. apply nth_cases. repeat split; eexists; reflexivity.
  - repeat constructor; cbn; try discriminate; lia.
Qed.
Lemma z_has_refs : refs_in z_h w_x x_refs.
Proof. do 2 eexists. split; [holds_|]. repeat constructor; do 5 eexists; reflexivity. Qed.
Lemma z_has_forces : elemres_in z_h w_x "RVFORCES" x_es z_forces.
Proof.
  do 2 eexists. split; [holds_|]. unfold eflat. cbn [z_forces flat_map map app fst snd].
  repeat constructor; do 5 eexists; (split; [reflexivity|]); (split; [reflexivity|]); (split; [lia|split; [vm_compute; discriminate|reflexivity]]).
Qed.
Lemma z_has_stress : elemres_in z_h w_x "RVSTRESS" x_es z_stress.
Proof.
  do 2 eexists. split; [holds_|]. unfold eflat. cbn [z_stress flat_map map app fst snd].
  repeat constructor; do 5 eexists; (split; [reflexivity|]); (split; [reflexivity|]); (split; [lia|split; [vm_compute; discriminate|reflexivity]]).
Qed.
(** thin and thick *)
Definition v_ns : list mnode := map (fun i => mkNode (10 * i) [fz i; fz 0; fz 0]) [1; 2; 3; 4; 5; 6; 7; 8].
Definition v_es : list melem := [mkElem 101 24 [1; 2; 3; 4]; mkElem 102 28 [1; 2; 3; 4; 5; 6; 7; 8]].
Definition v_stress : list eblock := [(1, [(0%nat, z_nums 100 30); (1%nat, z_nums 200 40)])].
Definition v_h : h5 := [
  (w_x, Group [("RECORDS", AStrs ["GNODE"]); ("SELTYP", AInt (Some 1)); ("LEVEL", AStr "FIRSTLEVEL"); ("FILETYPE", AStr "T"); ("DATATYPE", AStr "STRUCTURAL")]);
  tab w_x "GNODE" (map (fun i => [CI (10 * i); CI i; CI 6; CI 123456]) [1; 2; 3; 4; 5; 6; 7; 8]);
  tab w_x "GCOORD" (map (fun i => [CI i; fz i; fz 0; fz 0]) [1; 2; 3; 4; 5; 6; 7; 8]);
  tab w_x "GELMNT1" [[CI 101; CI 1; CI 24; CI 0; CI 0; CI 4]; [CI 102; CI 2; CI 28; CI 0; CI 4; CI 12]];
  arr1 w_x "GELMNT1" (map CI [1; 2; 3; 4; 1; 2; 3; 4; 5; 6; 7; 8]);
  tab w_x "RDRESREF" [[CI 7; CI 1; CI 1; CI 5; CI 0; CI 0; CI 0; CI 0; CI 0]];
  arr1 w_x "RDRESREF" [];
  tab w_x "RVSTRESS" [map CI [37; 1; 1; 0; 24; 0; 30]; map CI [47; 1; 2; 0; 28; 30; 70]];
  arr1 w_x "RVSTRESS" (z_nums 100 30 ++ z_nums 200 40)].
Lemma v_mesh : mesh_in v_h w_x v_ns v_es.
Proof.
  split; [|split; [|split]].
  - eexists. split; [holds_|]. split; [reflexivity|]. apply nth_cases. repeat split; do 2 eexists; reflexivity.
  - eexists. split; [holds_|]. split; [reflexivity|]. apply nth_cases. repeat split.
  - eexists. split; [holds_|]. split; [reflexivity|]. apply nth_cases. repeat split; eexists; reflexivity.
  - repeat constructor; cbn; try discriminate; lia.
Qed.
Lemma v_has_refs : refs_in v_h w_x [mkRef 1 1 5 0].
Proof. do 2 eexists. split; [holds_|]. repeat constructor; do 5 eexists; reflexivity. Qed.
Lemma v_has_stress : elemres_in v_h w_x "RVSTRESS" v_es v_stress.
Proof.
  do 2 eexists. split; [holds_|]. unfold eflat. cbn [v_stress flat_map map app fst snd].
  repeat constructor; do 5 eexists; (split; [reflexivity|]); (split; [reflexivity|]); (split; [lia|split; [vm_compute; discriminate|reflexivity]]).
Qed.
(** The records of the first case in another order. *)
Definition p_h : h5 := map (fun e => if list_eq_dec string_dec (fst e) (tpath w_x "RVFORCES") then tab w_x "RVFORCES" [map CI [25; 1; 3; 0; 15; 18; 36]; map CI [25; 1; 1; 0; 15; 0; 18]] else e) z_h.
