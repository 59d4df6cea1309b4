(** * Props_ElemValues: property C65.

    Exact arithmetic, as in Props_Elem. *)
From Coq Require Import Field_theory Reals Lra Sorted.
From Verif Require Import Base Flt H5 Schema StoreSpec ParserSpec FileSpec Data Struc StrucSpec DataFacts StrucProofs StrucGet StrucRes StrucExist StrucSample
  Nd NdProofs Elem ElemSpec ElemProofs ElemResSpec ElemRes ElemMore ElemValuesSpec ElemValuesProofs Props_Elem SaysSpec SaysGives.
Open Scope string_scope.
Open Scope Z_scope.
Open Scope list_scope.

(** Every record of the length its element type asks for belongs to a field of the
    kind, and the numbers at the nodes do not depend on which. *)
Theorem C65_field : forall (F : Type) (zero one : F) add mul sub opp div inv s3 restype t len nn tail w, numbers_with_root3 zero one add mul sub opp div inv s3 ->
  In (t, (len, nn, tail)) (elem_sizes restype) -> In restype (map fst result_kinds) -> length w = len ->
  exists out, node_values zero one add mul sub opp div s3 t restype w out /\
    forall out', node_values zero one add mul sub opp div s3 t restype w out' -> out' = out.
Proof.
  intros F zero one add mul sub opp div inv s3 restype t len nn tail w (H & H2 & H3 & Hs) HI HK HL.
  destruct (values_exist zero one add mul sub opp div inv s3 H H2 H3 Hs restype t len nn tail w HI HK HL) as (out & Ho). exists out. split; [exact Ho|].
  intros out' Ho'. exact (values_unique zero one add mul sub opp div inv s3 H H2 H3 Hs t restype w out' out Ho' Ho).
Qed.
Print Assumptions C65_field.

Lemma parts_values (F : Type) (zero one : F) add mul sub opp div inv s3 num es restype idx (sel : list ref) bs f sh (parts : list (list (nd F))) :
  numbers_with_root3 zero one add mul sub opp div inv s3 -> In restype (map fst result_kinds) ->
  (forall r j e b v w, In r sel -> In j idx -> nth_error es j = Some e -> In b bs -> fst b = rf_ires r -> In (j, v) (snd b) -> numbers f v w ->
    exists len nn tail, In (el_typ e, (len, nn, tail)) (elem_sizes restype) /\ length w = len) ->
  Forall2 (fun r ps => Forall2 (fun j a => exists e b v w, nth_error es j = Some e /\ In b bs /\ fst b = rf_ires r /\ In (j, v) (snd b) /\ numbers f v w /\
        process zero one add mul sub opp div s3 (el_typ e) restype "nodes" (map num w) = Ok a /\ n_shape a = length (el_nodes e) :: sh /\ wf a) idx ps) sel parts ->
  Forall2 (fun r ps => Forall2 (fun j out => exists e b v w, nth_error es j = Some e /\ In b bs /\ fst b = rf_ires r /\ In (j, v) (snd b) /\ numbers f v w /\
        node_values zero one add mul sub opp div s3 (el_typ e) restype (map num w) out /\ length out = (length (el_nodes e) * fold_right Nat.mul 1 sh)%nat) idx ps) sel (map (map n_flat) parts).
Proof.
  intros (H & H2 & H3 & Hs) HK Hlen HF. revert Hlen. induction HF as [|r ps sel parts HP HF IH]; intro Hlen; cbn [map]; constructor.
  2:{ apply IH. intros r' j e b v w Hr. apply Hlen. now right. }
  specialize (fun j e b v w => Hlen r j e b v w (or_introl eq_refl)). clear IH HF. revert Hlen. induction HP as [|j a idx ps (e & b & v & w & He & Hb & Eb & Hv & Hw & Hp & Hsh & Hwf) HP IH]; intro Hlen; cbn [map]; constructor.
  2:{ apply IH. intros j' e' b' v' w' Hj. apply Hlen. now right. }
  exists e, b, v, w. do 5 (split; [assumption|]). destruct (Hlen j e b v w (or_introl eq_refl) He Hb Eb Hv Hw) as (len & nn & tail & HI & HL).
  destruct (values_exist zero one add mul sub opp div inv s3 H H2 H3 Hs restype _ len nn tail (map num w) HI HK ltac:(now rewrite map_length)) as (out & Ho).
  destruct (values_processed zero one add mul sub opp div inv s3 H H2 H3 Hs _ _ _ _ Ho) as (s & E). rewrite E in Hp. injection Hp as <-. cbn [n_flat]. split; [exact Ho|].
  unfold wf in Hwf. cbn [n_shape n_flat] in *. subst s. exact Hwf.
Qed.
Lemma numbers_same c v w w' : numbers c v w -> numbers c v w' -> w = w'.
Proof. intros H H'. pose proof (numbers_ok _ _ _ H) as E. rewrite (numbers_ok _ _ _ H') in E. congruence. Qed.

(** The element results of a data set at the nodes: for each case asked for, for
    each element selected, at each node of the element, the numbers of the field
    that has the numbers of the record at the result points. *)
Theorem C65_results : forall (F : Type) (zero one : F) add mul sub opp div inv s3 (num : cell -> F) h d ns es nms ms sets restype rn cn kind idx rs run cs arg sel bs f sh,
  numbers_with_root3 zero one add mul sub opp div inv s3 ->
  d_open d = true -> mesh_in h (d_group d) ns es -> In (restype, (rn, cn, kind)) result_kinds ->
  proper h (d_group d) es nms ms sets kind -> selected es nms ms sets kind idx -> idx <> [] ->
  refs_in h (d_group d) rs -> cases_arg cs arg -> asked_refs run cs rs sel -> sel <> [] -> NoDup (map rf_ires sel) ->
  (forall r, In r sel -> rf_complex r = f) ->
  elemres_in h (d_group d) rn es bs ->
  filter (fun i => zmem i (map rf_ires sel)) (map fst bs) = map rf_ires sel ->
  (forall b, In b bs -> In (fst b) (map rf_ires sel) -> map fst (filter (fun ev => existsb (Nat.eqb (fst ev)) idx) (snd b)) = idx) ->
  (forall j e, In j idx -> nth_error es j = Some e -> exists len, In (el_typ e, (len, length (el_nodes e), sh)) (elem_sizes restype) /\
     forall b v, In b bs -> In (fst b) (map rf_ires sel) -> In (j, v) (snd b) -> exists w, numbers f v w /\ length w = len) ->
  exists parts : list (list (list F)),
    get_elementresults zero one add mul sub opp div s3 num h d restype "nodes" run arg sets =
      Ok (with_cases (length sel) (length (flat_map el_nodes (pick es idx)) :: sh) (concat (map (@concat F) parts))) /\
    Forall2 (fun r ps => Forall2 (fun j out => exists e b v w, nth_error es j = Some e /\ In b bs /\ fst b = rf_ires r /\ In (j, v) (snd b) /\ numbers f v w /\
      node_values zero one add mul sub opp div s3 (el_typ e) restype (map num w) out /\ length out = (length (el_nodes e) * fold_right Nat.mul 1 sh)%nat) idx ps) sel parts.
Proof.
  intros F zero one add mul sub opp div inv s3 num h d ns es nms ms sets restype rn cn kind idx rs run cs arg sel bs f sh HN Ho HM HT HP HI Hne HRf HA HS Hsel Hnd Hc HB Hord Heach Hty.
  destruct (C53_element_results F zero one add mul sub opp div s3 num h d ns es nms ms sets restype rn cn kind idx rs run cs arg sel bs f sh Ho HM HT HP HI Hne HRf HA HS Hsel Hnd Hc HB Hord Heach Hty) as (parts & E & HF).
  exists (map (map n_flat) parts). split.
  - rewrite E. do 2 f_equal. rewrite map_map, <- flat_map_concat_map. apply flat_map_ext. intro l. apply flat_map_concat_map.
  - apply (parts_values F zero one add mul sub opp div inv s3); [exact HN|exact (in_map fst _ _ HT)| |exact HF].
    intros r j e b v w Hr Hj He Hb Eb Hv Hw. destruct (Hty j e Hj He) as (len & Hl & Hx). destruct (Hx b v Hb ltac:(rewrite Eb; now apply in_map) Hv) as (w' & Hw' & HL).
    rewrite (numbers_same _ _ _ _ Hw Hw'). eauto.
Qed.
Print Assumptions C65_results.
(** The same from the text of a file, wherever its tables are stored (C60, C64). *)
Theorem C65_file : forall (F : Type) (zero one : F) add mul sub opp div inv s3 (num : cell -> F) h o segs ns es rs nms ms sets restype rn cn kind idx bs run cs arg sel f sh,
  numbers_with_root3 zero one add mul sub opp div inv s3 -> gives_element_results F zero one add mul sub opp div s3 num h o segs ->
  mesh_on segs ns es -> refs_on segs rs ->
  In (restype, (rn, cn, kind)) result_kinds -> proper_on segs es nms ms sets kind -> selected es nms ms sets kind idx -> idx <> [] ->
  elemres_on segs rn es bs -> cases_arg cs arg -> asked_refs run cs rs sel -> sel <> [] -> NoDup (map rf_ires sel) ->
  (forall r, In r sel -> rf_complex r = f) ->
  filter (fun i => zmem i (map rf_ires sel)) (map fst bs) = map rf_ires sel ->
  (forall b, In b bs -> In (fst b) (map rf_ires sel) -> map fst (filter (fun ev => existsb (Nat.eqb (fst ev)) idx) (snd b)) = idx) ->
  (forall j e, In j idx -> nth_error es j = Some e -> exists len, In (el_typ e, (len, length (el_nodes e), sh)) (elem_sizes restype) /\
     forall b v, In b bs -> In (fst b) (map rf_ires sel) -> In (j, v) (snd b) -> exists w, numbers f v w /\ length w = len) ->
  exists parts : list (list (list F)),
    get_elementresults zero one add mul sub opp div s3 num h o restype "nodes" run arg sets =
      Ok (with_cases (length sel) (length (flat_map el_nodes (pick es idx)) :: sh) (concat (map (@concat F) parts))) /\
    Forall2 (fun r ps => Forall2 (fun j out => exists e b v w, nth_error es j = Some e /\ In b bs /\ fst b = rf_ires r /\ In (j, v) (snd b) /\ numbers f v w /\
      node_values zero one add mul sub opp div s3 (el_typ e) restype (map num w) out /\ length out = (length (el_nodes e) * fold_right Nat.mul 1 sh)%nat) idx ps) sel parts.
Proof.
  intros F zero one add mul sub opp div inv s3 num h o segs ns es rs nms ms sets restype rn cn kind idx bs run cs arg sel f sh HN HG HM HRf HT HP HI Hne HB HA HS Hsel Hnd Hc Hord Heach Hty.
  destruct (HG ns es rs HM HRf nms ms sets restype rn cn kind idx bs run cs arg sel f sh HT HP HI Hne HB HA HS Hsel Hnd Hc Hord Heach Hty) as (parts & E & HF).
  exists (map (map n_flat) parts). split.
  - rewrite E. do 2 f_equal. rewrite map_map, <- flat_map_concat_map. apply flat_map_ext. intro l. apply flat_map_concat_map.
  - apply (parts_values F zero one add mul sub opp div inv s3); [exact HN|exact (in_map fst _ _ HT)| |exact HF].
    intros r j e b v w Hr Hj He Hb Eb Hv Hw. destruct (Hty j e Hj He) as (len & Hl & Hx). destruct (Hx b v Hb ltac:(rewrite Eb; now apply in_map) Hv) as (w' & Hw' & HL).
    rewrite (numbers_same _ _ _ _ Hw Hw'). eauto.
Qed.
Print Assumptions C65_file.

(** One eight-node shell: all stresses 0 at the lower integration points, 1 at the
    upper ones.  At the surfaces, -0.366 and 1.366, in real numbers. *)
Definition e_es : list melem := [mkElem 102 28 [1; 2; 3; 4; 5; 6; 7; 8]].
Definition e_stress : list eblock := [(1, [(0%nat, repeat (fz 0) 20 ++ repeat (fz 1) 20)])].
Definition e_h : h5 := [
  (w_x, Group [("RECORDS", AStrs ["GNODE"]); ("SELTYP", AInt (Some 1)); ("LEVEL", AStr "FIRSTLEVEL"); ("FILETYPE", AStr "T"); ("DATATYPE", AStr "STRUCTURAL")]);
  tab w_x "GNODE" (map (fun i => [CI (10 * i); CI i; CI 6; CI 123456]) [1; 2; 3; 4; 5; 6; 7; 8]);
  tab w_x "GCOORD" (map (fun i => [CI i; fz i; fz 0; fz 0]) [1; 2; 3; 4; 5; 6; 7; 8]);
  tab w_x "GELMNT1" [[CI 102; CI 1; CI 28; CI 0; CI 0; CI 8]];
  arr1 w_x "GELMNT1" (map CI [1; 2; 3; 4; 5; 6; 7; 8]);
  tab w_x "RDRESREF" [[CI 7; CI 1; CI 1; CI 5; CI 0; CI 0; CI 0; CI 0; CI 0]];
  arr1 w_x "RDRESREF" [];
  tab w_x "RVSTRESS" [map CI [47; 1; 1; 0; 28; 0; 40]];
  arr1 w_x "RVSTRESS" (repeat (fz 0) 20 ++ repeat (fz 1) 20)].
Definition e_num (c : cell) : R := match c with CF (FFin s m e) => ((if s then -1 else 1) * IZR (Zpos m) * powerRZ 2 e)%R | _ => 0%R end.
Lemma e_mesh : mesh_in e_h w_x v_ns e_es.
Proof.
  split; [|split; [|split]].
  - eexists. split; [holds_|]. split; [reflexivity|]. apply nth_cases. repeat split; do 2 eexists; reflexivity.
  - eexists. split; [holds_|]. split; [reflexivity|]. apply nth_cases. repeat split.
  - eexists. split; [holds_|]. split; [reflexivity|]. apply nth_cases. repeat split; eexists; reflexivity.
  - repeat constructor; cbn; try discriminate; lia.
Qed.
Lemma e_has_refs : refs_in e_h w_x [mkRef 1 1 5 0].
Proof. do 2 eexists. split; [holds_|]. repeat constructor; do 5 eexists; reflexivity. Qed.
Lemma e_has_stress : elemres_in e_h w_x "RVSTRESS" e_es e_stress.
Proof.
  do 2 eexists. split; [holds_|]. unfold eflat. cbn [e_stress flat_map map app fst snd].
  repeat constructor; do 5 eexists; (split; [reflexivity|]); (split; [reflexivity|]); (split; [lia|split; [vm_compute; discriminate|reflexivity]]).
Qed.
Definition e_field (c : nat) (p : R * R) (z : R) : R := (1 / 2 + z * (sqrt 3 / 2))%R.
Lemma e_through : forall c, (c < 5)%nat -> through Rplus Rmult (bilinear Rplus Rmult) (e_field c).
Proof.
  intros c _. exists (fun _ => 1 / 2)%R, (fun _ => sqrt 3 / 2)%R. split; [|split; [|reflexivity]].
  - exists (1 / 2)%R, 0%R, 0%R, 0%R. intros x y. lra.
  - exists (sqrt 3 / 2)%R, 0%R, 0%R, 0%R. intros x y. lra.
Qed.
Lemma e_record : map e_num (repeat (fz 0) 20 ++ repeat (fz 1) 20) = thick_record 1%R Ropp Rdiv (sqrt 3) (quad_points 1%R Ropp Rdiv (sqrt 3)) e_field.
Proof.
  assert (S : (sqrt 3 <> 0)%R) by (intro E; pose proof (sqrt_lt_R0 3 ltac:(lra)); lra).
  assert (L : forall p c, e_field c p (Ropp (gauss 1%R Rdiv (sqrt 3))) = 0%R) by (intros; unfold e_field, gauss; field; exact S).
  assert (U : forall p c, e_field c p (gauss 1%R Rdiv (sqrt 3)) = 1%R) by (intros; unfold e_field, gauss; field; exact S).
  unfold thick_record, quad_points. cbn [flat_map map seq app]. rewrite !L, !U. cbn [map repeat app]. change (e_num (fz 0)) with 0%R.
  replace (e_num (fz 1)) with 1%R; [reflexivity|]. change (e_num (fz 1)) with (1 * 1 * 1)%R. ring.
Qed.
Example C65_case :
  get_elementresults 0%R 1%R Rplus Rmult Rminus Ropp Rdiv (sqrt 3) e_num e_h x_d "generalstress" "nodes" 1 (OneCase 5) [] =
    Ok (mkNd [8; 2; 5]%nat (flat_map (fun _ : nat => flat_map (fun s => [s; s; s; 0; 0]%R) [(1 / 2 + -1 * (sqrt 3 / 2))%R; (1 / 2 + 1 * (sqrt 3 / 2))%R]) (seq 0 8))).
Proof.
  destruct (C65_results R 0%R 1%R Rplus Rmult Rminus Ropp Rdiv Rinv (sqrt 3) e_num e_h x_d v_ns e_es [] [] [] "generalstress" "RVSTRESS" "stress" "shell" [0]%nat
    [mkRef 1 1 5 0] 1 (Some [5]) (OneCase 5) [mkRef 1 1 5 0] e_stress 0 [2; 5]%nat) as (parts & E & HF).
  - exact real_numbers.
  - reflexivity.
  - exact e_mesh.
  - right. now left.
  - apply properb_spec; [intro K; congruence|vm_compute; reflexivity|cbn; tauto].
  - selz.
  - discriminate.
  - exact e_has_refs.
  - right. eexists. split; reflexivity.
  - repeat (first [apply sub_nil | apply sub_in; [split; [reflexivity|cbn; tauto]|] | apply sub_out; [intros [H1 H2]; vm_compute in H1, H2; intuition congruence|]]).
  - discriminate.
  - repeat constructor; cbn; intuition congruence.
  - intros r [<-|[]]; reflexivity.
  - exact e_has_stress.
  - reflexivity.
  - intros b [<-|[]] _; reflexivity.
  - intros j e [<-|[]] E; injection E as <-. exists 40%nat. split; [cbn; tauto|]. intros b v [<-|[]] _ [K|[]]. injection K as <-. eexists. split; reflexivity.
  - etransitivity; [exact E|]. inversion HF as [|? ps ? ? HP HF']; subst. inversion HF'; subst. inversion HP as [|? out ? ? HO HP']; subst. inversion HP'; subst. clear HF HF' HP HP'.
    destruct HO as (e & b & v & w & He & [<-|[]] & _ & [K|[]] & Hw & Hn & _). injection He as <-. injection K as <-. cbv [numbers Z.eqb] in Hw. subst w.
    change (node_values 0%R 1%R Rplus Rmult Rminus Ropp Rdiv (sqrt 3) 28 "generalstress" (map e_num (repeat (fz 0) 20 ++ repeat (fz 1) 20)) out) in Hn. rewrite e_record in Hn. cbn [concat map]. rewrite !app_nil_r.
    destruct real_numbers as (R1 & R2 & R3 & R4).
    rewrite (values_unique 0%R 1%R Rplus Rmult Rminus Ropp Rdiv Rinv (sqrt 3) R1 R2 R3 R4 _ _ _ _ _ Hn (nv_quad8 _ _ _ _ _ _ _ _ e_field e_through)). reflexivity.
Qed.
