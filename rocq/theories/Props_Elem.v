(** * Properties of element results: C35, C36, C53

    Exact arithmetic: the numbers are those of any field with a square root of
    three, in which two and three are not zero; for example the real numbers.
    Rounding to single precision is not modelled. *)
From Coq Require Import Field_theory Reals Lra RealField Sorted.
From Verif Require Import Base Flt H5 Schema StoreSpec ParserSpec Data Struc StrucSpec DataFacts StrucProofs StrucGet StrucRes StrucExist StrucSample
  Nd NdProofs Elem ElemSpec ElemProofs ElemResSpec ElemRes ElemMore.
Open Scope string_scope.
Open Scope Z_scope.
Open Scope list_scope.

Definition numbers_with_root3 {F : Type} (zero one : F) (add mul sub : F -> F -> F) (opp : F -> F) (div : F -> F -> F) (inv : F -> F) (s3 : F) : Prop :=
  field_theory zero one add mul sub opp div inv eq /\ add one one <> zero /\ add (add one one) one <> zero /\ mul s3 s3 = add (add one one) one.
Theorem real_numbers : numbers_with_root3 0%R 1%R Rplus Rmult Rminus Ropp Rdiv Rinv (sqrt 3).
Proof. split; [exact Rfield|]. split; [lra|]. split; [lra|]. rewrite sqrt_sqrt; lra. Qed.
Print Assumptions real_numbers.

(** C35.  Eight-node quadrilaterals: at the nodes, lower then upper surface. *)
Theorem C35_quad_partial : forall (F : Type) (zero one : F) add mul sub opp div inv s3 f, numbers_with_root3 zero one add mul sub opp div inv s3 ->
  (forall c, (c < 5)%nat -> through add mul (bilinear add mul) (f c)) ->
  process zero one add mul sub opp div s3 28 "generalstress" "nodes" (thick_record one opp div s3 (quad_points one opp div s3) f) =
    Ok (mkNd [8; 2; 5]%nat (flat_map (fun p => flat_map (fun z => [f 0%nat p z; f 1%nat p z; f 2%nat p z; zero; zero]) [opp one; one]) (quad_nodes zero one opp))).
Proof. intros F zero one add mul sub opp div inv s3 f (H & H2 & H3 & Hs). exact (quad_general zero one add mul sub opp div inv s3 H H2 H3 Hs f). Qed.
Print Assumptions C35_quad_partial.
(** Six-node triangles. *)
Theorem C35_triangle_partial : forall (F : Type) (zero one : F) add mul sub opp div inv s3 f, numbers_with_root3 zero one add mul sub opp div inv s3 ->
  (forall c, (c < 5)%nat -> through add mul (linear3 add mul) (f c)) ->
  process zero one add mul sub opp div s3 26 "generalstress" "nodes" (thick_record one opp div s3 (tri_points one add mul div) f) =
    Ok (mkNd [6; 2; 5]%nat (flat_map (fun p => flat_map (fun z => [f 0%nat p z; f 1%nat p z; f 2%nat p z; zero; zero]) [opp one; one]) (tri_nodes zero one add div))).
Proof. intros F zero one add mul sub opp div inv s3 f (H & H2 & H3 & Hs). exact (tri_general zero one add mul sub opp div inv s3 H H2 H3 Hs f). Qed.
Print Assumptions C35_triangle_partial.
(** Missing from both: the transverse shears (components 3, 4), which are set to
    zero at the surfaces.  They are not those of the field. *)
Theorem C35_shears_refuted : forall (F : Type) (zero one : F) add mul sub opp div inv s3, numbers_with_root3 zero one add mul sub opp div inv s3 ->
  exists f a, (forall c, (c < 5)%nat -> through add mul (bilinear add mul) (f c)) /\
    process zero one add mul sub opp div s3 28 "generalstress" "nodes" (thick_record one opp div s3 (quad_points one opp div s3) f) = Ok a /\
    f 3%nat (opp one, opp one) (opp one) = one /\ at_ a [0; 0; 3]%nat = Some zero /\ zero <> one.
Proof.
  intros F zero one add mul sub opp div inv s3 HN. exists (fun _ _ _ => one). pose proof HN as (H & H2 & _). pose proof (F_R H) as HR.
  assert (A0 : forall x, add x zero = x) by (intro x; rewrite (Radd_comm HR); apply (Radd_0_l HR)).
  assert (M0 : forall x, mul zero x = zero). { intro x. assert (K : forall y, add y y = y -> y = zero). { intros y Hy. rewrite <- (A0 y), <- (Ropp_def HR y) at 1. rewrite (Radd_assoc HR), Hy. apply (Ropp_def HR). } apply K. rewrite <- (Rdistr_l HR). now rewrite A0. }
  assert (HB : forall c, (c < 5)%nat -> through add mul (bilinear add mul) ((fun _ _ _ => one) c : F * F -> F -> F)).
  { intros c _. exists (fun _ => one), (fun _ => zero). split; [|split].
    - exists one, zero, zero, zero. intros x y. now rewrite !M0, !A0.
    - exists zero, zero, zero, zero. intros x y. now rewrite !M0, !A0.
    - intros p z. rewrite (Rmul_comm HR), M0, A0. reflexivity. }
  eexists. split; [exact HB|]. split; [exact (C35_quad_partial F zero one add mul sub opp div inv s3 (fun _ _ _ => one) HN HB)|]. split; [reflexivity|]. split; [reflexivity|].
  intro E. apply H2. rewrite <- E. apply A0.
Qed.
Print Assumptions C35_shears_refuted.
(** Decomposed: at mid-thickness, and what is added up to the upper surface. *)
Theorem C35_quad_decomposed : forall (F : Type) (zero one : F) add mul sub opp div inv s3 f, numbers_with_root3 zero one add mul sub opp div inv s3 ->
  (forall c, (c < 5)%nat -> through add mul (bilinear add mul) (f c)) ->
  process zero one add mul sub opp div s3 28 "decomposedstress" "nodes" (thick_record one opp div s3 (quad_points one opp div s3) f) =
    Ok (mkNd [8; 8]%nat (flat_map (decomposed zero one add mul sub opp div s3 f) (quad_nodes zero one opp))).
Proof. intros F zero one add mul sub opp div inv s3 f (H & H2 & H3 & Hs). exact (quad_decomposed zero one add mul sub opp div inv s3 H H2 H3 Hs f). Qed.
Print Assumptions C35_quad_decomposed.
Theorem C35_triangle_decomposed : forall (F : Type) (zero one : F) add mul sub opp div inv s3 f, numbers_with_root3 zero one add mul sub opp div inv s3 ->
  (forall c, (c < 5)%nat -> through add mul (linear3 add mul) (f c)) ->
  process zero one add mul sub opp div s3 26 "decomposedstress" "nodes" (thick_record one opp div s3 (tri_points one add mul div) f) =
    Ok (mkNd [6; 8]%nat (flat_map (decomposed zero one add mul sub opp div s3 f) (tri_nodes zero one add div))).
Proof. intros F zero one add mul sub opp div inv s3 f (H & H2 & H3 & Hs). exact (tri_decomposed zero one add mul sub opp div inv s3 H H2 H3 Hs f). Qed.
Print Assumptions C35_triangle_decomposed.
(** At the result points themselves: the numbers of the record, by point. *)
Theorem C35_result_points : forall (F : Type) (zero one : F) add mul sub opp div inv s3 (f : nat -> F * F -> F -> F) (g : nat -> F * F * F -> F -> F) restype,
  numbers_with_root3 zero one add mul sub opp div inv s3 ->
  process zero one add mul sub opp div s3 28 restype "respts" (thick_record one opp div s3 (quad_points one opp div s3) f) =
    Ok (mkNd [4; 2; 5]%nat (flat_map (fun p => flat_map (fun z => map (fun c => f c p z) (seq 0 5)) [opp (gauss one div s3); gauss one div s3]) (quad_points one opp div s3))) /\
  process zero one add mul sub opp div s3 26 restype "respts" (thick_record one opp div s3 (tri_points one add mul div) g) =
    Ok (mkNd [3; 2; 5]%nat (flat_map (fun p => flat_map (fun z => map (fun c => g c p z) (seq 0 5)) [opp (gauss one div s3); gauss one div s3]) (tri_points one add mul div))).
Proof.
  intros F zero one add mul sub opp div inv s3 f g restype (H & H2 & H3 & Hs). split.
  - exact (quad_respts zero one add mul sub opp div s3 f restype).
  - exact (tri_respts zero one add mul sub opp div s3 g restype).
Qed.
Print Assumptions C35_result_points.
(** Curved beams; beams of two nodes; thin shells. *)
Theorem C35_curved_beam : forall (F : Type) (zero one : F) add mul sub opp div inv s3 f restype, numbers_with_root3 zero one add mul sub opp div inv s3 ->
  (forall c, (c < 6)%nat -> linear1 add mul (f c)) ->
  process zero one add mul sub opp div s3 23 restype "nodes" (flat_map (fun p => map (fun c => f c p) (seq 0 6)) (beam_points one opp div s3)) =
    Ok (mkNd [3; 6]%nat (flat_map (fun p => map (fun c => f c p) (seq 0 6)) (beam_nodes zero one opp))).
Proof. intros F zero one add mul sub opp div inv s3 f restype (H & H2 & H3 & Hs). exact (beam3_nodes zero one add mul sub opp div inv s3 H H2 H3 Hs f restype). Qed.
Print Assumptions C35_curved_beam.
Theorem C35_first_order : forall (F : Type) (zero one : F) add mul sub opp div s3 restype pos,
  (forall a b c, length a = 6%nat -> length b = 6%nat -> length c = 6%nat ->
    process zero one add mul sub opp div s3 15 restype pos (a ++ b ++ c) = Ok (mkNd [2; 6]%nat (a ++ c))) /\
  (forall f, process zero one add mul sub opp div s3 24 "generalstress" pos (thin_record quad_place f) =
    Ok (mkNd [4; 2; 3]%nat (flat_map (fun n => flat_map (fun u => map (f (Some n) u) (seq 0 3)) [false; true]) [0; 1; 2; 3]%nat))) /\
  (forall f, process zero one add mul sub opp div s3 25 "generalstress" pos (thin_record tri_place f) =
    Ok (mkNd [3; 2; 3]%nat (flat_map (fun n => flat_map (fun u => map (f (Some n) u) (seq 0 3)) [false; true]) [0; 1; 2]%nat))).
Proof.
  intros F zero one add mul sub opp div s3 restype pos. split; [|split].
  - intros a b c. exact (beam2_nodes zero one add mul sub opp div s3 a b c restype pos).
  - intro f. exact (quad4_nodes zero one add mul sub opp div s3 f pos).
  - intro f. exact (tri3_nodes zero one add mul sub opp div s3 f pos).
Qed.
Print Assumptions C35_first_order.
(** A field of the kind, which varies in all directions: with 7 + x + 2y + 3xy + z (1 + y)
    for every component, the lower surface of node 3 has -1 + 10 and the like. *)
Example C35_case : let f := fun (c : nat) (p : R * R) (z : R) => (7 + fst p + 2 * snd p + 3 * (fst p * snd p) + z * (1 + snd p))%R in
  (forall c, (c < 5)%nat -> through Rplus Rmult (bilinear Rplus Rmult) (f c)) /\ f 0%nat (-1, 1)%R 1%R = 7%R /\ f 0%nat (-1, 1)%R (-1)%R = 3%R /\ f 0%nat (1, 1)%R 1%R = 15%R.
Proof.
  intro f. split; [|unfold f; cbn [fst snd]; lra]. intros c _. exists (fun p => 7 + fst p + 2 * snd p + 3 * (fst p * snd p))%R, (fun p => 1 + snd p)%R. split; [|split].
  - exists 7%R, 1%R, 2%R, 3%R. intros x y. cbn [fst snd]. ring.
  - exists 1%R, 0%R, 1%R, 0%R. intros x y. cbn [fst snd]. ring.
  - intros p z. reflexivity.
Qed.
Example C35_triangle_case : let f := fun (c : nat) (p : R * R * R) (z : R) => (let '(a, b, d) := p in a + 2 * b + 5 * d + z * (a - d))%R in
  (forall c, (c < 5)%nat -> through Rplus Rmult (linear3 Rplus Rmult) (f c)) /\ f 0%nat (0, 0, 1)%R 1%R = 4%R.
Proof.
  intro f. split; [|unfold f; lra]. intros c _. exists (fun p => let '(a, b, d) := p in a + 2 * b + 5 * d)%R, (fun p => let '(a, b, d) := p in a - d)%R. split; [|split].
  - exists 1%R, 2%R, 5%R. intros x y z. ring.
  - exists 1%R, 0%R, (-1)%R. intros x y z. ring.
  - intros [[x y] z] w. reflexivity.
Qed.
Example C35_beam_case : linear1 Rplus Rmult (fun x => 3 + 4 * x)%R.
Proof. exists 3%R, 4%R. reflexivity. Qed.

(** C36.  All values, not only those of linear fields. *)
Theorem C36_recombined : forall (F : Type) (zero one : F) add mul sub opp div inv s3 t len nn nc nq d, numbers_with_root3 zero one add mul sub opp div inv s3 ->
  In (t, (len, nn, nc, nq)) shell_sizes -> length d = len -> exists g q,
    process zero one add mul sub opp div s3 t "generalstress" "nodes" d = Ok g /\ process zero one add mul sub opp div s3 t "decomposedstress" "nodes" d = Ok q /\
    n_shape g = [nn; 2%nat; nc] /\ n_shape q = [nn; nq] /\
    forall i c, (i < nn)%nat -> (c < 3)%nat -> exists m b, at_ q [i; c] = Some m /\ at_ q [i; (3 + c)%nat] = Some b /\
      at_ g [i; 0%nat; c] = Some (sub m b) /\ at_ g [i; 1%nat; c] = Some (add m b).
Proof. intros F zero one add mul sub opp div inv s3 t len nn nc nq d (H & H2 & H3 & Hs). exact (decomposed_recombine zero one add mul sub opp div inv s3 H H2 t len nn nc nq d). Qed.
Print Assumptions C36_recombined.
Example C36_case : In (28, (40, 8, 5, 8)%nat) shell_sizes /\ length (map INR (seq 0 40)) = 40%nat /\ In (25, (24, 3, 3, 6)%nat) shell_sizes /\ length (map INR (seq 0 24)) = 24%nat.
Proof. repeat split; cbn; tauto. Qed.
(** For results at the result points of thick shells nothing is decomposed: the
    same array is returned for both kinds. *)
Theorem C36_respts_not_decomposed : forall (F : Type) (zero one : F) add mul sub opp div s3 t d, t = 26 \/ t = 28 ->
  process zero one add mul sub opp div s3 t "decomposedstress" "respts" d = process zero one add mul sub opp div s3 t "generalstress" "respts" d.
Proof. intros F zero one add mul sub opp div s3 t d [->| ->]; reflexivity. Qed.
Print Assumptions C36_respts_not_decomposed.

(** C53.  [with_cases n sh flat] (ElemResSpec): shape [sh] for one case, with the
    number of cases before it for several.  Part by part, for each case and each
    selected element: the processed numbers of the record of this element in this
    case. *)
Theorem C53_element_results : forall (F : Type) (zero one : F) add mul sub opp div s3 (num : cell -> F) h d ns es nms ms sets restype rn cn kind idx rs run cs arg sel bs f sh,
  d_open d = true -> mesh_in h (d_group d) ns es -> In (restype, (rn, cn, kind)) result_kinds ->
  proper h (d_group d) es nms ms sets kind -> selected es nms ms sets kind idx -> idx <> [] ->
  refs_in h (d_group d) rs -> cases_arg cs arg -> asked_refs run cs rs sel -> sel <> [] -> NoDup (map rf_ires sel) ->
  (forall r, In r sel -> rf_complex r = f) ->
  elemres_in h (d_group d) rn es bs ->
  filter (fun i => zmem i (map rf_ires sel)) (map fst bs) = map rf_ires sel ->
  (forall b, In b bs -> In (fst b) (map rf_ires sel) -> map fst (filter (fun ev => existsb (Nat.eqb (fst ev)) idx) (snd b)) = idx) ->
  (forall j e, In j idx -> nth_error es j = Some e -> exists len, In (el_typ e, (len, length (el_nodes e), sh)) (elem_sizes restype) /\
     forall b v, In b bs -> In (fst b) (map rf_ires sel) -> In (j, v) (snd b) -> exists w, numbers f v w /\ length w = len) ->
  exists parts : list (list (nd F)),
    get_elementresults zero one add mul sub opp div s3 num h d restype "nodes" run arg sets =
      Ok (with_cases (length sel) (length (flat_map el_nodes (pick es idx)) :: sh) (flat_map (flat_map n_flat) parts)) /\
    Forall2 (fun r ps => Forall2 (fun j a => exists e b v w, nth_error es j = Some e /\ In b bs /\ fst b = rf_ires r /\ In (j, v) (snd b) /\ numbers f v w /\
      process zero one add mul sub opp div s3 (el_typ e) restype "nodes" (map num w) = Ok a /\ n_shape a = length (el_nodes e) :: sh /\ wf a) idx ps) sel parts.
Proof. intros F zero one add mul sub opp div s3 num. exact (elementresults_stated zero one add mul sub opp div s3 num). Qed.
Print Assumptions C53_element_results.
Theorem C53_mixed : forall (F : Type) (zero one : F) add mul sub opp div s3 (num : cell -> F) h d es restype rn cn kind rs run cs arg sel bs pos sets r r',
  d_open d = true -> In (restype, (rn, cn, kind)) result_kinds -> refs_in h (d_group d) rs -> cases_arg cs arg -> asked_refs run cs rs sel ->
  elemres_in h (d_group d) rn es bs -> In r sel -> In r' sel -> rf_complex r <> rf_complex r' ->
  get_elementresults zero one add mul sub opp div s3 num h d restype pos run arg sets = Err ResultError.
Proof.
  intros F zero one add mul sub opp div s3 num h d es restype rn cn kind rs run cs arg sel bs pos sets r r' Ho HT HR HA HS HB.
  exact (mixed_elem (process zero one add mul sub opp div s3) num h d es Ho sets restype rn cn kind HT rs run cs arg sel HR HA HS bs HB pos r r').
Qed.
Print Assumptions C53_mixed.
Example C53_case : exists a, get_plain z_h x_d "beamforce" "nodes" 1 (SomeCases [6; 5]) [] = Ok a /\ n_shape a = [2; 4; 6]%nat /\
  n_flat a = z_nums 100 6 ++ z_nums 112 6 ++ z_nums 200 6 ++ z_nums 212 6 ++ z_nums 300 6 ++ z_nums 312 6 ++ z_nums 400 6 ++ z_nums 412 6 /\
  get_elements z_h x_d [] "beam" true = Ok ([0; 1; 2; 3], [2; 4], [15; 15]) /\
  get_plain z_h x_d "beamforce" "nodes" 1 AllCases [] = Err ResultError.
Proof. eexists. split; [vm_compute; reflexivity|]. repeat split; vm_compute; reflexivity. Qed.
Ltac selz := match goal with |- selected ?a ?b ?c ?d ?e ?f => replace f with (selection a b c d e) by (vm_compute; reflexivity); apply selection_spec end.
Example C53_case_hyps : exists parts : list (list (nd cell)),
  get_plain z_h x_d "beamforce" "nodes" 1 (SomeCases [6; 5]) [] = Ok (with_cases 2 [4; 6]%nat (flat_map (flat_map n_flat) parts)).
Proof.
  destruct (C53_element_results cell (CI 0) (CI 1) op2 op2 op2 zf op2 (CI 0) zf z_h x_d x_ns x_es [] [] [] "beamforce" "RVFORCES" "force" "beam" [0; 2]%nat
    x_refs 1 (Some [6; 5]) (SomeCases [6; 5]) [mkRef 1 1 5 0; mkRef 3 1 6 0] z_forces 0 [6]%nat) as (parts & H & _).
  - reflexivity.
  - exact z_mesh.
  - now left.
  - apply properb_spec; [intro K; congruence|vm_compute; reflexivity|cbn; tauto].
  - selz.
  - discriminate.
  - exact z_has_refs.
  - now left.
  - unfold x_refs. repeat (first [apply sub_nil | apply sub_in; [split; [reflexivity|cbn; tauto]|] | apply sub_out; [intros [H1 H2]; vm_compute in H1, H2; intuition congruence|]]).
  - discriminate.
  - repeat constructor; cbn; intuition congruence.
  - intros r [<-|[<-|[]]]; reflexivity.
  - exact z_has_forces.
  - reflexivity.
  - intros b [<-|[<-|[]]] _; reflexivity.
  - intros j e [<-|[<-|[]]] E; injection E as <-; exists 18%nat; (split; [now left|]); intros b v [<-|[<-|[]]] _; cbn [snd]; intros [K|[K|[]]]; injection K; intros; subst; try discriminate; eexists; (split; [reflexivity|reflexivity]).
  - exists parts. exact H.
Qed.
(** Thin and thick shells together: no stresses are returned, though every shell
    has its record. *)
Theorem C53_thin_and_thick_refuted : mesh_in v_h w_x v_ns v_es /\ refs_in v_h w_x [mkRef 1 1 5 0] /\ elemres_in v_h w_x "RVSTRESS" v_es v_stress /\
  get_elementnumbers v_h x_d [] "shell" "external" = Ok [101; 102] /\
  (forall e, In e v_es -> exists len sh, In (el_typ e, (len, length (el_nodes e), sh)) (elem_sizes "generalstress")) /\
  get_plain v_h x_d "generalstress" "nodes" 1 (OneCase 5) [] = Err ValueError.
Proof.
  split; [exact v_mesh|]. split; [exact v_has_refs|]. split; [exact v_has_stress|]. split; [vm_compute; reflexivity|]. split; [|vm_compute; reflexivity].
  intros e [<-|[<-|[]]]; do 2 eexists; cbn; [now left|right; right; right; now left].
Qed.
Print Assumptions C53_thin_and_thick_refuted.
(** That the records of a case come in the order of the elements is needed: here
    those of element 103 come first, and its forces are returned for 101. *)
Example C53_order_needed : exists a, get_plain p_h x_d "beamforce" "nodes" 1 (OneCase 5) [] = Ok a /\ firstn 6 (n_flat a) = z_nums 200 6 /\
  get_elementnumbers p_h x_d [] "beam" "external" = Ok [101; 103].
Proof. eexists. split; [vm_compute; reflexivity|]. split; vm_compute; reflexivity. Qed.
