(** * C84 from the text of a file. *)
From Coq Require Import Reals Lra Sorted.
From Verif Require Import Base Flt SeqFile H5 Schema Parsers Data Files Struc Convert SeqSpec StoreSpec ParserSpec LayoutSpec FileSpec ConvertSpec AssemblySpec
  StrucSpec StrucRes StrucExist SaysSpec SaysProofs SaysOpen SaysGives Nd NdProofs Calc CalcSpec Elem ElemSpec ElemResSpec ElemMore ElemValuesSpec
  IeeeSpec IeeeFacts IeeeExists DotSpec CalcFloat ElemFloat ElemFloatNum ElemFloatSpec ElemFloatProofs ListFacts Props_Elem Props_ElemValues Props_ElemFloat
  Vtu VtuSpec Export ExportSpec ElemExport ElemExportSpec Sample2 Sample SifName SifNameSpec ConvertSample FileSample Props_File Props_Jobs Props_ElemExport Props_ElemFile ShellSample Props_Stress.
Open Scope string_scope.
Open Scope Z_scope.
Open Scope list_scope.

(** The same from the text of a file with one level, opened by its name. *)
Definition gives_stresses (num : cell -> R) (h : h5) (o : sdata) (segs : list seg) : Prop :=
  forall rs0 rd ra dot f rnd M ns es rs nms ms sets idx bs run cs arg sel sh,
  numpy rs0 rd ra dot -> f = single \/ f = double -> rounds f rnd -> (0 <= M <= powerRZ 2 50)%R ->
  mesh_on segs ns es -> refs_on segs rs ->
  proper_on segs es nms ms sets "shell" -> selected es nms ms sets "shell" idx -> idx <> [] ->
  elemres_on segs "RVSTRESS" es bs -> cases_arg cs arg -> asked_refs run cs rs sel -> sel <> [] -> NoDup (map rf_ires sel) ->
  (forall r, In r sel -> rf_complex r = 0) ->
  filter (fun i => zmem i (map rf_ires sel)) (map fst bs) = map rf_ires sel ->
  (forall b, In b bs -> In (fst b) (map rf_ires sel) -> map fst (filter (fun ev => existsb (Nat.eqb (fst ev)) idx) (snd b)) = idx) ->
  (forall j e, In j idx -> nth_error es j = Some e -> exists len, In (el_typ e, (len, length (el_nodes e), sh)) (elem_sizes "generalstress") /\
     forall b v, In b bs -> In (fst b) (map rf_ires sel) -> In (j, v) (snd b) -> length v = len) ->
  (forall b j v c, In b bs -> In (j, v) (snd b) -> In c v -> Rabs (num c) <= M)%R ->
  exists pts per,
    get_elementresults_fl rs0 rd ra dot num h o "generalstress" "nodes" run arg sets =
      Ok (with_cases (length sel) (length (flat_map el_nodes (pick es idx)) :: sh) (concat pts)) /\
    calculated rnd (last sh 0%nat) pts (concat (map (@concat _) per)) /\
    Forall2 (fun r pr => Forall2 (fun j s => exists e b v places, nth_error es j = Some e /\ In b bs /\ fst b = rf_ires r /\ In (j, v) (snd b) /\
      valuesR (el_typ e) "generalstress" (map num v) (concat places) /\ Forall (fun p => length p = last sh 0%nat) places /\
      Forall2 (accurate f (tolerance (el_typ e) "generalstress" M)) places s) idx pr) sel per.
Lemma gives_stresses_ok num h o segs : d_open o = true -> tables h (d_group o) segs -> gives_stresses num h o segs.
Proof.
  intros O T rs0 rd ra dot f rnd M ns es rs nms ms sets idx bs run cs arg sel sh HN F RN HM0 HM HR HP HS Hne HB HA HX Hsel Hnd Hc Hord Hel Hsz Hbig.
  apply (C84_results rs0 rd ra dot f rnd M num h o ns es nms ms sets idx rs run cs arg sel bs sh HN F RN HM0 O); try assumption.
  - now apply (mesh_found h _ segs).
  - now apply (proper_found h _ segs).
  - now apply (refs_found h _ segs).
  - apply (elemres_found h _ segs); [cbn; tauto|exact T|exact HB].
Qed.
Theorem C84_file : forall d top letter id segs g num,
  sesam_file d top letter id segs -> first_level letter segs -> 0 < g_batch g ->
  exists g' h o, open_sif d top g = Ok (g', h, KFirst, o) /\ gives_stresses num h o segs.
Proof.
  intros d top letter id segs g num HF HL Hb. destruct (open_first d top letter id segs g HF HL Hb) as (g' & h & o & E & O & T).
  exists g', h, o. split; [exact E|]. now apply gives_stresses_ok.
Qed.
Print Assumptions C84_file.

Definition smaller_cell (c : cell) : bool := match c with CF (FFin s m e) => (Z.pos m <? 2 ^ 25) && (e <=? 25) | _ => true end.
Lemma smaller_cell_le c : smaller_cell c = true -> (Rabs (e_num c) <= powerRZ 2 50)%R.
Proof.
  assert (P : (0 < powerRZ 2 50)%R) by (apply powerRZ_lt; lra).
  assert (Z0 : (Rabs 0 <= powerRZ 2 50)%R) by (rewrite Rabs_R0; lra).
  unfold smaller_cell, e_num. destruct c as [z|f|b|x y|l]; try (intros _; exact Z0). destruct f as [|b|b|s m e]; try (intros _; exact Z0). intro H.
  apply andb_prop in H. destruct H as [H1 H2]. apply Z.ltb_lt in H1. apply Z.leb_le in H2.
  assert (A : (0 < IZR (Z.pos m) <= powerRZ 2 25)%R) by (split; [apply IZR_lt; lia|rewrite p2_nat by lia; apply IZR_le; lia]).
  assert (B : (0 < powerRZ 2 e <= powerRZ 2 25)%R) by (split; [apply powerRZ_lt; lra|now apply p2_le]).
  rewrite !Rabs_mult. rewrite (Rabs_right (IZR (Z.pos m))), (Rabs_right (powerRZ 2 e)) by lra.
  replace (Rabs (if s then -1 else 1)) with 1%R by (destruct s; [rewrite Rabs_left|rewrite Rabs_right]; lra).
  change 50 with (25 + 25). rewrite p2_add, Rmult_1_l. apply Rmult_le_compat; lra.
Qed.
(** A plate's file: the stresses of its two cases. *)
Example C84_file_case : exists g' h o pts vm pr, open_sif t_dir "plateR5.SIF" glob0 = Ok (g', h, KFirst, o) /\
  get_elementresults_fl (ieee single) (ieee double) (ieee double) machine_dot e_num h o "generalstress" "nodes" 1 AllCases [] = Ok (with_cases 2 [3; 2; 3]%nat (concat pts)) /\
  vonmises2d_fl (ieee single) pts = Ok vm /\ principal2d_fl (ieee single) pts = Ok pr.
Proof.
  destruct (C84_file t_dir "plateR5.SIF" "R" 5 t_segs glob0 e_num t_sesam t_first eq_refl) as (g' & h & o & E & H).
  destruct (H (ieee single) (ieee double) (ieee double) machine_dot single (ieee single) (powerRZ 2 50) q_ns t_es q_refs [] [] [] [0]%nat t_stresses 1 None AllCases q_refs [2; 3]%nat) as (pts & per & H1 & (H2 & H3 & H4) & _).
  - apply C69_numpy.
  - now left.
  - apply ieee_rounds; reflexivity.
  - split; [apply Rlt_le, powerRZ_lt; lra|apply Rle_refl].
  - exact t_mesh.
  - exact t_has_refs.
  - apply proper_on_b; [intro K; congruence|vm_compute; reflexivity|cbn; tauto].
  - q_sel.
  - discriminate.
  - exact t_has_stresses.
  - reflexivity.
  - q_asked.
  - discriminate.
  - repeat constructor; cbn; intuition congruence.
  - intros r [<-|[<-|[]]]; reflexivity.
  - reflexivity.
  - intros b [<-|[<-|[]]] _; reflexivity.
  - intros j e [<-|[]] X. injection X as <-. exists 24%nat. split; [cbn; tauto|]. intros b v [<-|[<-|[]]] _ [K|[]]; injection K as <-; reflexivity.
  - intros b j v c [<-|[<-|[]]] [K|[]] Hc; injection K as <- <-; apply smaller_cell_le; revert c Hc; apply forallb_forall; vm_compute; reflexivity.
  - exists g', h, o. do 3 eexists. split; [exact E|]. split; [exact H1|]. split; [exact H3|exact H4].
Qed.
