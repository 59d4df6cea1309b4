(** * C69 from the text of a file. *)
From Coq Require Import Reals Lra Sorted.
From Verif Require Import Base Flt SeqFile H5 Schema Parsers Data Files Struc Convert SeqSpec StoreSpec ParserSpec LayoutSpec FileSpec ConvertSpec AssemblySpec
  StrucSpec StrucRes StrucExist SaysSpec SaysProofs SaysOpen SaysGives Nd NdProofs Elem ElemSpec ElemResSpec ElemMore ElemValuesSpec
  IeeeSpec IeeeFacts IeeeExists DotSpec CalcFloat ElemFloat ElemFloatSpec Props_Elem Props_ElemValues Props_ElemFloat
  Vtu VtuSpec Export ExportSpec ElemExport ElemExportSpec Sample2 Sample SifName SifNameSpec ConvertSample FileSample Props_File Props_Jobs Props_ElemExport.
Open Scope string_scope.
Open Scope Z_scope.
Open Scope list_scope.

(** The object of a file with one level, opened by its name: its real element results
    at the nodes, calculated on the machine, are those of the fields of the file's
    records up to the errors of C69. *)
Definition gives_rounded (num : cell -> R) (h : h5) (o : sdata) (segs : list seg) : Prop :=
  forall rs0 rd ra dot M ns es rs nms ms sets restype rn cn kind idx bs run cs arg sel sh,
  numpy rs0 rd ra dot -> (0 <= M <= powerRZ 2 100)%R ->
  mesh_on segs ns es -> refs_on segs rs -> In (restype, (rn, cn, kind)) result_kinds ->
  proper_on segs es nms ms sets kind -> selected es nms ms sets kind idx -> idx <> [] ->
  elemres_on segs rn es bs -> cases_arg cs arg -> asked_refs run cs rs sel -> sel <> [] -> NoDup (map rf_ires sel) ->
  (forall r, In r sel -> rf_complex r = 0) ->
  filter (fun i => zmem i (map rf_ires sel)) (map fst bs) = map rf_ires sel ->
  (forall b, In b bs -> In (fst b) (map rf_ires sel) -> map fst (filter (fun ev => existsb (Nat.eqb (fst ev)) idx) (snd b)) = idx) ->
  (forall j e, In j idx -> nth_error es j = Some e -> exists len, In (el_typ e, (len, length (el_nodes e), sh)) (elem_sizes restype) /\
     forall b v, In b bs -> In (fst b) (map rf_ires sel) -> In (j, v) (snd b) -> length v = len) ->
  (forall b j v c, In b bs -> In (j, v) (snd b) -> In c v -> Rabs (num c) <= M)%R ->
  exists parts : list (list (list R)),
    get_elementresults_fl rs0 rd ra dot num h o restype "nodes" run arg sets =
      Ok (with_cases (length sel) (length (flat_map el_nodes (pick es idx)) :: sh) (concat (map (@concat R) parts))) /\
    Forall2 (fun r ps => Forall2 (fun j found => exists e b v out, nth_error es j = Some e /\ In b bs /\ fst b = rf_ires r /\ In (j, v) (snd b) /\
      valuesR (el_typ e) restype (map num v) out /\ agree (tolerance (el_typ e) restype M) out found) idx ps) sel parts.
Lemma gives_rounded_ok num h o segs : d_open o = true -> tables h (d_group o) segs -> gives_rounded num h o segs.
Proof.
  intros O T rs0 rd ra dot M ns es rs nms ms sets restype rn cn kind idx bs run cs arg sel sh HN HM0 HM HR Hk HP HS Hne HB HA HX Hsel Hnd Hc Hord Hel Hsz Hbig.
  apply (C69_results rs0 rd ra dot M num h o ns es nms ms sets restype rn cn kind idx rs run cs arg sel bs sh HN HM0 O); try assumption.
  - now apply (mesh_found h _ segs).
  - now apply (proper_found h _ segs).
  - now apply (refs_found h _ segs).
  - apply (elemres_found h _ segs); [|exact T|exact HB]. cbn in Hk. destruct Hk as [K|[K|[K|[]]]]; injection K as <- <- <- <-; cbn; tauto.
Qed.
Theorem C69_file : forall d top letter id segs g num,
  sesam_file d top letter id segs -> first_level letter segs -> 0 < g_batch g ->
  exists g' h o, open_sif d top g = Ok (g', h, KFirst, o) /\ gives_rounded num h o segs.
Proof.
  intros d top letter id segs g num HF HL Hb. destruct (open_first d top letter id segs g HF HL Hb) as (g' & h & o & E & O & T).
  exists g', h, o. split; [exact E|]. now apply gives_rounded_ok.
Qed.
Print Assumptions C69_file.
(** The forces of the beam in the file of FileSample. *)
Definition small_cell (c : cell) : bool := match c with CF (FFin s m e) => (Z.pos m <? 2 ^ 60) && (e <=? 40) | _ => true end.
Lemma small_cell_le c : small_cell c = true -> (Rabs (e_num c) <= powerRZ 2 100)%R.
Proof.
  assert (P : (0 < powerRZ 2 100)%R) by (apply powerRZ_lt; lra).
  assert (Z0 : (Rabs 0 <= powerRZ 2 100)%R) by (rewrite Rabs_R0; lra).
  unfold small_cell, e_num. destruct c as [z|f|b|x y|l]; try (intros _; exact Z0). destruct f as [|b|b|s m e]; try (intros _; exact Z0). intro H.
  apply andb_prop in H. destruct H as [H1 H2]. apply Z.ltb_lt in H1. apply Z.leb_le in H2.
  assert (A : (0 < IZR (Z.pos m) <= powerRZ 2 60)%R) by (split; [apply IZR_lt; lia|rewrite p2_nat by lia; apply IZR_le; lia]).
  assert (B : (0 < powerRZ 2 e <= powerRZ 2 40)%R) by (split; [apply powerRZ_lt; lra|now apply p2_le]).
  rewrite !Rabs_mult. rewrite (Rabs_right (IZR (Z.pos m))), (Rabs_right (powerRZ 2 e)) by lra.
  replace (Rabs (if s then -1 else 1)) with 1%R by (destruct s; [rewrite Rabs_left|rewrite Rabs_right]; lra).
  change 100 with (60 + 40). rewrite p2_add, Rmult_1_l. apply Rmult_le_compat; lra.
Qed.
Example C69_file_case : exists g' h o parts, open_sif q_dir "barR5.SIF" glob0 = Ok (g', h, KFirst, o) /\
  get_elementresults_fl (ieee single) (ieee double) (ieee double) machine_dot e_num h o "beamforce" "nodes" 1 AllCases [] = Ok (with_cases 2 [2; 6]%nat parts).
Proof.
  destruct (C69_file q_dir "barR5.SIF" "R" 5 q_segs glob0 e_num q_sesam q_first eq_refl) as (g' & h & o & E & H).
  destruct (H (ieee single) (ieee double) (ieee double) machine_dot (powerRZ 2 100) q_ns q_es q_refs [] [] [] "beamforce" "RVFORCES" "force" "beam" [0]%nat q_forces 1 None AllCases q_refs [6]%nat) as (parts & H1 & _).
  - apply C69_numpy.
  - split; [apply Rlt_le, powerRZ_lt; lra|apply Rle_refl].
  - exact q_mesh.
  - exact q_has_refs.
  - left. reflexivity.
  - apply proper_on_b; [intro K; congruence|vm_compute; reflexivity|cbn; tauto].
  - q_sel.
  - discriminate.
  - exact q_has_forces.
  - reflexivity.
  - q_asked.
  - discriminate.
  - repeat constructor; cbn; intuition congruence.
  - intros r [<-|[<-|[]]]; reflexivity.
  - reflexivity.
  - intros b [<-|[<-|[]]] _; reflexivity.
  - intros j e [<-|[]] X. injection X as <-. exists 18%nat. split; [now left|]. intros b v [<-|[<-|[]]] _ [K|[]]; injection K as <-; reflexivity.
  - intros b j v c [<-|[<-|[]]] [K|[]] Hc; injection K as <- <-; apply small_cell_le; revert c Hc; apply forallb_forall; vm_compute; reflexivity.
  - exists g', h, o. eexists. split; [exact E|exact H1].
Qed.
