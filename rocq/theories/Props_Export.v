(** * From the Sesam file to the VTK file: C66

    examples/struc_example.py and the docstring of VtuWriter: a data set is opened,
    its nodes, elements and node results are fetched and given to VtuWriter.  [export]
    (Export.v) is that script; [cw] and [ow] are the dtypes of connectivity and
    offsets, which depend on the call and on the version of NumPy.  [vtu_file]
    (ExportSpec.v) says what a VTK file says, from its bytes; [shows_mesh] and
    [shows_field] when it shows the mesh and the results of the Sesam file. *)
From Coq Require Import Sorted.
From Verif Require Import Base Flt SeqFile H5 Schema Parsers Data Files Struc Convert SeqSpec StoreSpec ParserSpec LayoutSpec FileSpec ConvertSpec AssemblySpec
  StrucSpec StrucRes StrucExist SaysSpec SaysOpen SaysGives JobsSpec JobsProofs Vtu VtuSpec VtuText Export ExportSpec ExportNumbers ExportProofs
  Sample2 Sample SifName SifNameSpec SifNameProofs ConvertSample FileSample Survey SurveyProofs RealFiles Props_File Props_Jobs Props_Survey.
Open Scope string_scope.
Open Scope Z_scope.
Open Scope list_scope.

(** The file is written and shows the nodes, the elements and, for each result asked
    for, its values at the nodes. *)
Definition exported (h : h5) (o : sdata) (segs : list seg) : Prop := forall ns es, mesh_on segs ns es ->
  forall nms ms sets kind idx disconnected rs qs cw ow, proper_on segs es nms ms sets kind -> selected es nms ms sets kind idx ->
  pick es idx <> [] -> Forall drawn (pick es idx) -> Zlen ns < 2 ^ 31 -> Zlen (flat_map el_nodes (pick es idx)) < 2 ^ 31 ->
  (qs <> [] -> refs_on segs rs /\ (nosel sets kind = true -> forall j, (j < length ns)%nat -> In (no_of j) (flat_map el_nodes (pick es idx)))) ->
  Forall (source_on segs (length ns) rs) qs ->
  exists text g nd, export cw ow h o sets kind disconnected (map q_fld qs) = Ok text /\ vtu_file text g /\
    selected_nodes ns es (nosel sets kind) disconnected idx nd /\ shows_mesh ns (pick es idx) nd g /\ Forall2 (shows_field nd) qs (g_data g) /\
    (Forall (fun q => forallb value_char (f_name (q_fld q)) = true) qs -> xml_document text).
Lemma exported_ok h o segs : gives_mesh h o segs -> gives_node_results h o segs -> numbers_ok segs -> exported h o segs.
Proof.
  intros GM GR HK ns es HM nms ms sets kind idx dis rs qs cw ow HP HS HI HD B1 B2 HQ HF.
  destruct (export_shows h o segs cw ow ns es rs nms ms sets kind idx dis qs GM GR HK HM HP HS HI) as (text & g & nd & X1 & X2 & X3 & X4 & X5); try assumption.
  - eapply Forall_impl; [|exact HD]. intros e D. now left.
  - exists text, g, nd. split; [exact X1|]. split; [exact X2|]. split; [exact X3|]. split; [now apply shows_drawn|exact X5].
Qed.
Theorem C66_file : forall d top letter id segs g,
  sesam_file d top letter id segs -> first_level letter segs -> 0 < g_batch g ->
  exists g' h o, open_sif d top g = Ok (g', h, KFirst, o) /\ exported h o segs.
Proof.
  intros d top letter id segs g HF HL Hb. destruct (open_first d top letter id segs g HF HL Hb) as (g' & h & o & E & O & T).
  exists g', h, o. split; [exact E|]. apply exported_ok; [now apply gives_mesh_ok|now apply gives_node_results_ok|].
  destruct HF as (fp & no & ext & k & b & ps & _ & _ & _ & _ & _ & _ & HA). destruct (as_top _ _ _ _ _ _ _ _ _ _ HA) as (bs & _ & HB). exact (file_numbers _ _ _ _ _ _ HB).
Qed.
Print Assumptions C66_file.
(** The same from an HDF5 file that several files were converted into: for the top
    superelements and for those below them. *)
Theorem C66_converted : forall d usefp h l es, (forall j, In j l -> job_ok d usefp j) -> jobs_opened d usefp h l es -> forall j, In j l ->
  (forall o, get_data (j_top usefp j) es = Ok (KFirst, o) -> exported h o (j_segs j)) /\
  forall p b s o bs segs, has_sub d usefp j p b s -> get_data (under (j_top usefp j) s) es = Ok (KFirst, o) ->
    contents (j_kind j) b bs -> file_of [] (j_kind j) (pl_type p) true bs segs -> some_record segs -> exported h o segs.
Proof.
  intros d usefp h l es JO J j I. destruct (C64_getters d usefp h l es J j I) as [G1 G2]. split.
  - intros o E. destruct (G1 _ _ E eq_refl) as (A & _ & _ & B & _). apply exported_ok; [exact A|exact B|].
    destruct (as_top _ _ _ _ _ _ _ _ _ _ (jo_parts _ _ _ (JO j I))) as (bs & _ & HB). exact (file_numbers _ _ _ _ _ _ HB).
  - intros p b s o bs segs H1 H2 H3 H4 H5. destruct (G2 p b s _ o bs segs H1 H2 eq_refl H3 H4 H5) as (A & _ & _ & B & _). apply exported_ok; [exact A|exact B|exact (file_numbers _ _ _ _ _ _ H4)].
Qed.
Print Assumptions C66_converted.
(** Triangles with six nodes: their nodes stay in Sesam's order (writers.py:14-15 has
    no entry for the type), so the file does not show the mesh. *)
Theorem C66_six_nodes_refuted : forall h o segs ns es nms ms sets kind idx disconnected cw ow e,
  gives_mesh h o segs -> gives_node_results h o segs -> numbers_ok segs -> mesh_on segs ns es -> proper_on segs es nms ms sets kind -> selected es nms ms sets kind idx ->
  Forall (fun e => drawn e \/ six_nodes e) (pick es idx) -> Zlen ns < 2 ^ 31 -> Zlen (flat_map el_nodes (pick es idx)) < 2 ^ 31 ->
  In e (pick es idx) -> six_nodes e -> NoDup (el_nodes e) ->
  exists text g nd, export cw ow h o sets kind disconnected [] = Ok text /\ vtu_file text g /\ selected_nodes ns es (nosel sets kind) disconnected idx nd /\
    ~ shows_mesh ns (pick es idx) nd g.
Proof.
  intros h o segs ns es nms ms sets kind idx dis cw ow e GM GR HK HM HP HS HT B1 B2 HI H6 ND.
  destruct (export_shows h o segs cw ow ns es [] nms ms sets kind idx dis [] GM GR HK HM HP HS) as (text & g & nd & X1 & X2 & X3 & X4 & _); try assumption.
  - intro E. rewrite E in HI. destruct HI.
  - intro N. now elim N.
  - constructor.
  - exists text, g, nd. split; [exact X1|]. split; [exact X2|]. split; [exact X3|]. exact (six_wrong _ _ _ _ _ HI H6 ND X4).
Qed.
Print Assumptions C66_six_nodes_refuted.
(** The file of FileSample: a beam and a triangle, displacements of the second case. *)
Definition x_source : source := mkSource (mkFld "displacement" 1 (OneCase 4) true (B "displacement")) "RVNODDIS" "dis" q_blocks (Some [4]) (mkRef 2 1 4 0).
Definition x_export (fs : list fld) : Res bytes := q_open (fun h o => export W32 W64 h o [] "" false fs).
Example C66_case : sesam_file q_dir "barR5.SIF" "R" 5 q_segs /\ first_level "R" q_segs /\ 0 < g_batch glob0 /\ mesh_on q_segs q_ns q_es /\ refs_on q_segs q_refs /\
  proper_on q_segs q_es [] [] [] "" /\ selected q_es [] [] [] "" [0; 1]%nat /\ Forall drawn (pick q_es [0; 1]%nat) /\ source_on q_segs 3 q_refs x_source /\
  (exists h o text g nd, q_open (fun h o => export W32 W64 h o [] "" false [q_fld x_source]) = export W32 W64 h o [] "" false [q_fld x_source] /\
     export W32 W64 h o [] "" false [q_fld x_source] = Ok text /\ vtu_file text g /\
     shows_mesh q_ns q_es nd g /\ Forall2 (shows_field nd) [x_source] (g_data g) /\ xml_document text).
Proof.
  assert (HP : proper_on q_segs q_es [] [] [] "") by (apply proper_on_b; [intro K; congruence|vm_compute; reflexivity|cbn; tauto]).
  assert (HS : selected q_es [] [] [] "" [0; 1]%nat) by q_sel.
  assert (HD : Forall drawn (pick q_es [0; 1]%nat)) by (repeat (constructor; [cbn; tauto|]); constructor).
  assert (HF : source_on q_segs 3 q_refs x_source).
  { split; [now left|]. split; [exact q_has_dis|]. split; [right; exists 4; split; reflexivity|]. split; [unfold x_source, q_refs; cbn [q_fld q_cs q_ref f_run]; q_asked|]. split; [reflexivity|].
    eexists [_], _, []. split; [reflexivity|]. split; [cbn; intuition discriminate|]. repeat constructor. }
  split; [exact q_sesam|]. split; [exact q_first|]. split; [reflexivity|]. split; [exact q_mesh|]. split; [exact q_has_refs|]. split; [exact HP|]. split; [exact HS|]. split; [exact HD|]. split; [exact HF|].
  destruct (C66_file q_dir "barR5.SIF" "R" 5 q_segs glob0 q_sesam q_first eq_refl) as (g' & h & o & E & H).
  destruct (H q_ns q_es q_mesh [] [] [] "" [0; 1]%nat false q_refs [x_source] W32 W64 HP HS) as (text & g & nd & X1 & X2 & _ & X3 & X4 & X5).
  - discriminate.
  - exact HD.
  - reflexivity.
  - reflexivity.
  - intros _. split; [exact q_has_refs|]. intros _ j Hj. do 3 (destruct j as [|j]; [cbn; tauto|]). cbn in Hj. lia.
  - constructor; [exact HF|constructor].
  - exists h, o, text, g, nd. split; [unfold q_open; now rewrite E|]. split; [exact X1|]. split; [exact X2|]. split; [exact X3|]. split; [exact X4|]. apply X5. repeat constructor.
Qed.
Example C66_text : x_export [q_fld x_source] = Ok (s2l
"<VTKFile type=""UnstructuredGrid"" version=""1.0"" byte_order=""LittleEndian"" header_type=""UInt64"">
  <UnstructuredGrid>
    <Piece NumberOfPoints=""3"" NumberOfCells=""2"">
      <Points>
        <DataArray type=""Float32"" Name=""points"" NumberOfComponents=""3"" format=""binary"">
          JAAAAAAAAAAAAAAAAACgwAAAAAAAACBBAAAAAAAAAAAAACBBAADgQAAAgD8=
        </DataArray>
      </Points>
      <Cells>
        <DataArray type=""Int32"" Name=""connectivity"" NumberOfComponents=""1"" format=""binary"">
          FAAAAAAAAAABAAAAAAAAAAAAAAABAAAAAgAAAA==
        </DataArray>
        <DataArray type=""Int64"" Name=""offsets"" NumberOfComponents=""1"" format=""binary"">
          EAAAAAAAAAACAAAAAAAAAAUAAAAAAAAA
        </DataArray>
        <DataArray type=""Int64"" Name=""types"" NumberOfComponents=""1"" format=""binary"">
          EAAAAAAAAAADAAAAAAAAAAUAAAAAAAAA
        </DataArray>
      </Cells>
      <PointData>
        <DataArray type=""Float32"" Name=""displacement"" NumberOfComponents=""3"" format=""binary"">
          JAAAAAAAAAAAAFJDAABTQwAAVEMAAFxDAABdQwAAXkMAAGZDAABnQwAAaEM=
        </DataArray>
      </PointData>
    </Piece>
  </UnstructuredGrid>
</VTKFile>
").
Proof. unfold x_export. q_eval. Qed.
(** Several result cases, as in the docstring of VtuWriter where none is chosen: the
    array has three axes and is refused, after a part of the file has been written. *)
Theorem C66_all_cases_refuted : asked_refs 1 None q_refs q_refs /\ length q_refs = 2%nat /\
  x_export [mkFld "displacement" 1 AllCases false (B "displacement")] = Err VtkError /\
  x_export [mkFld "displacement" 1 AllCases true (B "displacement")] = Err VtkError.
Proof. split; [q_asked|]. split; [reflexivity|]. split; unfold x_export; q_eval. Qed.
Print Assumptions C66_all_cases_refuted.
(** A triangle with six nodes. *)
Definition s_text : list ascii :=
  flines [("IDENT", [1; 7; 3; 0]); ("GNODE", [1; 1; 6; 123456]); ("GNODE", [2; 2; 6; 123456]); ("GNODE", [3; 3; 6; 123456]); ("GNODE", [4; 4; 6; 123456]); ("GNODE", [5; 5; 6; 123456]); ("GNODE", [6; 6; 6; 123456]);
          ("GCOORD", [1; 0; 0; 0]); ("GCOORD", [2; 1; 0; 0]); ("GCOORD", [3; 2; 0; 0]); ("GCOORD", [4; 1; 1; 0]); ("GCOORD", [5; 0; 2; 0]); ("GCOORD", [6; 0; 1; 0]);
          ("GELMNT1", [1; 1; 26; 0]); ("", [1; 2; 3; 4]); ("", [5; 6]); ("IEND", [0; 0; 0; 0])].
Definition s_dir : dir := [("T7.FEM", s_text)].
Definition s_segs : list seg := Eval vm_compute in match survey s_dir "" "T" "FEM" "" 7 s_text with Some (segs, _) => segs | None => [] end.
Definition s_ns : list mnode := Eval vm_compute in fst (mesh_at s_segs).
Definition s_es : list melem := [mkElem 1 26 [1; 2; 3; 4; 5; 6]].
Example C66_six_nodes_case : survey s_dir "" "T" "FEM" "" 7 s_text = Some (s_segs, []) /\ mesh_of s_segs = Some (s_ns, s_es) /\ selected s_es [] [] [] "" [0]%nat /\
  Forall six_nodes s_es /\
  exists h o text g nd, gives_mesh h o s_segs /\ export W64 W64 h o [] "" false [] = Ok text /\ vtu_file text g /\ ~ shows_mesh s_ns s_es nd g.
Proof.
  assert (HV : survey s_dir "" "T" "FEM" "" 7 s_text = Some (s_segs, [])) by (vm_compute; reflexivity).
  assert (HM : mesh_of s_segs = Some (s_ns, s_es)) by (vm_compute; reflexivity).
  assert (HS : selected s_es [] [] [] "" [0]%nat) by q_sel.
  assert (H6 : Forall six_nodes s_es) by (constructor; [split; reflexivity|constructor]).
  repeat (split; [assumption|]).
  assert (SF : sesam_file s_dir "T7.FEM" "T" 7 s_segs).
  { exists "", (s2l "7"), "FEM", (fst (content_of s_text)), s_text, []. split; [|split; [|split; [|split; [|split; [|split]]]]].
    - sesam "T"%char (@nil ascii); [now left| |reflexivity]. right. right. right. apply spelled3. exists "F"%char, "E"%char, "M"%char. tauto.
    - apply has_ext_none. reflexivity.
    - intros X. apply spelled3 in X as (x & y & z & E & A & B & C). injection E as <- <- <-. destruct A; discriminate.
    - right. now left.
    - reflexivity.
    - reflexivity.
    - exact (survey_ok _ _ _ _ _ _ _ _ _ HV). }
  assert (FL : first_level "T" s_segs) by (left; split; [right; now left|vm_compute; reflexivity]).
  destruct (open_first s_dir "T7.FEM" "T" 7 s_segs glob0 SF FL eq_refl) as (g' & h & o & E & O & T).
  pose proof (mesh_of_ok s_segs s_ns s_es HM) as HM'.
  destruct (C66_six_nodes_refuted h o s_segs s_ns s_es [] [] [] "" [0]%nat false W64 W64 (mkElem 1 26 [1; 2; 3; 4; 5; 6])) as (text & g & nd & X1 & X2 & _ & X3).
  - now apply gives_mesh_ok.
  - now apply gives_node_results_ok.
  - destruct SF as (fp & no & ext & k & b & ps & _ & _ & _ & _ & _ & _ & HA). destruct (as_top _ _ _ _ _ _ _ _ _ _ HA) as (bs & _ & HB). exact (file_numbers _ _ _ _ _ _ HB).
  - exact HM'.
  - apply proper_on_b; [intro K; congruence|vm_compute; reflexivity|cbn; tauto].
  - exact HS.
  - replace (pick s_es [0]%nat) with s_es by reflexivity. eapply Forall_impl; [|exact H6]. intros e H. now right.
  - vm_compute. reflexivity.
  - vm_compute. reflexivity.
  - replace (pick s_es [0]%nat) with s_es by reflexivity. now left.
  - split; reflexivity.
  - cbn [el_nodes]. repeat (constructor; [cbn; intuition discriminate|]). constructor.
  - exists h, o, text, g, nd. split; [now apply gives_mesh_ok|]. split; [exact X1|]. split; [exact X2|]. replace (pick s_es [0]%nat) with s_es in X3 by reflexivity. exact X3.
Qed.
