(** * Element results in the VTK file: C67

    The script of C66 with get_elementresults at the nodes, every element with points
    of its own (ElemExport.v).  ElemExportSpec.v says when a file shows them.  Exact
    arithmetic as in C65; how the numbers are rounded and stored ([dt_item]) is left
    open but for their width. *)
From Coq Require Import Reals.
From Verif Require Import Base Flt SeqFile H5 Schema Parsers Data Files Struc Convert SeqSpec StoreSpec ParserSpec LayoutSpec FileSpec ConvertSpec AssemblySpec
  StrucSpec StrucRes StrucExist SaysSpec SaysOpen SaysGives JobsSpec JobsProofs Nd Elem ElemSpec ElemResSpec ElemValuesSpec Props_Elem Props_ElemValues
  Vtu VtuSpec VtuText Export ExportSpec ExportNumbers ExportProofs ElemExport ElemExportSpec ElemExportProofs
  Sample2 Sample SifName SifNameSpec SifNameProofs ConvertSample ElemMore FileSample Props_File Props_Jobs.
Open Scope string_scope.
Open Scope Z_scope.
Open Scope list_scope.

Definition elements_exported (h : h5) (o : sdata) (segs : list seg) : Prop :=
  forall (F : Type) (zero one : F) add mul sub opp div inv s3 (num : cell -> F), numbers_with_root3 zero one add mul sub opp div inv s3 ->
  forall ns es, mesh_on segs ns es ->
  forall nms ms sets kind idx rs (qs : list (esource F)) cw ow, proper_on segs es nms ms sets kind -> selected es nms ms sets kind idx ->
  pick es idx <> [] -> Forall drawn (pick es idx) -> Zlen ns < 2 ^ 31 -> Zlen (flat_map el_nodes (pick es idx)) < 2 ^ 31 ->
  (qs <> [] -> refs_on segs rs) -> Forall (esource_on segs es rs idx kind) qs ->
  exists text points cells xs, elem_export zero one add mul sub opp div s3 num cw ow h o sets kind (map es_fld qs) = Ok text /\ vtu_parts text points cells xs /\
    at_their_nodes ns (pick es idx) points /\ own_points 0 (pick es idx) cells /\ Forall2 (shows_elem zero one add mul sub opp div s3 num es idx) qs xs /\
    (Forall (fun q => forallb value_char (ef_name (es_fld q)) = true) qs -> xml_document text).
Lemma elements_exported_ok h o segs : gives_mesh h o segs -> (forall F zero one add mul sub opp div s3 num, gives_element_results F zero one add mul sub opp div s3 num h o segs) ->
  numbers_ok segs -> elements_exported h o segs.
Proof.
  intros GM GE HK F zero one add mul sub opp div inv s3 num HN ns es HM nms ms sets kind idx rs qs cw ow HP HS HI HD B1 B2 HR HF.
  exact (elem_exported F zero one add mul sub opp div inv s3 num h o segs cw ow ns es rs nms ms sets kind idx qs HN GM (GE _ _ _ _ _ _ _ _ _ _) HK HM HP HS HI HD B1 B2 HR HF).
Qed.
Theorem C67_file : forall d top letter id segs g,
  sesam_file d top letter id segs -> first_level letter segs -> 0 < g_batch g ->
  exists g' h o, open_sif d top g = Ok (g', h, KFirst, o) /\ elements_exported h o segs.
Proof.
  intros d top letter id segs g HF HL Hb. destruct (open_first d top letter id segs g HF HL Hb) as (g' & h & o & E & O & T).
  exists g', h, o. split; [exact E|]. apply elements_exported_ok; [now apply gives_mesh_ok|intros; now apply gives_element_results_ok|].
  destruct HF as (fp & no & ext & k & b & ps & _ & _ & _ & _ & _ & _ & HA). destruct (as_top _ _ _ _ _ _ _ _ _ _ HA) as (bs & _ & HB). exact (file_numbers _ _ _ _ _ _ HB).
Qed.
Print Assumptions C67_file.
(** From an HDF5 file that several files were converted into. *)
Theorem C67_converted : forall d usefp h l es, (forall j, In j l -> job_ok d usefp j) -> jobs_opened d usefp h l es -> forall j, In j l ->
  (forall o, get_data (j_top usefp j) es = Ok (KFirst, o) -> elements_exported h o (j_segs j)) /\
  forall p b s o bs segs, has_sub d usefp j p b s -> get_data (under (j_top usefp j) s) es = Ok (KFirst, o) ->
    contents (j_kind j) b bs -> file_of [] (j_kind j) (pl_type p) true bs segs -> some_record segs -> elements_exported h o segs.
Proof.
  intros d usefp h l es JO J j I. destruct (C64_getters d usefp h l es J j I) as [G1 G2]. split.
  - intros o E. destruct (G1 _ _ E eq_refl) as (A & _ & _ & _ & B). apply elements_exported_ok; [exact A|exact B|].
    destruct (as_top _ _ _ _ _ _ _ _ _ _ (jo_parts _ _ _ (JO j I))) as (bs & _ & HB). exact (file_numbers _ _ _ _ _ _ HB).
  - intros p b s o bs segs H1 H2 H3 H4 H5. destruct (G2 p b s _ o bs segs H1 H2 eq_refl H3 H4 H5) as (A & _ & _ & _ & B). apply elements_exported_ok; [exact A|exact B|exact (file_numbers _ _ _ _ _ _ H4)].
Qed.
Print Assumptions C67_converted.

(** The forces of the beam in the file of FileSample, first case. *)
Definition r_dtype : dtype R := mkDt "float64" 8 (fun _ => repeat (chr 0) 8).
Definition r_source : esource R := mkEsource (mkEfld "beamforce" 1 (OneCase 3) None (B "forces") r_dtype) "RVFORCES" "force" q_forces (Some [3]) (mkRef 1 1 3 0) [6%nat] 6 "Float64".
Example C67_case : proper_on q_segs q_es [] [] [] "beam" /\ selected q_es [] [] [] "beam" [0]%nat /\ Forall drawn (pick q_es [0]%nat) /\ esource_on q_segs q_es q_refs [0]%nat "beam" r_source /\
  exists h o text points cells xs, elem_export 0%R 1%R Rplus Rmult Rminus Ropp Rdiv (sqrt 3) e_num W64 W32 h o [] "beam" [es_fld r_source] = Ok text /\ vtu_parts text points cells xs /\
    own_points 0 (pick q_es [0]%nat) cells /\ xml_document text.
Proof.
  assert (HP : proper_on q_segs q_es [] [] [] "beam") by (apply proper_on_b; [intro K; congruence|vm_compute; reflexivity|cbn; tauto]).
  assert (HS : selected q_es [] [] [] "beam" [0]%nat) by q_sel.
  assert (HD : Forall drawn (pick q_es [0]%nat)) by (repeat (constructor; [cbn; tauto|]); constructor).
  assert (HF : esource_on q_segs q_es q_refs [0]%nat "beam" r_source).
  { split; [now left|]. split; [exact q_has_forces|]. split; [right; exists 3; split; reflexivity|]. split; [unfold r_source, q_refs; cbn [es_fld es_cs es_ref ef_run]; q_asked|]. split; [reflexivity|].
    split; [eexists [], _, [_]; split; [reflexivity|split; [cbn; intuition discriminate|reflexivity]]|].
    split; [|split; [reflexivity|split; [right; now left|reflexivity]]].
    intros j e [<-|[]] X. injection X as <-. exists 18%nat. split; [now left|]. intros b v [<-|[<-|[]]] _ [K|[]]; injection K as <-; eexists; (split; [reflexivity|reflexivity]). }
  split; [exact HP|]. split; [exact HS|]. split; [exact HD|]. split; [exact HF|].
  destruct (C67_file q_dir "barR5.SIF" "R" 5 q_segs glob0 q_sesam q_first eq_refl) as (g' & h & o & E & H).
  destruct (H R 0%R 1%R Rplus Rmult Rminus Ropp Rdiv Rinv (sqrt 3) e_num real_numbers q_ns q_es q_mesh [] [] [] "beam" [0]%nat q_refs [r_source] W64 W32 HP HS) as (text & points & cells & xs & X1 & X2 & _ & X4 & _ & X5).
  - discriminate.
  - exact HD.
  - reflexivity.
  - reflexivity.
  - intros _. exact q_has_refs.
  - constructor; [exact HF|constructor].
  - exists h, o, text, points, cells, xs. split; [exact X1|]. split; [exact X2|]. split; [exact X4|]. apply X5. repeat constructor.
Qed.
(** The text, with the numbers of the file in single precision (the forces of a beam
    with two nodes are those of the record). *)
Definition c_dtype : dtype cell := mkDt "float32" 4 item.
Example C67_text : q_open (fun h o => elem_export (CI 0) (CI 1) op2 op2 op2 zf op2 (CI 0) zf W64 W32 h o [] "beam" [mkEfld "beamforce" 1 (OneCase 3) None (B "forces") c_dtype]) = Ok (s2l
"<VTKFile type=""UnstructuredGrid"" version=""1.0"" byte_order=""LittleEndian"" header_type=""UInt64"">
  <UnstructuredGrid>
    <Piece NumberOfPoints=""2"" NumberOfCells=""1"">
      <Points>
        <DataArray type=""Float32"" Name=""points"" NumberOfComponents=""3"" format=""binary"">
          GAAAAAAAAAAAACBBAAAAAAAAAAAAAAAAAACgwAAAAAA=
        </DataArray>
      </Points>
      <Cells>
        <DataArray type=""Int64"" Name=""connectivity"" NumberOfComponents=""1"" format=""binary"">
          EAAAAAAAAAAAAAAAAAAAAAEAAAAAAAAA
        </DataArray>
        <DataArray type=""Int32"" Name=""offsets"" NumberOfComponents=""1"" format=""binary"">
          BAAAAAAAAAACAAAA
        </DataArray>
        <DataArray type=""Int64"" Name=""types"" NumberOfComponents=""1"" format=""binary"">
          CAAAAAAAAAADAAAAAAAAAA==
        </DataArray>
      </Cells>
      <PointData>
        <DataArray type=""Float32"" Name=""forces"" NumberOfComponents=""6"" format=""binary"">
          MAAAAAAAAAAAAMhCAADKQgAAzEIAAM5CAADQQgAA0kIAAOBCAADiQgAA5EIAAOZCAADoQgAA6kI=
        </DataArray>
      </PointData>
    </Piece>
  </UnstructuredGrid>
</VTKFile>
").
Proof. q_eval. Qed.
