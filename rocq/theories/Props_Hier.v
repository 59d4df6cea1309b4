(** * Transformations of superelements, from the files: C82 *)
From Coq Require Import Ring_theory Sorting.Sorted.
From Verif Require Import Base ListFacts Flt SeqFile H5 Schema Parsers Data Struc StoreSpec ParserSpec LayoutSpec FileSpec RecordSpec DataSpec StrucSpec StrucExist DataFacts RecordProofs FileProofs SaysSpec SaysProofs SaysGives SaysOpen Trans TransSpec TransProofs Files FilesProofs
  SifNameSpec SifNameProofs SifName Convert ConvertSpec AssemblySpec AssemblyOpen CoordsProofs HierFile Describe DescribeProofs Survey SurveyProofs RealFiles ConvertProofs ConvertSample Sample Sample2 FileSample TransSample Props_Struc Props_Assembly Props_Survey.
Open Scope string_scope.
Open Scope Z_scope.
Open Scope list_scope.
Open Scope monad_scope.

(** C82.  What get_transformation gives for a data object with the records [segs]:
    [ss] the superelements in the HIERARCH records, [ts] the matrices in the
    HSUPTRAN records; in any arithmetic, with any product of matrices. *)
Definition gives_transformations (h : h5) (o : sdata) (segs : list seg) : Prop :=
  forall (A : Type) (zero one : A) times num ss ts top, supers_on segs ss -> shifts_on segs ts -> hierarchy ss ts top ->
  let get := get_transformation_with zero one num times h o in
  (forall s, In s ss ->
    (s <> top -> exists m ms, up num ss ts (s_level top) s (m :: ms) /\ get (s_type s) (s_index s) Trans.Top = Ok (fold_left times ms m)) /\
    (forall lev, s <> top -> 1 < lev <= s_level top ->
       (exists m ms, up num ss ts lev s (m :: ms) /\ get (s_type s) (s_index s) (Level lev) = Ok (fold_left times ms m)) \/
       (passes ss lev s /\ get (s_type s) (s_index s) (Level lev) = Err HierarchyError))) /\
  (forall t i, get t i (Level 1) = Ok [[one; zero; zero; zero]; [zero; one; zero; zero]; [zero; zero; one; zero]; [zero; zero; zero; one]]) /\
  (forall t i z, z < 1 \/ 1 < z /\ s_level top < z -> get t i (Level z) = Err HierarchyError).

Lemma gives_transformations_ok h o segs : d_open o = true -> tables h (d_group o) segs -> gives_transformations h o segs.
Proof.
  intros O T A zero one times num ss ts top S1 S2 HR. pose proof (supers_found _ _ _ _ T S1) as HH. pose proof (shifts_found _ _ _ _ T S2) as HT. cbv zeta.
  assert (Htop : hd_error ss = Some top) by apply HR. pose proof (hier_rising ss ts top HR) as RI.
  split; [|split].
  - intros s Hs. pose proof (the_super ss ts top HR s Hs) as TS. split.
    + intros Hn. assert (Hp : s_parent s <> 0) by (apply HR; assumption). destruct (to_top num ss ts top HR s Hs Hp) as (m & ms & U). exists m, ms. split; [exact U|].
      exact (transformation_ok zero one times num h o ss ts O HH HT RI top Htop _ _ Trans.Top s m ms I TS U).
    + intros lev Hn Hl. assert (Hp : s_parent s <> 0) by (apply HR; assumption).
      destruct (up_or_passes num ss ts top HR lev s Hs Hp ltac:(lia)) as [(m & ms & U)|U].
      * left. exists m, ms. split; [exact U|]. exact (transformation_ok zero one times num h o ss ts O HH HT RI top Htop _ _ (Level lev) s m ms Hl TS U).
      * right. split; [exact U|]. exact (transformation_passes zero one times num h o ss ts O HH HT RI top Htop _ _ (Level lev) s Hl TS (has_trans num ss ts top HR) Hp U).
  - intros t i. exact (transformation_level1 zero one times num h o ss ts O HH HT top Htop t i).
  - intros t i z Hz. exact (transformation_outside zero one times num h o ss ts O HH HT top Htop t i z Hz).
Qed.

(** The file of the top superelement: interface or input, or results of a level above the first *)
Definition top_level (letter : string) (segs : list seg) : Prop :=
  exists e es l, entries_of "HIERARCH" segs = e :: es /\ int_at e 4 l /\ (In letter ["T"; "L"] \/ letter = "R" /\ l <> 1).
Lemma top_kind letter segs pos kd : top_level letter segs -> top_pos segs pos -> opens_as letter pos kd -> kd = KTop.
Proof.
  intros (e & es & l & E & (f & N & TI) & L) TP OA. destruct TP as [X|e0 es0 f0 l0 X Y Z]; [congruence|].
  assert (e0 = e) by congruence. subst e0. assert (f0 = f) by congruence. subst f0. pose proof (trunc_unique _ _ _ Z TI) as ->.
  inversion OA; subst; try reflexivity.
  - destruct L as [L|[_ L]]; [cbn in L; intuition discriminate|congruence].
  - destruct L as [L|[L _]]; [cbn in L; intuition discriminate|discriminate].
Qed.

(** A file opened... *)
Theorem C82_file : forall d top letter id segs g, sesam_file d top letter id segs -> top_level letter segs -> 0 < g_batch g ->
  exists g' h o, open_sif d top g = Ok (g', h, KTop, o) /\ gives_transformations h o segs.
Proof.
  intros d top letter id segs g HF HL Hb. destruct HF as (fp & no & ext & k & b & ps & H1 & H2 & H3 & H4 & H5 & H6 & H7).
  assert (HC : complete letter segs). { intros ->. exfalso. destruct HL as (e & es & l & _ & _ & [L|[L _]]); [cbn in L; intuition discriminate|discriminate]. }
  destruct (open_assembly d top fp letter no ext k id b segs ps g H1 H2 H3 H4 H5 H7 H6 HC Hb) as (g' & h & kd & o & pos & E & T & TP & OA & G & _ & _ & _ & _ & O).
  rewrite (top_kind letter segs pos kd HL TP OA) in E. exists g', h, o. split; [exact E|]. apply gives_transformations_ok; [exact O|]. now rewrite G.
Qed.
Print Assumptions C82_file.
(** ...and one converted into a file with others, together with those of its superelements. *)
Theorem C82_converted : forall d top fp letter no ext (usefp : bool) prefix pre k id b segs ps g st out,
  sesam_name (s2l top) (s2l fp, s2l letter, no, s2l ext) -> no_extension (s2l fp) -> ~ sin_ext (s2l ext) -> In letter ["R"; "T"; "L"] -> out <> "" ->
  pre = (if usefp then prefix ++ fp else prefix)%string -> assembly d fp letter ext pre k id b segs ps -> file_in d top = Some b -> 0 < g_batch g -> top_level letter segs ->
  exists g' st' evs es o, sif2hdf5 d top (Some out) false usefp prefix [] g st = Ok (g', st', evs) /\ file_data (store_in st' out) = Ok es /\
    get_data (nm_of pre letter id) es = Ok (KTop, o) /\ gives_transformations (store_in st' out) o segs.
Proof.
  intros d top fp letter no ext usefp prefix pre k id b segs ps g st out N X S L O P A F G TL.
  destruct (C60_data_sets d top fp letter no ext usefp prefix pre k id b segs ps g st out N X S L O P A F G) as (g' & st' & evs & es & H1 & H2 & _ & (pos & kd & o & K1 & K2 & K3 & K4 & K5 & _ & _ & _ & K6) & _).
  rewrite (top_kind letter segs pos kd TL K2 K3) in K1. exists g', st', evs, es, o. split; [exact H1|]. split; [exact H2|]. split; [exact K1|]. now apply gives_transformations_ok.
Qed.
Print Assumptions C82_converted.

(** The hierarchy of three levels of TransSample, as a file *)
Definition t_text : list ascii :=
  flines [("HIERARCH", [10; 1; 3; 1]); ("", [3; 0; 0; 2]); ("", [2; 4]); ("HIERARCH", [9; 2; 2; 1]); ("", [2; 1; 1; 1]); ("", [3]);
          ("HIERARCH", [8; 3; 1; 1]); ("", [1; 2; 2; 0]); ("HIERARCH", [8; 4; 1; 2]); ("", [1; 3; 1; 0]); ("IDENT", [3; 3; 3; 0]);
          ("HSUPTRAN", [18; 1; 1; 0]); ("", [0; 0; 0; 1]); ("", [0; 0; 0; 0]); ("", [1; 0; 5; 0]); ("", [0; 1]);
          ("HSUPTRAN", [18; 2; 0; 1]); ("", [0; 0; 1; 0]); ("", [0; 0; 0; 0]); ("", [1; 0; 0; 0]); ("", [2; 1]);
          ("HSUPTRAN", [18; 3; 0; 1]); ("", [0; 0; -1; 0]); ("", [0; 0; 0; 0]); ("", [1; 0; 1; 2]); ("", [3; 1]); ("IEND", [0; 0; 0; 0])].
Definition t_dir : dir := [("shipT3.FEM", t_text)].
Definition t_segs : list seg := fst (or_none ([], []) (survey t_dir "ship" "T" "FEM" "ship" 3 t_text)).
Definition t_places : list place := snd (or_none ([], []) (survey t_dir "ship" "T" "FEM" "ship" 3 t_text)).
Lemma t_sesam : sesam_file t_dir "shipT3.FEM" "T" 3 t_segs.
Proof.
  exists "ship", (s2l "3"), "FEM". do 2 eexists. exists t_places. split; [|split; [|split; [|split; [|split; [|split]]]]].
  - sesam "T"%char (@nil ascii); [now left| |reflexivity]. right. right. right. apply spelled3. exists "F"%char, "E"%char, "M"%char. tauto.
  - apply has_ext_none. reflexivity.
  - intros X. apply spelled3 in X as (x & y & z & E & A & B & C). injection E as <- <- <-. destruct A; discriminate.
  - vm_compute. tauto.
  - reflexivity.
  - reflexivity.
  - apply (survey_ok t_dir "ship" "T" "FEM" "ship" 3 t_text t_segs t_places). vm_compute. reflexivity.
Qed.
Definition t_get (t i : Z) (lv : level) : Res (list (list Z)) :=
  dor (gh, o) <- open_sif t_dir "shipT3.FEM" glob0; get_transformation 0 1 Z.add Z.mul zn (snd (fst gh)) o t i lv.
Ltac int_at_ := eexists; split; [vm_compute; reflexivity|apply whole_ok; vm_compute; reflexivity].
Lemma t_supers : supers_on t_segs y_ss.
Proof.
  split; [vm_compute; discriminate|]. split; [vm_compute; reflexivity|].
  intros [|[|[|[|j]]]] e x He Hx; [| | | |destruct j; discriminate Hx]; injection Hx as <-; vm_compute in He; injection He as <-; do 5 (split; [int_at_|]); int_at_.
Qed.
Lemma t_shifts : shifts_on t_segs y_ts.
Proof.
  split; [vm_compute; discriminate|]. split; [vm_compute; reflexivity|].
  intros [|[|[|j]]] e x He Hx; [| | |destruct j; discriminate Hx]; injection Hx as <-; vm_compute in He; injection He as <-; (split; [vm_compute; reflexivity|]).
  - exists (map fl [[1; 0; 0; 0]; [0; 1; 0; 0]; [0; 0; 1; 0]; [5; 0; 0; 1]]). split; [vm_compute; reflexivity|]. split; [split; [reflexivity|repeat constructor]|vm_compute; reflexivity].
  - exists (map fl [[0; 1; 0; 0]; [1; 0; 0; 0]; [0; 0; 1; 0]; [0; 0; 2; 1]]). split; [vm_compute; reflexivity|]. split; [split; [reflexivity|repeat constructor]|vm_compute; reflexivity].
  - exists (map fl [[0; 1; 0; 0]; [-1; 0; 0; 0]; [0; 0; 1; 0]; [1; 2; 3; 1]]). split; [vm_compute; reflexivity|]. split; [split; [reflexivity|repeat constructor]|vm_compute; reflexivity].
Qed.
Example C82_case : sesam_file t_dir "shipT3.FEM" "T" 3 t_segs /\ top_level "T" t_segs /\ supers_on t_segs y_ss /\ shifts_on t_segs y_ts /\ hierarchy y_ss y_ts y_top /\
  t_get 1 1 Trans.Top = Ok [[0; 1; 0; 0]; [1; 0; 0; 0]; [0; 0; 1; 0]; [5; 0; 2; 1]] /\
  t_get 1 1 (Level 2) = Ok [[0; 1; 0; 0]; [1; 0; 0; 0]; [0; 0; 1; 0]; [0; 0; 2; 1]] /\
  t_get 1 2 Trans.Top = Ok [[0; 1; 0; 0]; [-1; 0; 0; 0]; [0; 0; 1; 0]; [1; 2; 3; 1]] /\
  t_get 1 2 (Level 2) = Err HierarchyError /\ t_get 1 1 (Level 4) = Err HierarchyError.
Proof.
  split; [exact t_sesam|]. split. { eexists. eexists. exists 3. split; [vm_compute; reflexivity|]. split; [int_at_|]. left. now left. }
  split; [exact t_supers|]. split; [exact t_shifts|]. split; [exact y_hierarchy|]. repeat (split; [vm_compute; reflexivity|]). vm_compute. reflexivity.
Qed.
(** The assembly of the repository's test files: the second part of type 3 is
    reflected, and shifted by 15. *)
Definition r_get (t i : Z) (lv : level) : Res (list (list Z)) := f_at repo_models "T100.FEM" "T100" (fun h o => get_transformation 0 1 Z.add Z.mul zn h o t i lv).
Example C82_case_repository :
  r_get 3 2 Trans.Top = Ok [[-1; 0; 0; 0]; [0; 1; 0; 0]; [0; 0; 1; 0]; [15; 0; 0; 1]] /\ r_get 3 2 (Level 2) = Ok [[-1; 0; 0; 0]; [0; 1; 0; 0]; [0; 0; 1; 0]; [15; 0; 0; 1]] /\
  r_get 1 1 Trans.Top = Ok [[1; 0; 0; 0]; [0; 1; 0; 0]; [0; 0; 1; 0]; [0; 0; 0; 1]] /\ r_get 20 1 (Level 2) = Err HierarchyError.
Proof. repeat (split; [vm_compute; reflexivity|]). vm_compute. reflexivity. Qed.
