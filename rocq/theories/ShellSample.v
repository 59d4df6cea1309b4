(** * ShellSample: a result file with the stresses of a triangular shell. *)
From Verif Require Import Base Flt SeqFile H5 Schema Parsers SeqSpec StoreSpec ParserSpec LayoutSpec FileSpec DataSpec
  ListFacts SeqProofs FltProofs NumProofs SeqMore StoreProofs ParserRun FileProofs Sample Sample2
  SifNameSpec SifNameProofs Convert ConvertSpec AssemblySpec ConvertSample StrucSpec ElemResSpec StrucExist SaysSpec FileSample.
Open Scope string_scope.
Open Scope Z_scope.
Open Scope list_scope.

Definition t_elem := rec_ [12; 1; 25; 0] [1; 2; 3] (nums (fl [12; 1; 25; 0])) [nums (fl [1; 2; 3])].
Definition t_points := rec_ [17; 1; 1; 25] [0; 8; 20104; 0; 0; -1; -2; -3; -4; -5; -6; -7; -8] (nums (fl [17; 1; 1; 25; 0; 8; 20104; 0; 0])) [[]; []].
Definition t_comp := rec_ [6; 25; 3; 1] [2; 3] (nums (fl [6; 25; 3])) [nums (fl [1; 2; 3])].
Definition t_vals (z : Z) : list Z := map (fun i => z + Z.of_nat i) (seq 0 24).
Definition t_stress (i z : Z) := rec_ [29; i; 1; 1] (25 :: t_vals z) (nums (fl [29; i; 1; 1; 25])) [nums (fl (t_vals z))].
(** The records, and the text of the file. *)
Definition t_segs : list seg :=
  [Run "IDENT" [q_ident];
   Run "GNODE" [q_fix [101; 1; 6; 123456]; q_fix [103; 2; 6; 123456]; q_fix [102; 3; 6; 123456]];
   Run "GCOORD" [q_fix [1; 0; -5; 0]; q_fix [2; 10; 0; 0]; q_fix [3; 10; 7; 1]];
   Run "GELMNT1" [t_elem]; Run "RDPOINTS" [t_points]; Run "RDSTRESS" [t_comp]; Run "RDRESREF" [q_case 1 3; q_case 2 4];
   Run "RVSTRESS" [t_stress 1 100; t_stress 2 200]; Look "IEND" (fl [0; 0; 0; 0]) []].
Definition t_text : list ascii :=
  flines [("IDENT", [1; 5; 3; 0]); ("GNODE", [101; 1; 6; 123456]); ("GNODE", [103; 2; 6; 123456]); ("GNODE", [102; 3; 6; 123456]);
          ("GCOORD", [1; 0; -5; 0]); ("GCOORD", [2; 10; 0; 0]); ("GCOORD", [3; 10; 7; 1]); ("GELMNT1", [12; 1; 25; 0]); ("", [1; 2; 3]);
          ("RDPOINTS", [17; 1; 1; 25])] ++ dlines [0; 8; 20104; 0; 0; -1; -2; -3; -4; -5; -6; -7; -8] ++
  flines [("RDSTRESS", [6; 25; 3; 1]); ("", [2; 3]); ("RDRESREF", [7; 1; 1; 3]); ("", [0; 0; 0]); ("RDRESREF", [7; 2; 1; 4]); ("", [0; 0; 0]);
          ("RVSTRESS", [29; 1; 1; 1])] ++ dlines (25 :: t_vals 100) ++ fline "RVSTRESS" [29; 2; 1; 1] ++ dlines (25 :: t_vals 200) ++ fline "IEND" [0; 0; 0; 0].
Lemma t_file0 : exists bs, bs = t_text /\ file_of [] Fmt 5 false bs t_segs.
Proof.
  eexists. split; [|unfold file_of, t_segs; do 4 eexists; split; [nh "IDENT" [1; 5; 3; 0]|]].
  2:{ eapply reads_ident; [left; reflexivity|vm_compute; reflexivity|tr|tr|tr|reflexivity|apply putf_ok; vm_compute; reflexivity|nh "GNODE" [101; 1; 6; 123456]|].
      run (@nil Z). { more (q_fix [101; 1; 6; 123456]) "GNODE" [103; 2; 6; 123456]; [fixed "GNODE" 4%nat Lead0 [101; 1; 6; 123456]|].
        more (q_fix [103; 2; 6; 123456]) "GNODE" [102; 3; 6; 123456]; [fixed "GNODE" 4%nat Lead0 [103; 2; 6; 123456]|].
        one "GCOORD" [1; 0; -5; 0]. fixed "GNODE" 4%nat Lead0 [102; 3; 6; 123456]. }
      run (@nil Z). { more (q_fix [1; 0; -5; 0]) "GCOORD" [2; 10; 0; 0]; [fixed "GCOORD" 4%nat Lead0 [1; 0; -5; 0]|].
        more (q_fix [2; 10; 0; 0]) "GCOORD" [3; 10; 7; 1]; [fixed "GCOORD" 4%nat Lead0 [2; 10; 0; 0]|].
        one "GELMNT1" [12; 1; 25; 0]. fixed "GCOORD" 4%nat Lead0 [3; 10; 7; 1]. }
      run (@nil Z). { one "RDPOINTS" [17; 1; 1; 25]. eapply (lay_gelmnt1 _ _ _ _ _ _ _ 1 25 3); [tr|tr|cbn; tauto| |dl [1; 2; 3]]; reflexivity. }
      run (@nil Z). { one "RDSTRESS" [6; 25; 3; 1].
        eapply (lay_rdpoints _ _ _ _ _ _ _ _ _ _ _ _ 1 1 25 8 0 2 1 4 (map (fun z => (f_of_Z z, [])) [-1; -2; -3; -4; -5; -6; -7; -8]) []);
          [tr|tr|tr|tr|tr|lia|lia|tr|reflexivity| |tr|constructor|dl [0; 8; 20104; 0; 0; -1; -2; -3; -4; -5; -6; -7; -8]].
        repeat (constructor; [right; split; reflexivity|]). constructor. }
      run (@nil Z). { one "RDRESREF" [7; 1; 1; 3]. eapply (lay_compdef _ _ _ _ "RVSTRESS" _ _ _ _ 25 (fl [2; 3])); [cbn; tauto|tr|tr|dl [2; 3]]. }
      run (@nil Z). { more (q_case 1 3) "RDRESREF" [7; 2; 1; 4].
        - eapply (lay_rdresref _ _ _ _ _ _ _ _ _ _ 1 0 []); [tr|tr|tr|constructor|dl [0; 0; 0]].
        - one "RVSTRESS" [29; 1; 1; 1]. eapply (lay_rdresref _ _ _ _ _ _ _ _ _ _ 2 0 []); [tr|tr|tr|constructor|dl [0; 0; 0]]. }
      run (@nil Z). { more (t_stress 1 100) "RVSTRESS" [29; 2; 1; 1].
        - eapply (lay_elmres _ _ _ _ _ _ _ _ _ 1 1 1 25 8 3 0 (fl (t_vals 100))); [mem|tr|tr|tr|tr|reflexivity|reflexivity|reflexivity|reflexivity|dl (25 :: t_vals 100)].
        - one "IEND" [0; 0; 0; 0]. eapply (lay_elmres _ _ _ _ _ _ _ _ _ 2 1 1 25 8 3 0 (fl (t_vals 200))); [mem|tr|tr|tr|tr|reflexivity|reflexivity|reflexivity|reflexivity|dl (25 :: t_vals 200)]. }
      eapply reads_iend; [left; reflexivity|vm_compute; reflexivity]. }
  vm_compute. reflexivity.
Qed.
Lemma t_file : file_of [] Fmt 5 false t_text t_segs.
Proof. destruct t_file0 as (bs & -> & H). exact H. Qed.

(** What the file says. *)
Definition t_es := [mkElem 12 25 [1; 2; 3]].
Definition t_stresses : list eblock := [(1, [(0%nat, map fz (t_vals 100))]); (2, [(0%nat, map fz (t_vals 200))])].
Definition t_dir : dir := [("plateR5.SIF", t_text)].
Lemma t_mesh : mesh_on t_segs q_ns t_es.
Proof.
  split; [|split; [|split]].
  - listed_. unfold node_says. parts_.
  - listed_. unfold coord_says. parts_; match goal with |- exists x y z, _ /\ _ /\ _ /\ n_xyz ?n = _ => exists (nth 0 (n_xyz n) (CI 0)), (nth 1 (n_xyz n) (CI 0)), (nth 2 (n_xyz n) (CI 0)) end; parts_; vm_compute; reflexivity.
  - unfold t_es. listed_. unfold elem_says. parts_.
  - repeat constructor; try discriminate; vm_compute; discriminate.
Qed.
Lemma t_has_refs : refs_on t_segs q_refs.
Proof. unfold refs_on. listed_. unfold ref_says. parts_. Qed.
Lemma t_has_stresses : elemres_on t_segs "RVSTRESS" t_es t_stresses.
Proof. unfold elemres_on, t_stresses. cbn [eflat flat_map map app fst snd]. listed_. unfold elemres_says. cbn [fst snd]. split; [|split; [|exact I]]; eexists; (split; [reflexivity|]); parts_. Qed.
Lemma t_sesam : sesam_file t_dir "plateR5.SIF" "R" 5 t_segs.
Proof.
  exists "plate", (s2l "5"), "SIF", Fmt, t_text, []. split; [|split; [|split; [|split; [|split; [|split]]]]].
  - sesam "R"%char (@nil ascii); [now left| |reflexivity]. left. apply spelled3. exists "S"%char, "I"%char, "F"%char. tauto.
  - apply has_ext_none. reflexivity.
  - intros X. apply spelled3 in X as (x & y & z & E & A & B & C). injection E as <- <- <-. destruct C; discriminate.
  - now left.
  - reflexivity.
  - reflexivity.
  - constructor.
    + discriminate.
    + exists t_text. split; [|exact t_file]. constructor; [vm_compute; discriminate|apply plain_text; vm_compute; reflexivity].
    + do 2 eexists. left. reflexivity.
    + unfold hierarchy_of. replace (entries_of "HIERARCH" t_segs) with (@nil entry) by (vm_compute; reflexivity). constructor.
    + intros [|i] p H; discriminate.
    + intros p b [].
    + constructor.
Qed.
Lemma t_first : first_level "R" t_segs.
Proof. left. split; [now left|vm_compute; reflexivity]. Qed.
