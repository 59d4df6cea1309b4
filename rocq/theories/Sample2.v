(** * Sample2: a structural and a hydrodynamic file, record by record. *)
From Verif Require Import Base Flt SeqFile H5 Schema Parsers SeqSpec StoreSpec ParserSpec LayoutSpec FileSpec DataSpec
  ListFacts SeqProofs FltProofs NumProofs SeqMore StoreProofs ParserRun FileProofs Sample.
Open Scope string_scope.
Open Scope Z_scope.
Open Scope list_scope.

Definition fl := map f_of_Z.
(** A record: header numbers, numbers on continuation lines, row, data. *)
Definition rec_ (h d : list Z) (row : list pyval) (data : list (list pyval)) : item :=
  mkItem (fl h) (dlines d) (mkEntry row data).
Definition tline (s : string) : list ascii := s2l s ++ [nl].

Lemma frames1 s r b : forallb (fun c => negb (Ascii.eqb c nl)) (s2l s) = true -> frames Fmt r b -> frames Fmt (s2l s :: r) (tline s ++ b).
Proof.
  intros H F. constructor; [|exact F]. constructor. rewrite forallb_forall in H. intro X. apply H in X. now rewrite Ascii.eqb_refl in X.
Qed.

(** ** Structural *)
Definition s_hier2 := rec_ [9; 1; 1; 1] [2; 0; 0; 1; 2] (nums (fl [9; 1; 1; 1; 2; 0; 0; 1])) [nums (fl [2])].
Definition s_hier1 := rec_ [8; 2; 2; 1] [1; 0; 1; 0] (nums (fl [8; 2; 2; 1; 1; 0; 1; 0])) [[]].
Definition s_ident := mkItem (fl [2; 1; 3; 0]) [] (mkEntry [PI 2; PI 1; PI 3] []).
Definition s_date := mkItem (fl [1; 0; 2; 72]) (tline "        DATE:     16-NOV-2026" ++ tline "        PROGRAM:  PREFEM" ++ [])
  (mkEntry (nums (fl [1; 0; 2; 72])) [[PS (s2l "        DATE:     16-NOV-2026"); PS (s2l "        PROGRAM:  PREFEM")]]).
Definition s_name := mkItem (fl [4; 1; 105; 0]) ((tline "        DECK1   " ++ []) ++ [])
  (mkEntry (nums (fl [4; 1; 105; 0]) ++ [PS (concat [s2l "DECK1"])]) [[]]).
Definition s_node1 := rec_ [1; 1; 6; 123456] [] (nums (fl [1; 1; 6; 123456])) [].
Definition s_node2 := rec_ [2; 2; 6; 123456] [] (nums (fl [2; 2; 6; 123456])) [].
Definition s_coord1 := rec_ [1; 0; -5; 0] [] (nums (fl [1; 0; -5; 0])) [].
Definition s_coord2 := rec_ [2; 10] [] (nums (fl [2; 10; 0; 0])) []. (* short *)
Definition s_elem := rec_ [1; 1; 15; 0] [1; 2] (nums (fl [1; 1; 15; 0])) [nums (fl [1; 2])].
Definition s_ref := mkItem (fl [1; 1; 0; 0]) (fline "" [0; 0; 0; 0] ++ fline "" [-1; 0; 0; 0] ++ dlines [1; 2])
  (mkEntry (nums (fl [1; 1; 0; 0; 0; 0; 0; 0; -1; 0; 0; 0])) [nums (fl [1; 2]); []; []; []]).
Definition s_pipe1 := mkItem (fl [1; 0; 2; 1]) (flat_map (fline "") [[1; 1]])
  (mkEntry (nums (fl [1; 0; 2; 1; 1; 1; 0; 0])) []). (* without the optional ones *)
Definition s_pipe2 := rec_ [2; 0; 3; 1] [1; 1; 4; 5] (nums (fl [2; 0; 3; 1; 1; 1; 4; 5])) [].
Definition s_set := rec_ [8; 1; 1; 1] [0; 1; 2; 3] (nums (fl [8; 1; 1; 1; 0])) [nums (fl [1; 2; 3])].
Definition s_pts : list point := [(f_of_Z 1, fl [1; 2; 3]); (f_of_Z (-2), [])].
Definition s_xf := [fl [1; 0; 0]; fl [0; 1; 0]; fl [0; 0; 1]].
Definition s_points := rec_ [23; 1; 1; 15] [15; 1; 10102; 1; 0; 1; 1; 2; 3; -2; 1; 0; 0; 0; 1; 0; 0; 0; 1]
  (nums (fl [23; 1; 1; 15; 15; 1; 10102; 1; 0])) [[PT (nums (fl [1; 1; 2; 3]))]; [PT (tuples s_xf)]].
Definition s_resref := rec_ [10; 1; 0; 0] [0; 0; 1; 1; 1; 1] (nums (fl [10; 1; 0; 0; 0; 0; 1])) [[PT (nums (fl [1; 1; 1]))]].
Definition s_dis1 := rec_ [11; 1; 1; 1] [0; 1; 2; 3; 4; 5; 6] (nums (fl [11; 1; 1; 1; 0])) [nums (fl [1; 2; 3; 4; 5; 6])].
Definition s_dis2 := rec_ [11; 1; 2; 1] [0; 7; 8; 9; 10; 11; 12] (nums (fl [11; 1; 2; 1; 0])) [nums (fl [7; 8; 9; 10; 11; 12])].

Definition s_segs : list seg :=
  [Run "HIERARCH" [s_hier2; s_hier1]; Run "IDENT" [s_ident]; Run "DATE" [s_date]; Run "TDSETNAM" [s_name];
   Run "GNODE" [s_node1; s_node2]; Run "GCOORD" [s_coord1; s_coord2]; Run "GELMNT1" [s_elem]; Run "GELREF1" [s_ref];
   Run "GPIPE" [s_pipe1; s_pipe2]; Run "GSETMEMB" [s_set]; Run "RDPOINTS" [s_points]; Run "RDRESREF" [s_resref];
   Run "RVNODDIS" [s_dis1; s_dis2]; Look "IEND" (fl [0; 0; 0; 0]) []].
Definition s_text : list ascii :=
  fline "HIERARCH" [9; 1; 1; 1] ++ dlines [2; 0; 0; 1; 2] ++ fline "HIERARCH" [8; 2; 2; 1] ++ dlines [1; 0; 1; 0] ++
  fline "IDENT" [2; 1; 3; 0] ++
  fline "DATE" [1; 0; 2; 72] ++ tline "        DATE:     16-NOV-2026" ++ tline "        PROGRAM:  PREFEM" ++
  fline "TDSETNAM" [4; 1; 105; 0] ++ tline "        DECK1   " ++
  flines [("GNODE", [1; 1; 6; 123456]); ("GNODE", [2; 2; 6; 123456]); ("GCOORD", [1; 0; -5; 0]); ("GCOORD", [2; 10]);
          ("GELMNT1", [1; 1; 15; 0]); ("", [1; 2]);
          ("GELREF1", [1; 1; 0; 0]); ("", [0; 0; 0; 0]); ("", [-1; 0; 0; 0]); ("", [1; 2]);
          ("GPIPE", [1; 0; 2; 1]); ("", [1; 1]); ("GPIPE", [2; 0; 3; 1]); ("", [1; 1; 4; 5]);
          ("GSETMEMB", [8; 1; 1; 1]); ("", [0; 1; 2; 3]);
          ("RDPOINTS", [23; 1; 1; 15]); ("", [15; 1; 10102; 1]); ("", [0; 1; 1; 2]); ("", [3; -2; 1; 0]); ("", [0; 0; 1; 0]); ("", [0; 0; 1]);
          ("RDRESREF", [10; 1; 0; 0]); ("", [0; 0; 1; 1]); ("", [1; 1]);
          ("RVNODDIS", [11; 1; 1; 1]); ("", [0; 1; 2; 3]); ("", [4; 5; 6]);
          ("RVNODDIS", [11; 1; 2; 1]); ("", [0; 7; 8; 9]); ("", [10; 11; 12]);
          ("IEND", [0; 0; 0; 0])].

Ltac mem := first [apply str_in_spec; vm_compute; reflexivity | cbn; tauto].
Lemma in_laid n : (str_in n stored_types && negb (str_in n ["HIERARCH"; "IDENT"; "RSUPTRAN"; "HSUPTRAN"]))%bool = true -> In n laid_types.
Proof.
  intro H. unfold laid_types. apply filter_In. apply andb_true_iff in H as [H1 H2]. apply str_in_spec in H1. split; [exact H1|exact H2].
Qed.
Ltac laid := apply in_laid; vm_compute; reflexivity.
Ltac tr := apply int_of_trunc; vm_compute; reflexivity.
Ltac dl z := exact (data_lines _ z eq_refl).
Ltac hl n z := exact (head_line n z eq_refl eq_refl).
Ltac nh n z := apply next_header; hl n z.
(* one record, then [m] *)
Ltac one m z := eapply run_last; [|nh m z|discriminate].
Ltac run K := eapply (reads_run _ _ _ _ _ _ K); [left; reflexivity|laid|reflexivity|reflexivity|vm_compute; reflexivity| |apply putf_ok; vm_compute; reflexivity|]; cbn [s_ctx s_tabs s_hier s_names s_known app].
Ltac refs := first [left; split; [vm_compute; reflexivity|reflexivity] | right; split; [vm_compute; reflexivity|reflexivity]].

Lemma s_file0 : exists bs, bs = s_text /\ file_of [] Fmt 1 false bs s_segs.
Proof.
  eexists. split; [|unfold file_of, s_segs; do 4 eexists; split; [nh "HIERARCH" [9; 1; 1; 1]|]].
  2:{ eapply reads_hierarch; [reflexivity|left; reflexivity|reflexivity|tr|vm_compute; reflexivity| |apply putf_ok; vm_compute; reflexivity|].
      { eapply (run_more _ _ _ _ s_hier2); [|hl "HIERARCH" [8; 2; 2; 1]|one "IDENT" [2; 1; 3; 0]].
        - eapply (lay_hierarch _ _ (fl [9; 1; 1; 1]) _ _ _ _ (fl [2])); [reflexivity|tr|dl [2; 0; 0; 1; 2]].
        - eapply (lay_hierarch _ _ (fl [8; 2; 2; 1]) _ _ _ _ []); [reflexivity|tr|dl [1; 0; 1; 0]]. }
      eapply reads_ident; [left; reflexivity|vm_compute; reflexivity|tr|tr|tr|discriminate|apply putf_ok; vm_compute; reflexivity|nh "DATE" [1; 0; 2; 72]|].
      run (@nil Z).
      { one "TDSETNAM" [4; 1; 105; 0].
        eapply (lay_text _ _ _ _ _ _ _ _ [_; _]); [mem|tr|]. apply frames1; [reflexivity|]. apply frames1; [reflexivity|]. constructor. }
      run (@nil Z).
      { one "GNODE" [1; 1; 6; 123456].
        eapply (lay_name _ _ _ _ _ _ _ _ _ _ [s2l "DECK1"] [_] [] []); [mem|tr|tr|cbn; lia|cbn; lia| |constructor| | |constructor].
        - constructor; [|constructor]. apply (text_line_intro Fmt (s2l "DECK1") 8 3).
          cbn. unfold white. split; vm_compute; intuition (discriminate || congruence).
        - constructor; [|constructor]. repeat (constructor; [vm_compute; reflexivity|]). constructor.
        - apply (frames1 "        DECK1   "); [reflexivity|constructor]. }
      run (@nil Z).
      { eapply (run_more _ _ _ _ s_node1); [|hl "GNODE" [2; 2; 6; 123456]|one "GCOORD" [1; 0; -5; 0]].
        - eapply (lay_fixed _ _ _ "GNODE" 4 Lead0 (fl [1; 1; 6; 123456]) []); [cbn; tauto|reflexivity|now left|dl (@nil Z)].
        - eapply (lay_fixed _ _ _ "GNODE" 4 Lead0 (fl [2; 2; 6; 123456]) []); [cbn; tauto|reflexivity|now left|dl (@nil Z)]. }
      run (@nil Z).
      { eapply (run_more _ _ _ _ s_coord1); [|hl "GCOORD" [2; 10]|one "GELMNT1" [1; 1; 15; 0]].
        - eapply (lay_fixed _ _ _ "GCOORD" 4 Lead0 (fl [1; 0; -5; 0]) []); [cbn; tauto|reflexivity|now left|dl (@nil Z)].
        - eapply (lay_fixed _ _ _ "GCOORD" 4 Lead0 (fl [2; 10]) []); [cbn; tauto|reflexivity|now left|dl (@nil Z)]. }
      run (@nil Z).
      { one "GELREF1" [1; 1; 0; 0].
        eapply (lay_gelmnt1 _ _ _ _ _ _ _ 1 15 2); [tr|tr|cbn; tauto| |dl [1; 2]]; reflexivity. }
      run (@nil Z).
      { one "GPIPE" [1; 0; 2; 1].
        eapply (lay_gelref1 _ _ _ _ _ _ _ (fl [0; 0; 0; 0]) (f_of_Z (-1)) (f_of_Z 0) (f_of_Z 0) (f_of_Z 0) 1 15 2 (fl [1; 2]) [] [] []);
          [tr|reflexivity|cbn; tauto| |refs|refs|refs|refs|exact (cont_line _ [0; 0; 0; 0] eq_refl)|exact (cont_line _ [-1; 0; 0; 0] eq_refl)|dl [1; 2]]; reflexivity. }
      run (@nil Z).
      { eapply (run_more _ _ _ _ s_pipe1); [|hl "GPIPE" [2; 0; 3; 1]|one "GSETMEMB" [8; 1; 1; 1]].
        - eapply (lay_section_without _ _ _ "GPIPE" 8 2 (fl [1; 0; 2; 1]) (fl [1; 1]) _ [fl [1; 1]]); [cbn; tauto|reflexivity|reflexivity| | |hl "GPIPE" [2; 0; 3; 1]|mem].
          + repeat split; try (right; cbn; lia).
          + constructor; [exact (cont_line _ [1; 1] eq_refl)|constructor].
        - eapply (lay_section_with _ _ _ "GPIPE" 8 2 (fl [2; 0; 3; 1]) (fl [1; 1; 4; 5])); [cbn; tauto|reflexivity|reflexivity|dl [1; 1; 4; 5]]. }
      run (@nil Z).
      { one "RDPOINTS" [23; 1; 1; 15]. eapply (lay_gsetmemb _ _ _ _ _ _ _ _ (fl [1; 2; 3])); [tr|dl [0; 1; 2; 3]]. }
      run (@nil Z).
      { one "RDRESREF" [10; 1; 0; 0].
        eapply (lay_rdpoints _ _ _ _ _ _ _ _ _ _ _ _ 1 1 15 1 0 1 1 2 s_pts [s_xf]);
          [tr|tr|tr|tr|tr|lia|lia|tr|reflexivity| |tr| |dl [15; 1; 10102; 1; 0; 1; 1; 2; 3; -2; 1; 0; 0; 0; 1; 0; 0; 0; 1]].
        - constructor; [left; split; reflexivity|]. constructor; [right; split; reflexivity|constructor].
        - constructor; [|constructor]. split; [reflexivity|]. repeat constructor. }
      run (@nil Z).
      { one "RVNODDIS" [11; 1; 1; 1].
        eapply (lay_rdresref _ _ _ _ _ _ _ _ _ _ 1 0 [fl [1; 1; 1]]); [tr|tr|tr| |dl [0; 0; 1; 1; 1; 1]]. repeat constructor. }
      run (@nil Z).
      { eapply (run_more _ _ _ _ s_dis1); [|hl "RVNODDIS" [11; 1; 2; 1]|one "IEND" [0; 0; 0; 0]].
        - eapply (lay_nodres _ _ _ _ _ _ _ _ _ 1 (fl [1; 2; 3; 4; 5; 6])); [mem|tr|tr|reflexivity|dl [0; 1; 2; 3; 4; 5; 6]].
        - eapply (lay_nodres _ _ _ _ _ _ _ _ _ 1 (fl [7; 8; 9; 10; 11; 12])); [mem|tr|tr|reflexivity|dl [0; 7; 8; 9; 10; 11; 12]]. }
      eapply reads_iend; [left; reflexivity|vm_compute; reflexivity]. }
  vm_compute. reflexivity.
Qed.
Lemma s_file : file_of [] Fmt 1 false s_text s_segs.
Proof. destruct s_file0 as (bs & -> & H). exact H. Qed.

(** ** Hydrodynamic *)
Definition h_ident := mkItem (fl [1; 1; 3; 0]) [] (mkEntry [PI 1; PI 1; PI 3] []).
(* direction 30, 60; frequency 5, 6; the kinds in any order *)
Definition h_rs1 : list refkind := [(f_of_Z 1, [fl [30; 60]]); (f_of_Z 2, [fl [5; 6]])].
Definition h_rs2 : list refkind := [(f_of_Z 2, [fl [7; 8]; fl [9; 10]]); (f_of_Z 1, [fl [90; 120]; fl [180; 270]])].
Definition h_ref1 := rec_ [10; 1; 1; 2] [1; 30; 60; 2; 5; 6] (nums (fl [10; 1; 1; 2]))
  [tuples [fl [30; 60]]; tuples [fl [5; 6]]; tuples []].
Definition h_ref2 := rec_ [14; 2; 2; 2] [2; 7; 8; 9; 10; 1; 90; 120; 180; 270] (nums (fl [14; 2; 2; 2]))
  [tuples [fl [90; 120]; fl [180; 270]]; tuples [fl [7; 8]; fl [9; 10]]; tuples []].
Definition h_pairs : list (flt * flt) := map (fun z => (f_of_Z z, f_of_Z (z + 1))) [1; 3; 5; 7; 9; 11].
Definition h_mot1 := rec_ [16; 1; 1; 1] [1; 2; 3; 4; 5; 6; 7; 8; 9; 10; 11; 12] (nums (fl [16; 1; 1; 1]) ++ [PT (complexes h_pairs)]) [].
Definition h_mot2 := rec_ [10; 1; 2; 0] [1; 2; 3; 4; 5; 6] (nums (fl [10; 1; 2; 0]) ++ [PT (nums (fl [1; 2; 3; 4; 5; 6]))]) [].
Definition h_sf := rec_ [17; 1; 1; 1] [1; 1; 2; 3; 4; 5; 6; 7; 8; 9; 10; 11; 12] (nums (fl [17; 1; 1; 1; 1]) ++ [PT (complexes h_pairs)]) [].
Definition h_hd := rec_ [6; 1; 1; 21] [22; 23] (nums (fl [6; 1; 1]) ++ [PT (nums (fl [21; 22; 23]))]) [].
Definition h_md := rec_ [9; 1; 1; 31] [32; 33; 34; 35; 36] (nums (fl [9; 1; 1]) ++ [PT (nums (fl [31; 32; 33; 34; 35; 36]))]) [].
Definition h_fk := rec_ [12; 1; 1; 1] [1; 2; 3; 4; 5; 6; 7; 8]
  (nums (fl [12; 1; 1; 1]) ++ [PC (f_of_Z 1) (f_of_Z 2); PT (complexes (skipn 1 (firstn 4 h_pairs)))]) [].
Definition h_pp := rec_ [10; 1; 1; 1] [1; 1; 41; 42; 2; 3] (nums (fl [10; 1; 1; 1; 1; 1]) ++ [PC (f_of_Z 41) (f_of_Z 42); PF (f_of_Z 2); PF (f_of_Z 3)]) [].
Definition h_segs : list seg :=
  [Run "IDENT" [h_ident]; Run "WDRESREF" [h_ref1; h_ref2]; Run "W1MOTION" [h_mot1; h_mot2]; Run "W1SFORCE" [h_sf];
   Run "W2HDRIFT" [h_hd]; Run "W2MDRIFT" [h_md]; Run "WFLUIDKN" [h_fk]; Run "W1PANPRE" [h_pp]; Look "IEND" (fl [0; 0; 0; 0]) []].
Definition h_text : list ascii :=
  fline "IDENT" [1; 1; 3; 0] ++ fline "WDRESREF" [10; 1; 1; 2] ++ dlines [1; 30; 60; 2; 5; 6] ++
  fline "WDRESREF" [14; 2; 2; 2] ++ dlines [2; 7; 8; 9; 10; 1; 90; 120; 180; 270] ++
  fline "W1MOTION" [16; 1; 1; 1] ++ dlines [1; 2; 3; 4; 5; 6; 7; 8; 9; 10; 11; 12] ++
  fline "W1MOTION" [10; 1; 2; 0] ++ dlines [1; 2; 3; 4; 5; 6] ++
  fline "W1SFORCE" [17; 1; 1; 1] ++ dlines [1; 1; 2; 3; 4; 5; 6; 7; 8; 9; 10; 11; 12] ++
  fline "W2HDRIFT" [6; 1; 1; 21] ++ dlines [22; 23] ++ fline "W2MDRIFT" [9; 1; 1; 31] ++ dlines [32; 33; 34; 35; 36] ++
  fline "WFLUIDKN" [12; 1; 1; 1] ++ dlines [1; 2; 3; 4; 5; 6; 7; 8] ++
  fline "W1PANPRE" [10; 1; 1; 1] ++ dlines [1; 1; 41; 42; 2; 3] ++ fline "IEND" [0; 0; 0; 0].

Ltac no_kind := intros r [<-|[<-|[]]] (a & A1 & A2 & A3); cbn in *; lia.
Lemma h_file0 : exists bs, bs = h_text /\ file_of [] Fmt 1 false bs h_segs.
Proof.
  eexists. split; [|unfold file_of, h_segs; do 4 eexists; split; [nh "IDENT" [1; 1; 3; 0]|]].
  2:{ eapply reads_ident; [left; reflexivity|vm_compute; reflexivity|tr|tr|tr|reflexivity|apply putf_ok; vm_compute; reflexivity|nh "WDRESREF" [10; 1; 1; 2]|].
      run [1; 2].
      { assert (ND : NoDup [1; 2]) by (repeat constructor; cbn; intuition discriminate).
        eapply (run_more _ _ _ _ h_ref1); [|hl "WDRESREF" [14; 2; 2; 2]|one "W1MOTION" [16; 1; 1; 1]].
        - eapply (lay_wdresref _ _ _ _ _ _ _ h_rs1 1 [fl [30; 60]] [fl [5; 6]] []);
            [tr|tr|exact ND| | | | | |dl [1; 30; 60; 2; 5; 6]].
          + exists [1; 2]. split; [|apply Permutation.Permutation_refl]. constructor; [tr|]. constructor; [tr|constructor].
          + repeat constructor.
          + left. exists (f_of_Z 1). split; [cbn; tauto|tr].
          + left. exists (f_of_Z 2). split; [cbn; tauto|tr].
          + right. split; [no_kind|reflexivity].
        - eapply (lay_wdresref _ _ _ _ _ _ _ h_rs2 2 [fl [90; 120]; fl [180; 270]] [fl [7; 8]; fl [9; 10]] []);
            [tr|tr|exact ND| | | | | |dl [2; 7; 8; 9; 10; 1; 90; 120; 180; 270]].
          + exists [2; 1]. split; [|apply Permutation.perm_swap]. constructor; [tr|]. constructor; [tr|constructor].
          + repeat constructor.
          + left. exists (f_of_Z 1). split; [cbn; tauto|tr].
          + left. exists (f_of_Z 2). split; [cbn; tauto|tr].
          + right. split; [no_kind|reflexivity]. }
      run (@nil Z).
      { eapply (run_more _ _ _ _ h_mot1); [|hl "W1MOTION" [10; 1; 2; 0]|one "W1SFORCE" [17; 1; 1; 1]].
        - eapply (lay_six_complex _ _ _ _ _ _ _ _ 1 h_pairs); [mem|tr|discriminate|reflexivity|dl [1; 2; 3; 4; 5; 6; 7; 8; 9; 10; 11; 12]].
        - eapply (lay_six_real _ _ _ _ _ _ _ _ (fl [1; 2; 3; 4; 5; 6])); [mem|tr|reflexivity|dl [1; 2; 3; 4; 5; 6]]. }
      run (@nil Z).
      { one "W2HDRIFT" [6; 1; 1; 21].
        eapply (lay_w1sforce_complex _ _ _ _ _ _ _ _ 1 h_pairs); [tr|discriminate|reflexivity|dl [1; 1; 2; 3; 4; 5; 6; 7; 8; 9; 10; 11; 12]]. }
      run (@nil Z).
      { one "W2MDRIFT" [9; 1; 1; 31]. eapply (lay_w2hdrift _ _ _ _ _ _ _ (fl [22; 23])); [reflexivity|dl [22; 23]]. }
      run (@nil Z).
      { one "WFLUIDKN" [12; 1; 1; 1]. eapply (lay_w2mdrift _ _ _ _ _ _ _ (fl [32; 33; 34; 35; 36])); [reflexivity|dl [32; 33; 34; 35; 36]]. }
      run (@nil Z).
      { one "W1PANPRE" [10; 1; 1; 1].
        eapply (lay_wfluidkn_complex _ _ _ _ _ _ _ 1 (f_of_Z 1, f_of_Z 2) (skipn 1 (firstn 4 h_pairs))); [tr|discriminate|reflexivity|dl [1; 2; 3; 4; 5; 6; 7; 8]]. }
      run (@nil Z).
      { one "IEND" [0; 0; 0; 0].
        eapply (lay_w1panpre_complex _ _ _ (fl [10; 1; 1; 1]) _ _ 1); [reflexivity|tr|discriminate|dl [1; 1; 41; 42; 2; 3]]. }
      eapply reads_iend; [left; reflexivity|vm_compute; reflexivity]. }
  vm_compute. reflexivity.
Qed.
Lemma h_file : file_of [] Fmt 1 false h_text h_segs.
Proof. destruct h_file0 as (bs & -> & H). exact H. Qed.
