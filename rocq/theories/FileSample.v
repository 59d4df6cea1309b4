(** * FileSample: a complete result file of one superelement: two elements, three
    nodes, a set, loads, displacements and beam forces of two cases. *)
From Verif Require Import Base Flt SeqFile H5 Schema Parsers SeqSpec StoreSpec ParserSpec LayoutSpec FileSpec DataSpec
  ListFacts SeqProofs FltProofs NumProofs SeqMore StoreProofs ParserRun FileProofs Sample Sample2
  SifNameSpec SifNameProofs Convert ConvertSpec AssemblySpec ConvertSample StrucSpec ElemResSpec StrucExist SaysSpec.
Open Scope string_scope.
Open Scope Z_scope.
Open Scope list_scope.

Definition q_ident := mkItem (fl [1; 5; 3; 0]) [] (mkEntry [PI 1; PI 5; PI 3] []).
Definition q_name := mkItem (fl [4; 1; 105; 0]) ((tline "        DECK1   " ++ []) ++ [])
  (mkEntry (nums (fl [4; 1; 105; 0]) ++ [PS (concat [s2l "DECK1"])]) [[]]).
Definition q_load (i : Z) (line name : string) := mkItem (fl [4; i; 104; 0]) ((tline line ++ []) ++ [])
  (mkEntry (nums (fl [4; i; 104; 0]) ++ [PS (concat [s2l name])]) [[]]).
Definition q_fix (l : list Z) := rec_ l [] (nums (fl l)) [].
Definition q_elem1 := rec_ [11; 1; 15; 0] [2; 1] (nums (fl [11; 1; 15; 0])) [nums (fl [2; 1])].
Definition q_elem2 := rec_ [12; 2; 25; 0] [1; 2; 3] (nums (fl [12; 2; 25; 0])) [nums (fl [1; 2; 3])].
Definition q_ref (e g : Z) := mkItem (fl [e; 1; 0; 0]) (fline "" [0; 0; 0; 0] ++ fline "" [g; 0; 0; 0] ++ dlines [])
  (mkEntry (nums (fl [e; 1; 0; 0; 0; 0; 0; 0; g; 0; 0; 0])) [[]; []; []; []]).
Definition q_beam := rec_ [7; 1; 2; 3] [4; 5; 6; 7; 8; 9; 10; 11; 12; 13; 14; 15]
  (nums (fl [7; 1; 2; 3; 4; 5; 6; 7; 8; 9; 10; 11; 12; 13; 14; 15])) [].
Definition q_th := rec_ [8; 20; 0] [] (nums (fl [8; 20; 0])) [].
Definition q_set := rec_ [6; 1; 1; 2] [0; 2] (nums (fl [6; 1; 1; 2; 0])) [nums (fl [2])].
Definition q_points := rec_ [12; 1; 1; 15] [0; 3; 10103; 0; 0; -1; -2; -3] (nums (fl [12; 1; 1; 15; 0; 3; 10103; 0; 0])) [[]; []].
Definition q_comp := rec_ [9; 15; 6; 1] [2; 3; 4; 5; 6] (nums (fl [9; 15; 6])) [nums (fl [1; 2; 3; 4; 5; 6])].
Definition q_case (i c : Z) := rec_ [7; i; 1; c] [0; 0; 0] (nums (fl [7; i; 1; c; 0; 0; 0])) [[]].
Definition q_dis (i n : Z) (v : list Z) := rec_ [11; i; n; 1] (0 :: v) (nums (fl [11; i; n; 1; 0])) [nums (fl v)].
Definition q_vals (z : Z) : list Z := map (fun i => z + Z.of_nat i) (seq 0 18).
Definition q_force (i z : Z) := rec_ [23; i; 1; 1] (15 :: q_vals z) (nums (fl [23; i; 1; 1; 15])) [nums (fl (q_vals z))].

Definition q_segs : list seg :=
  [Run "IDENT" [q_ident]; Run "TDSETNAM" [q_name]; Run "TDLOAD" [q_load 3 "        DEAD    " "DEAD"; q_load 4 "        LIVE    " "LIVE"];
   Run "GNODE" [q_fix [101; 1; 6; 123456]; q_fix [103; 2; 6; 123456]; q_fix [102; 3; 6; 123456]];
   Run "GCOORD" [q_fix [1; 0; -5; 0]; q_fix [2; 10; 0; 0]; q_fix [3; 10; 7; 1]];
   Run "GELMNT1" [q_elem1; q_elem2]; Run "GELREF1" [q_ref 1 7; q_ref 2 8]; Run "GBEAMG" [q_beam]; Run "GELTH" [q_th];
   Run "GSETMEMB" [q_set]; Run "RDPOINTS" [q_points]; Run "RDFORCES" [q_comp]; Run "RDRESREF" [q_case 1 3; q_case 2 4];
   Run "RVNODDIS" [q_dis 1 1 [110; 111; 112; 113; 114; 115]; q_dis 1 2 [120; 121; 122; 123; 124; 125]; q_dis 1 3 [130; 131; 132; 133; 134; 135]; q_dis 2 1 [210; 211; 212; 213; 214; 215]; q_dis 2 2 [220; 221; 222; 223; 224; 225]; q_dis 2 3 [230; 231; 232; 233; 234; 235]];
   Run "RVFORCES" [q_force 1 100; q_force 2 200]; Look "IEND" (fl [0; 0; 0; 0]) []].
Definition q_text : list ascii :=
  flines [("IDENT", [1; 5; 3; 0]); ("TDSETNAM", [4; 1; 105; 0])] ++ tline "        DECK1   " ++
  fline "TDLOAD" [4; 3; 104; 0] ++ tline "        DEAD    " ++ fline "TDLOAD" [4; 4; 104; 0] ++ tline "        LIVE    " ++
  flines [("GNODE", [101; 1; 6; 123456]); ("GNODE", [103; 2; 6; 123456]); ("GNODE", [102; 3; 6; 123456]);
          ("GCOORD", [1; 0; -5; 0]); ("GCOORD", [2; 10; 0; 0]); ("GCOORD", [3; 10; 7; 1]);
          ("GELMNT1", [11; 1; 15; 0]); ("", [2; 1]); ("GELMNT1", [12; 2; 25; 0]); ("", [1; 2; 3]);
          ("GELREF1", [1; 1; 0; 0]); ("", [0; 0; 0; 0]); ("", [7; 0; 0; 0]); ("GELREF1", [2; 1; 0; 0]); ("", [0; 0; 0; 0]); ("", [8; 0; 0; 0]);
          ("GBEAMG", [7; 1; 2; 3]); ("", [4; 5; 6; 7]); ("", [8; 9; 10; 11]); ("", [12; 13; 14; 15]); ("GELTH", [8; 20; 0]);
          ("GSETMEMB", [6; 1; 1; 2]); ("", [0; 2]); ("RDPOINTS", [12; 1; 1; 15]); ("", [0; 3; 10103; 0]); ("", [0; -1; -2; -3]);
          ("RDFORCES", [9; 15; 6; 1]); ("", [2; 3; 4; 5]); ("", [6]);
          ("RDRESREF", [7; 1; 1; 3]); ("", [0; 0; 0]); ("RDRESREF", [7; 2; 1; 4]); ("", [0; 0; 0]);
          ("RVNODDIS", [11; 1; 1; 1]); ("", [0; 110; 111; 112]); ("", [113; 114; 115]); ("RVNODDIS", [11; 1; 2; 1]); ("", [0; 120; 121; 122]); ("", [123; 124; 125]); ("RVNODDIS", [11; 1; 3; 1]); ("", [0; 130; 131; 132]); ("", [133; 134; 135]);
          ("RVNODDIS", [11; 2; 1; 1]); ("", [0; 210; 211; 212]); ("", [213; 214; 215]); ("RVNODDIS", [11; 2; 2; 1]); ("", [0; 220; 221; 222]); ("", [223; 224; 225]); ("RVNODDIS", [11; 2; 3; 1]); ("", [0; 230; 231; 232]); ("", [233; 234; 235]);
          ("RVFORCES", [23; 1; 1; 1])] ++ dlines (15 :: q_vals 100) ++ fline "RVFORCES" [23; 2; 1; 1] ++ dlines (15 :: q_vals 200) ++ fline "IEND" [0; 0; 0; 0].

Ltac nameline n s l := eapply (lay_name _ _ _ _ _ _ _ _ _ _ [s2l s] [_] [] []); [mem|tr|tr|cbn; lia|cbn; lia| |constructor| | |constructor];
  [constructor; [|constructor]; apply (text_line_intro Fmt (s2l s) 8 n); cbn; unfold white; split; vm_compute; intuition (discriminate || congruence)
  |constructor; [|constructor]; repeat (constructor; [vm_compute; reflexivity|]); constructor
  |apply (frames1 l); [reflexivity|constructor]].
Ltac fixed n nc ld z := eapply (lay_fixed _ _ _ n nc ld (fl z) []); [cbn; tauto|reflexivity|now left|dl (@nil Z)].
Ltac more i n z := eapply (run_more _ _ _ _ i); [|hl n z|].
Lemma q_file0 : exists bs, bs = q_text /\ file_of [] Fmt 5 false bs q_segs.
Proof.
  eexists. split; [|unfold file_of, q_segs; do 4 eexists; split; [nh "IDENT" [1; 5; 3; 0]|]].
  2:{ eapply reads_ident; [left; reflexivity|vm_compute; reflexivity|tr|tr|tr|reflexivity|apply putf_ok; vm_compute; reflexivity|nh "TDSETNAM" [4; 1; 105; 0]|].
      run (@nil Z). { one "TDLOAD" [4; 3; 104; 0]. nameline 3%nat "DECK1" "        DECK1   ". }
      run (@nil Z). { more (q_load 3 "        DEAD    " "DEAD") "TDLOAD" [4; 4; 104; 0]; [nameline 4%nat "DEAD" "        DEAD    "|].
        one "GNODE" [101; 1; 6; 123456]. nameline 4%nat "LIVE" "        LIVE    ". }
      run (@nil Z). { more (q_fix [101; 1; 6; 123456]) "GNODE" [103; 2; 6; 123456]; [fixed "GNODE" 4%nat Lead0 [101; 1; 6; 123456]|].
        more (q_fix [103; 2; 6; 123456]) "GNODE" [102; 3; 6; 123456]; [fixed "GNODE" 4%nat Lead0 [103; 2; 6; 123456]|].
        one "GCOORD" [1; 0; -5; 0]. fixed "GNODE" 4%nat Lead0 [102; 3; 6; 123456]. }
      run (@nil Z). { more (q_fix [1; 0; -5; 0]) "GCOORD" [2; 10; 0; 0]; [fixed "GCOORD" 4%nat Lead0 [1; 0; -5; 0]|].
        more (q_fix [2; 10; 0; 0]) "GCOORD" [3; 10; 7; 1]; [fixed "GCOORD" 4%nat Lead0 [2; 10; 0; 0]|].
        one "GELMNT1" [11; 1; 15; 0]. fixed "GCOORD" 4%nat Lead0 [3; 10; 7; 1]. }
      run (@nil Z). { more q_elem1 "GELMNT1" [12; 2; 25; 0]; [eapply (lay_gelmnt1 _ _ _ _ _ _ _ 1 15 2); [tr|tr|cbn; tauto| |dl [2; 1]]; reflexivity|].
        one "GELREF1" [1; 1; 0; 0]. eapply (lay_gelmnt1 _ _ _ _ _ _ _ 2 25 3); [tr|tr|cbn; tauto| |dl [1; 2; 3]]; reflexivity. }
      run (@nil Z). { more (q_ref 1 7) "GELREF1" [2; 1; 0; 0].
        - eapply (lay_gelref1 _ _ _ _ _ _ _ (fl [0; 0; 0; 0]) (f_of_Z 7) (f_of_Z 0) (f_of_Z 0) (f_of_Z 0) 1 15 2 [] [] [] []);
            [tr|reflexivity|cbn; tauto| |refs|refs|refs|refs|exact (cont_line _ [0; 0; 0; 0] eq_refl)|exact (cont_line _ [7; 0; 0; 0] eq_refl)|dl (@nil Z)]; reflexivity.
        - one "GBEAMG" [7; 1; 2; 3]. eapply (lay_gelref1 _ _ _ _ _ _ _ (fl [0; 0; 0; 0]) (f_of_Z 8) (f_of_Z 0) (f_of_Z 0) (f_of_Z 0) 2 25 3 [] [] [] []);
            [tr|reflexivity|cbn; tauto| |refs|refs|refs|refs|exact (cont_line _ [0; 0; 0; 0] eq_refl)|exact (cont_line _ [8; 0; 0; 0] eq_refl)|dl (@nil Z)]; reflexivity. }
      run (@nil Z). { one "GELTH" [8; 20; 0].
        eapply (lay_fixed _ _ _ "GBEAMG" 16 Lead8 (fl [7; 1; 2; 3]) (fl [4; 5; 6; 7; 8; 9; 10; 11; 12; 13; 14; 15])); [cbn; tauto|reflexivity|now right|dl [4; 5; 6; 7; 8; 9; 10; 11; 12; 13; 14; 15]]. }
      run (@nil Z). { one "GSETMEMB" [6; 1; 1; 2]. fixed "GELTH" 3%nat Lead0 [8; 20; 0]. }
      run (@nil Z). { one "RDPOINTS" [12; 1; 1; 15]. eapply (lay_gsetmemb _ _ _ _ _ _ _ _ (fl [2])); [tr|dl [0; 2]]. }
      run (@nil Z). { one "RDFORCES" [9; 15; 6; 1].
        eapply (lay_rdpoints _ _ _ _ _ _ _ _ _ _ _ _ 1 1 15 3 0 1 1 3 [(f_of_Z (-1), []); (f_of_Z (-2), []); (f_of_Z (-3), [])] []);
          [tr|tr|tr|tr|tr|lia|lia|tr|reflexivity| |tr|constructor|dl [0; 3; 10103; 0; 0; -1; -2; -3]].
        repeat (constructor; [right; split; reflexivity|]). constructor. }
      run (@nil Z). { one "RDRESREF" [7; 1; 1; 3]. eapply (lay_compdef _ _ _ _ "RVFORCES" _ _ _ _ 15 (fl [2; 3; 4; 5; 6])); [cbn; tauto|tr|tr|dl [2; 3; 4; 5; 6]]. }
      run (@nil Z). { more (q_case 1 3) "RDRESREF" [7; 2; 1; 4].
        - eapply (lay_rdresref _ _ _ _ _ _ _ _ _ _ 1 0 []); [tr|tr|tr|constructor|dl [0; 0; 0]].
        - one "RVNODDIS" [11; 1; 1; 1]. eapply (lay_rdresref _ _ _ _ _ _ _ _ _ _ 2 0 []); [tr|tr|tr|constructor|dl [0; 0; 0]]. }
      run (@nil Z). {
        more (q_dis 1 1 [110; 111; 112; 113; 114; 115]) "RVNODDIS" [11; 1; 2; 1]; [eapply (lay_nodres _ _ _ _ _ _ _ _ _ 1 (fl [110; 111; 112; 113; 114; 115])); [mem|tr|tr|reflexivity|dl [0; 110; 111; 112; 113; 114; 115]]|].
        more (q_dis 1 2 [120; 121; 122; 123; 124; 125]) "RVNODDIS" [11; 1; 3; 1]; [eapply (lay_nodres _ _ _ _ _ _ _ _ _ 1 (fl [120; 121; 122; 123; 124; 125])); [mem|tr|tr|reflexivity|dl [0; 120; 121; 122; 123; 124; 125]]|].
        more (q_dis 1 3 [130; 131; 132; 133; 134; 135]) "RVNODDIS" [11; 2; 1; 1]; [eapply (lay_nodres _ _ _ _ _ _ _ _ _ 1 (fl [130; 131; 132; 133; 134; 135])); [mem|tr|tr|reflexivity|dl [0; 130; 131; 132; 133; 134; 135]]|].
        more (q_dis 2 1 [210; 211; 212; 213; 214; 215]) "RVNODDIS" [11; 2; 2; 1]; [eapply (lay_nodres _ _ _ _ _ _ _ _ _ 2 (fl [210; 211; 212; 213; 214; 215])); [mem|tr|tr|reflexivity|dl [0; 210; 211; 212; 213; 214; 215]]|].
        more (q_dis 2 2 [220; 221; 222; 223; 224; 225]) "RVNODDIS" [11; 2; 3; 1]; [eapply (lay_nodres _ _ _ _ _ _ _ _ _ 2 (fl [220; 221; 222; 223; 224; 225])); [mem|tr|tr|reflexivity|dl [0; 220; 221; 222; 223; 224; 225]]|].
        one "RVFORCES" [23; 1; 1; 1]. eapply (lay_nodres _ _ _ _ _ _ _ _ _ 2 (fl [230; 231; 232; 233; 234; 235])); [mem|tr|tr|reflexivity|dl [0; 230; 231; 232; 233; 234; 235]]. }
      run (@nil Z). { more (q_force 1 100) "RVFORCES" [23; 2; 1; 1].
        - eapply (lay_elmres _ _ _ _ _ _ _ _ _ 1 1 1 15 3 6 0 (fl (q_vals 100))); [mem|tr|tr|tr|tr|reflexivity|reflexivity|reflexivity|reflexivity|dl (15 :: q_vals 100)].
        - one "IEND" [0; 0; 0; 0]. eapply (lay_elmres _ _ _ _ _ _ _ _ _ 2 1 1 15 3 6 0 (fl (q_vals 200))); [mem|tr|tr|tr|tr|reflexivity|reflexivity|reflexivity|reflexivity|dl (15 :: q_vals 200)]. }
      eapply reads_iend; [left; reflexivity|vm_compute; reflexivity]. }
  vm_compute. reflexivity.
Qed.
Lemma q_file : file_of [] Fmt 5 false q_text q_segs.
Proof. destruct q_file0 as (bs & -> & H). exact H. Qed.

(** What the file says. *)
Definition fz (z : Z) : cell := CF (round32 (f_of_Z z)).
Definition q_ns := [mkNode 101 [fz 0; fz (-5); fz 0]; mkNode 103 [fz 10; fz 0; fz 0]; mkNode 102 [fz 10; fz 7; fz 1]].
Definition q_es := [mkElem 11 15 [2; 1]; mkElem 12 25 [1; 2; 3]].
Definition q_nms : list setname := [(s2l "DECK1", 1)].
Definition q_ms : list memrec := [(1, 2, [2])].
Definition q_refs := [mkRef 1 1 3 0; mkRef 2 1 4 0].
Definition q_loads := [(3, s2l "DEAD"); (4, s2l "LIVE")].
Definition q_geo := [7; 8].
Definition q_sections := [(7, map fz [1; 2; 3; 4; 5; 6; 7; 8; 9; 10; 11; 12; 13; 14; 15])].
Definition q_ths := [(8, fz 20)].
Definition q_blocks : list block := [(1, [map fz [110; 111; 112; 113; 114; 115]; map fz [120; 121; 122; 123; 124; 125]; map fz [130; 131; 132; 133; 134; 135]]); (2, [map fz [210; 211; 212; 213; 214; 215]; map fz [220; 221; 222; 223; 224; 225]; map fz [230; 231; 232; 233; 234; 235]])].
Definition q_forces : list eblock := [(1, [(0%nat, map fz (q_vals 100))]); (2, [(0%nat, map fz (q_vals 200))])].
Definition q_dir : dir := [("barR5.SIF", q_text)].

Fixpoint all_say {A} (says : nat -> entry -> A -> Prop) (j : nat) (es : list entry) (xs : list A) : Prop :=
  match es, xs with [], [] => True | e :: es, x :: xs => says j e x /\ all_say says (S j) es xs | _, _ => False end.
Lemma all_say_nth {A} (says : nat -> entry -> A -> Prop) : forall es i xs, all_say says i es xs ->
  length es = length xs /\ forall j e x, nth_error es j = Some e -> nth_error xs j = Some x -> says (i + j)%nat e x.
Proof.
  induction es as [|e es IH]; intros i [|x xs] G; try contradiction; [split; [reflexivity|intros [|j]; discriminate]|].
  destruct G as [G1 G2]. destruct (IH _ _ G2) as [L N]. split; [cbn; now rewrite L|]. intros [|j] e' x' E X.
  - injection E as <-. injection X as <-. now rewrite Nat.add_0_r.
  - rewrite <- plus_n_Sm. exact (N j e' x' E X).
Qed.
Lemma listed_all {A} n segs (says : nat -> entry -> A -> Prop) xs : entries_of n segs <> [] -> all_say says 0 (entries_of n segs) xs -> listed n segs says xs.
Proof. intros H G. split; [exact H|]. exact (all_say_nth says _ _ _ G). Qed.
Definition unnum (l : list pyval) : list flt := map (fun v => match v with PF f => f | _ => f0 end) l.
Ltac at_ := eexists; split; [reflexivity|first [tr | vm_compute; reflexivity | exact (fix_bytes_is 64 _)]].
Ltac lst e := exists (unnum (hd [] (e_data e))); split; [vm_compute; reflexivity|first [vm_compute; reflexivity | repeat (constructor; [tr|]); constructor]].
Ltac parts_ := repeat match goal with
  | |- _ /\ _ => split | |- int_at _ _ _ => at_ | |- real_at _ _ _ => at_ | |- text_at _ _ _ => at_ | |- int_list ?e _ => lst e | |- real_list ?e _ => lst e | |- True => exact I end.
Ltac listed_ := apply listed_all; [vm_compute; discriminate|];
  match goal with |- all_say _ _ ?l _ => let v := eval vm_compute in l in change l with v end;
  unfold q_ns, q_es, q_nms, q_ms, q_refs, q_loads, q_geo, q_sections, q_ths; cbn [all_say].
Lemma q_mesh : mesh_on q_segs q_ns q_es.
Proof.
  split; [|split; [|split]].
  - listed_. unfold node_says. parts_.
  - listed_. unfold coord_says. parts_; match goal with |- exists x y z, _ /\ _ /\ _ /\ n_xyz ?n = _ => exists (nth 0 (n_xyz n) (CI 0)), (nth 1 (n_xyz n) (CI 0)), (nth 2 (n_xyz n) (CI 0)) end; parts_; vm_compute; reflexivity.
  - listed_. unfold elem_says. parts_.
  - repeat constructor; try discriminate; vm_compute; discriminate.
Qed.
Lemma q_sets : sets_on q_segs q_nms q_ms.
Proof.
  split.
  - listed_. unfold setname_says. parts_.
  - listed_. unfold member_says. parts_.
Qed.
Lemma q_has_refs : refs_on q_segs q_refs.
Proof. unfold refs_on. listed_. unfold ref_says. parts_. Qed.
Lemma q_has_loads : loads_on q_segs q_loads.
Proof. unfold loads_on. listed_. unfold load_says. parts_. Qed.
Lemma q_has_geo : geo_on q_segs q_geo.
Proof. unfold geo_on. listed_. unfold geo_says. parts_. Qed.
Lemma q_has_sections : sections_on q_segs q_sections.
Proof.
  unfold sections_on. listed_. unfold section_says. parts_; [reflexivity|].
  intros i c H. do 15 (destruct i as [|i]; [injection H as <-; at_|]). destruct i; discriminate.
Qed.
Lemma q_has_ths : thicknesses_on q_segs q_ths.
Proof. unfold thicknesses_on. listed_. unfold thickness_says. parts_. Qed.
Lemma q_has_dis : noderes_on q_segs "RVNODDIS" 3 q_blocks.
Proof. split; [repeat constructor|]. unfold q_blocks. match goal with |- listed _ _ _ ?l => let v := eval cbv [flat flat_map map combine seq length app fst snd] in l in change l with v end. listed_. unfold noderes_says. parts_. Qed.
Lemma q_has_forces : elemres_on q_segs "RVFORCES" q_es q_forces.
Proof. unfold elemres_on, q_forces. cbn [eflat flat_map map app fst snd]. listed_. unfold elemres_says. cbn [fst snd]. split; [|split; [|exact I]]; eexists; (split; [reflexivity|]); parts_. Qed.
Lemma q_sesam : sesam_file q_dir "barR5.SIF" "R" 5 q_segs.
Proof.
  exists "bar", (s2l "5"), "SIF", Fmt, q_text, []. split; [|split; [|split; [|split; [|split; [|split]]]]].
  - sesam "R"%char (@nil ascii); [now left| |reflexivity]. left. apply spelled3. exists "S"%char, "I"%char, "F"%char. tauto.
  - apply has_ext_none. reflexivity.
  - intros X. apply spelled3 in X as (x & y & z & E & A & B & C). injection E as <- <- <-. destruct C; discriminate.
  - now left.
  - reflexivity.
  - reflexivity.
  - constructor.
    + discriminate.
    + exists q_text. split; [|exact q_file]. constructor; [vm_compute; discriminate|apply plain_text; vm_compute; reflexivity].
    + do 2 eexists. left. reflexivity.
    + unfold hierarchy_of. replace (entries_of "HIERARCH" q_segs) with (@nil entry) by (vm_compute; reflexivity). constructor.
    + intros [|i] p H; discriminate.
    + intros p b [].
    + constructor.
Qed.
Lemma q_first : first_level "R" q_segs.
Proof. left. split; [now left|vm_compute; reflexivity]. Qed.
Lemma proper_on_b segs es nms ms sets kind : (sets <> [] -> sets_on segs nms ms) ->
  (match sets with [] => true | _ => properb es nms ms sets kind end = true) -> In kind [""; "beam"; "shell"] ->
  proper_on segs es nms ms sets kind.
Proof.
  intros H1 H2 H3. split; [|exact H3]. intro Hne. pose proof (H1 Hne) as A1. split; [exact A1|].
  assert (properb es nms ms sets kind = true) as HB by (destruct sets; [congruence|exact H2]). unfold properb in HB. rewrite !andb_true_iff in HB.
  destruct HB as [[B1 B2] B3]. rewrite forallb_forall in B1, B3. apply existsb_exists in B2. split; [|split].
  - intros nm Hn. specialize (B1 nm Hn). destruct (number_of nms nm) as [i|] eqn:E; [|discriminate]. exists i. now apply number_of_spec.
  - destruct B2 as (nm & Hn & B2). destruct (number_of nms nm) as [i|] eqn:E; [|discriminate]. apply existsb_exists in B2. destruct B2 as ([[a b] l] & H & K).
    cbn [fst snd] in K. rewrite andb_true_iff, !Z.eqb_eq in K. destruct K as [-> ->]. exists nm, i, l. split; [exact Hn|]. split; [now apply number_of_spec|exact H].
  - intros nm z Hn (i & l & Hi & Hm & Hz). specialize (B3 nm Hn). apply number_of_spec in Hi. rewrite Hi in B3. rewrite forallb_forall in B3. specialize (B3 _ Hm).
    cbn [fst snd] in B3. rewrite !Z.eqb_refl in B3. cbn [negb andb orb] in B3. rewrite forallb_forall in B3. specialize (B3 z Hz). lia.
Qed.
