(** * HydroFileSample: a complete hydrodynamic file: two bodies, two directions,
    two frequencies. *)
From Coq Require Import Sorted.
From Verif Require Import Base Flt SeqFile H5 Schema Parsers SeqSpec StoreSpec ParserSpec LayoutSpec FileSpec DataSpec
  ListFacts SeqProofs FltProofs NumProofs SeqMore StoreProofs ParserRun FileProofs Sample Sample2
  SifNameSpec SifNameProofs Convert ConvertSpec AssemblySpec ConvertSample StrucSpec SaysSpec HydroSpec HydroSays HydroDefSpec FileSample.
Open Scope string_scope.
Open Scope Z_scope.
Open Scope list_scope.

Definition v_pairs (n : nat) (z : Z) : list (flt * flt) := map (fun i => (f_of_Z (z + Z.of_nat i), f_of_Z (- (z + Z.of_nat i)))) (seq 0 n).
Definition v_parts (n : nat) (z : Z) : list Z := flat_map (fun i => [z + Z.of_nat i; - (z + Z.of_nat i)]) (seq 0 n).
Definition v_mat (z : Z) : list (list Z) := map (fun i => map (fun j => z + 10 * i + j) [0; 1; 2; 3; 4; 5]) [0; 1; 2; 3; 4; 5].
Definition v_ident := mkItem (fl [1; 1; 3; 0]) [] (mkEntry [PI 1; PI 1; PI 3] []).
Definition v_ref (r d f : Z) := rec_ [10; r; 1; 2] [1; 1; d; 2; 1; f] (nums (fl [10; r; 1; 2])) [tuples [fl [1; d]]; tuples [fl [1; f]]; tuples []].
Definition v_glob := rec_ [5; 10; 1025; 1] [300] (nums (fl [5; 10; 1025; 1; 300])) [].
Definition v_body (b c : Z) := rec_ [4; c; b; 0] [] (nums (fl [4; c; b; 0])) [tuples []].
Definition v_row12 (c : Z) : list Z := map (fun k => 10 * c + k) [0; 1; 2; 3; 4; 5; 6; 7; 8; 9; 10; 11].
Definition v_4x4 (c : Z) : list (list Z) := map (fun i => map (fun j => 100 * c + 4 * i + j) [0; 1; 2; 3]) [0; 1; 2; 3].
Definition v_wbody (c : Z) := rec_ [32; c; c + 50; c + 60] (v_row12 c ++ concat (v_4x4 c)) (nums (fl ([32; c; c + 50; c + 60] ++ v_row12 c)) ++ [PT (tuples (map fl (v_4x4 c)))]) [].
Definition v_mot (c r z : Z) := rec_ [16; c; r; 1] (v_parts 6 z) (nums (fl [16; c; r; 1]) ++ [PT (complexes (v_pairs 6 z))]) [].
Definition v_drift (c r z : Z) := rec_ [6; c; r; z] [z + 1; z + 2] (nums (fl [6; c; r]) ++ [PT (nums (fl [z; z + 1; z + 2]))]) [].
Definition v_sec (s : Z) := rec_ [14; 2; s; 1] [7; 5 * s; 0; 0; 5 * s; 1; 0; 5 * s; 0; 1]
  (nums (fl [14; 2; s; 1; 7]) ++ [PT (nums (fl [5 * s; 0; 0])); PT (nums (fl [5 * s; 1; 0])); PT (nums (fl [5 * s; 0; 1]))]) [].
Definition v_sf (c s r z : Z) := rec_ [17; c; s; r] (1 :: v_parts 6 z) (nums (fl [17; c; s; r; 1]) ++ [PT (complexes (v_pairs 6 z))]) [].
Definition v_pt (p : Z) := rec_ [5; p; p; 0] [- p] (nums (fl [5; p]) ++ [PT (nums (fl [p; 0; - p]))]) [].
Definition v_fl (r p z : Z) := rec_ [12; r; p; 1] (v_parts 4 z) (nums (fl [12; r; p; 1]) ++ [PC (f_of_Z z) (f_of_Z (- z)); PT (complexes (skipn 1 (v_pairs 4 z)))]) [].
Definition v_pan (c r s p z : Z) := rec_ [10; c; r; 1] [s; 1; z; - z; p; 0] (nums (fl [10; c; r; 1; s; 1]) ++ [PC (f_of_Z z) (f_of_Z (- z)); PF (f_of_Z p); PF (f_of_Z 0)]) [].
Definition v_matr (i j t z : Z) := rec_ [42; 1; i; j] (0 :: t :: concat (v_mat z)) (nums (fl [42; 1; i; j; 0; t]) ++ [PT (tuples (map fl (v_mat z)))]) [].

Definition v_segs : list seg :=
  [Run "IDENT" [v_ident];
   Run "WDRESREF" [v_ref 11 3 2; v_ref 12 3 1; v_ref 13 0 2; v_ref 14 0 1];
   Run "WGLOBDEF" [v_glob];
   Run "WBODCON" [v_body 1 4; v_body 2 9];
   Run "WBODY" [v_wbody 4; v_wbody 9];
   Run "W1MOTION" [v_mot 4 11 1100; v_mot 9 11 2200; v_mot 4 12 1200; v_mot 9 12 2400; v_mot 4 13 1300; v_mot 9 13 2600; v_mot 4 14 1400; v_mot 9 14 2800];
   Run "W2HDRIFT" [v_drift 9 11 110; v_drift 9 12 120; v_drift 9 13 130; v_drift 9 14 140];
   Run "WSECTION" [v_sec 1; v_sec 2];
   Run "W1SFORCE" [v_sf 9 1 11 1110; v_sf 9 1 12 1120; v_sf 9 1 13 1130; v_sf 9 1 14 1140; v_sf 9 2 11 2110; v_sf 9 2 12 2120; v_sf 9 2 13 2130; v_sf 9 2 14 2140];
   Run "WFKPOINT" [v_pt 1; v_pt 2];
   Run "WFLUIDKN" [v_fl 11 1 1110; v_fl 11 2 1120; v_fl 12 1 1210; v_fl 12 2 1220; v_fl 13 1 1310; v_fl 13 2 1320; v_fl 14 1 1410; v_fl 14 2 1420];
   Run "W1PANPRE" [v_pan 9 11 1 1 11011; v_pan 9 11 1 2 11012; v_pan 9 11 1 3 11013; v_pan 9 11 2 1 11021; v_pan 9 11 2 2 11022; v_pan 9 11 2 3 11023; v_pan 9 12 1 1 12011; v_pan 9 12 1 2 12012; v_pan 9 12 1 3 12013; v_pan 9 12 2 1 12021; v_pan 9 12 2 2 12022; v_pan 9 12 2 3 12023; v_pan 9 13 1 1 13011; v_pan 9 13 1 2 13012; v_pan 9 13 1 3 13013; v_pan 9 13 2 1 13021; v_pan 9 13 2 2 13022; v_pan 9 13 2 3 13023; v_pan 9 14 1 1 14011; v_pan 9 14 1 2 14012; v_pan 9 14 1 3 14013; v_pan 9 14 2 1 14021; v_pan 9 14 2 2 14022; v_pan 9 14 2 3 14023];
   Run "W1MATRIX" [v_matr 9 9 11 100; v_matr 9 9 12 200; v_matr 4 4 12 300; v_matr 9 9 12 400; v_matr 9 9 11 500];
   Look "IEND" (fl [0; 0; 0; 0]) []].
Definition v_lines (n : string) (its : list (list Z * list Z)) : list ascii := flat_map (fun p => fline n (fst p) ++ dlines (snd p)) its.
Definition v_text : list ascii :=
  fline "IDENT" [1; 1; 3; 0] ++
  v_lines "WDRESREF" [([10; 11; 1; 2], [1; 1; 3; 2; 1; 2]); ([10; 12; 1; 2], [1; 1; 3; 2; 1; 1]); ([10; 13; 1; 2], [1; 1; 0; 2; 1; 2]); ([10; 14; 1; 2], [1; 1; 0; 2; 1; 1])] ++
  v_lines "WGLOBDEF" [([5; 10; 1025; 1], [300])] ++
  v_lines "WBODCON" [([4; 4; 1; 0], (@nil Z)); ([4; 9; 2; 0], (@nil Z))] ++
  v_lines "WBODY" [([32; 4; 54; 64], [40; 41; 42; 43; 44; 45; 46; 47; 48; 49; 50; 51; 400; 401; 402; 403; 404; 405; 406; 407; 408; 409; 410; 411; 412; 413; 414; 415]); ([32; 9; 59; 69], [90; 91; 92; 93; 94; 95; 96; 97; 98; 99; 100; 101; 900; 901; 902; 903; 904; 905; 906; 907; 908; 909; 910; 911; 912; 913; 914; 915])] ++
  v_lines "W1MOTION" [([16; 4; 11; 1], [1100; -1100; 1101; -1101; 1102; -1102; 1103; -1103; 1104; -1104; 1105; -1105]); ([16; 9; 11; 1], [2200; -2200; 2201; -2201; 2202; -2202; 2203; -2203; 2204; -2204; 2205; -2205]); ([16; 4; 12; 1], [1200; -1200; 1201; -1201; 1202; -1202; 1203; -1203; 1204; -1204; 1205; -1205]); ([16; 9; 12; 1], [2400; -2400; 2401; -2401; 2402; -2402; 2403; -2403; 2404; -2404; 2405; -2405]); ([16; 4; 13; 1], [1300; -1300; 1301; -1301; 1302; -1302; 1303; -1303; 1304; -1304; 1305; -1305]); ([16; 9; 13; 1], [2600; -2600; 2601; -2601; 2602; -2602; 2603; -2603; 2604; -2604; 2605; -2605]); ([16; 4; 14; 1], [1400; -1400; 1401; -1401; 1402; -1402; 1403; -1403; 1404; -1404; 1405; -1405]); ([16; 9; 14; 1], [2800; -2800; 2801; -2801; 2802; -2802; 2803; -2803; 2804; -2804; 2805; -2805])] ++
  v_lines "W2HDRIFT" [([6; 9; 11; 110], [111; 112]); ([6; 9; 12; 120], [121; 122]); ([6; 9; 13; 130], [131; 132]); ([6; 9; 14; 140], [141; 142])] ++
  v_lines "WSECTION" [([14; 2; 1; 1], [7; 5; 0; 0; 5; 1; 0; 5; 0; 1]); ([14; 2; 2; 1], [7; 10; 0; 0; 10; 1; 0; 10; 0; 1])] ++
  v_lines "W1SFORCE" [([17; 9; 1; 11], [1; 1110; -1110; 1111; -1111; 1112; -1112; 1113; -1113; 1114; -1114; 1115; -1115]); ([17; 9; 1; 12], [1; 1120; -1120; 1121; -1121; 1122; -1122; 1123; -1123; 1124; -1124; 1125; -1125]); ([17; 9; 1; 13], [1; 1130; -1130; 1131; -1131; 1132; -1132; 1133; -1133; 1134; -1134; 1135; -1135]); ([17; 9; 1; 14], [1; 1140; -1140; 1141; -1141; 1142; -1142; 1143; -1143; 1144; -1144; 1145; -1145]); ([17; 9; 2; 11], [1; 2110; -2110; 2111; -2111; 2112; -2112; 2113; -2113; 2114; -2114; 2115; -2115]); ([17; 9; 2; 12], [1; 2120; -2120; 2121; -2121; 2122; -2122; 2123; -2123; 2124; -2124; 2125; -2125]); ([17; 9; 2; 13], [1; 2130; -2130; 2131; -2131; 2132; -2132; 2133; -2133; 2134; -2134; 2135; -2135]); ([17; 9; 2; 14], [1; 2140; -2140; 2141; -2141; 2142; -2142; 2143; -2143; 2144; -2144; 2145; -2145])] ++
  v_lines "WFKPOINT" [([5; 1; 1; 0], [-1]); ([5; 2; 2; 0], [-2])] ++
  v_lines "WFLUIDKN" [([12; 11; 1; 1], [1110; -1110; 1111; -1111; 1112; -1112; 1113; -1113]); ([12; 11; 2; 1], [1120; -1120; 1121; -1121; 1122; -1122; 1123; -1123]); ([12; 12; 1; 1], [1210; -1210; 1211; -1211; 1212; -1212; 1213; -1213]); ([12; 12; 2; 1], [1220; -1220; 1221; -1221; 1222; -1222; 1223; -1223]); ([12; 13; 1; 1], [1310; -1310; 1311; -1311; 1312; -1312; 1313; -1313]); ([12; 13; 2; 1], [1320; -1320; 1321; -1321; 1322; -1322; 1323; -1323]); ([12; 14; 1; 1], [1410; -1410; 1411; -1411; 1412; -1412; 1413; -1413]); ([12; 14; 2; 1], [1420; -1420; 1421; -1421; 1422; -1422; 1423; -1423])] ++
  v_lines "W1PANPRE" [([10; 9; 11; 1], [1; 1; 11011; -11011; 1; 0]); ([10; 9; 11; 1], [1; 1; 11012; -11012; 2; 0]); ([10; 9; 11; 1], [1; 1; 11013; -11013; 3; 0]); ([10; 9; 11; 1], [2; 1; 11021; -11021; 1; 0]); ([10; 9; 11; 1], [2; 1; 11022; -11022; 2; 0]); ([10; 9; 11; 1], [2; 1; 11023; -11023; 3; 0]); ([10; 9; 12; 1], [1; 1; 12011; -12011; 1; 0]); ([10; 9; 12; 1], [1; 1; 12012; -12012; 2; 0]); ([10; 9; 12; 1], [1; 1; 12013; -12013; 3; 0]); ([10; 9; 12; 1], [2; 1; 12021; -12021; 1; 0]); ([10; 9; 12; 1], [2; 1; 12022; -12022; 2; 0]); ([10; 9; 12; 1], [2; 1; 12023; -12023; 3; 0]); ([10; 9; 13; 1], [1; 1; 13011; -13011; 1; 0]); ([10; 9; 13; 1], [1; 1; 13012; -13012; 2; 0]); ([10; 9; 13; 1], [1; 1; 13013; -13013; 3; 0]); ([10; 9; 13; 1], [2; 1; 13021; -13021; 1; 0]); ([10; 9; 13; 1], [2; 1; 13022; -13022; 2; 0]); ([10; 9; 13; 1], [2; 1; 13023; -13023; 3; 0]); ([10; 9; 14; 1], [1; 1; 14011; -14011; 1; 0]); ([10; 9; 14; 1], [1; 1; 14012; -14012; 2; 0]); ([10; 9; 14; 1], [1; 1; 14013; -14013; 3; 0]); ([10; 9; 14; 1], [2; 1; 14021; -14021; 1; 0]); ([10; 9; 14; 1], [2; 1; 14022; -14022; 2; 0]); ([10; 9; 14; 1], [2; 1; 14023; -14023; 3; 0])] ++
  v_lines "W1MATRIX" [([42; 1; 9; 9], [0; 11; 100; 101; 102; 103; 104; 105; 110; 111; 112; 113; 114; 115; 120; 121; 122; 123; 124; 125; 130; 131; 132; 133; 134; 135; 140; 141; 142; 143; 144; 145; 150; 151; 152; 153; 154; 155]); ([42; 1; 9; 9], [0; 12; 200; 201; 202; 203; 204; 205; 210; 211; 212; 213; 214; 215; 220; 221; 222; 223; 224; 225; 230; 231; 232; 233; 234; 235; 240; 241; 242; 243; 244; 245; 250; 251; 252; 253; 254; 255]); ([42; 1; 4; 4], [0; 12; 300; 301; 302; 303; 304; 305; 310; 311; 312; 313; 314; 315; 320; 321; 322; 323; 324; 325; 330; 331; 332; 333; 334; 335; 340; 341; 342; 343; 344; 345; 350; 351; 352; 353; 354; 355]); ([42; 1; 9; 9], [0; 12; 400; 401; 402; 403; 404; 405; 410; 411; 412; 413; 414; 415; 420; 421; 422; 423; 424; 425; 430; 431; 432; 433; 434; 435; 440; 441; 442; 443; 444; 445; 450; 451; 452; 453; 454; 455]); ([42; 1; 9; 9], [0; 11; 500; 501; 502; 503; 504; 505; 510; 511; 512; 513; 514; 515; 520; 521; 522; 523; 524; 525; 530; 531; 532; 533; 534; 535; 540; 541; 542; 543; 544; 545; 550; 551; 552; 553; 554; 555])] ++
  fline "IEND" [0; 0; 0; 0].

Ltac refl_ d f := eapply (lay_wdresref _ _ _ _ _ _ _ [(f_of_Z 1, [fl [1; d]]); (f_of_Z 2, [fl [1; f]])] 1 [fl [1; d]] [fl [1; f]] []);
  [tr|tr|repeat constructor; cbn; intuition discriminate| | | | | |dl [1; 1; d; 2; 1; f]];
  [exists [1; 2]; split; [|apply Permutation.Permutation_refl]; constructor; [tr|]; constructor; [tr|constructor]
  |repeat constructor
  |left; exists (f_of_Z 1); split; [cbn; tauto|tr]
  |left; exists (f_of_Z 2); split; [cbn; tauto|tr]
  |right; split; [no_kind|reflexivity]].
Lemma v_file0 : exists bs, bs = v_text /\ file_of [] Fmt 1 false bs v_segs.
Proof.
  eexists. split; [|unfold file_of, v_segs; do 4 eexists; split; [nh "IDENT" [1; 1; 3; 0]|]].
  2:{ eapply reads_ident; [left; reflexivity|vm_compute; reflexivity|tr|tr|tr|reflexivity|apply putf_ok; vm_compute; reflexivity|nh "WDRESREF" [10; 11; 1; 2]|].
      run [1; 2]. {
        more (v_ref 11 3 2) "WDRESREF" [10; 12; 1; 2]; [refl_ 3 2|].
        more (v_ref 12 3 1) "WDRESREF" [10; 13; 1; 2]; [refl_ 3 1|].
        more (v_ref 13 0 2) "WDRESREF" [10; 14; 1; 2]; [refl_ 0 2|].
        one "WGLOBDEF" [5; 10; 1025; 1]. refl_ 0 1. }
      run (@nil Z). {
        one "WBODCON" [4; 4; 1; 0]. eapply (lay_wglobdef_finite _ _ _ _ _ _ _ 1); [tr|discriminate|dl [300]]. }
      run (@nil Z). {
        more (v_body 1 4) "WBODCON" [4; 9; 2; 0]; [eapply (lay_combi _ _ _ _ _ _ _ _ []); [mem|tr|constructor|dl (@nil Z)]|].
        one "WBODY" [32; 4; 54; 64]. eapply (lay_combi _ _ _ _ _ _ _ _ []); [mem|tr|constructor|dl (@nil Z)]. }
      run (@nil Z). {
        more (v_wbody 4) "WBODY" [32; 9; 59; 69]; [eapply (lay_wbody _ _ _ (fl [32; 4; 54; 64]) (fl (v_row12 4)) (map fl (v_4x4 4))); [reflexivity|reflexivity|repeat constructor|dl (v_row12 4 ++ concat (v_4x4 4))]|].
        one "W1MOTION" [16; 4; 11; 1]. eapply (lay_wbody _ _ _ (fl [32; 9; 59; 69]) (fl (v_row12 9)) (map fl (v_4x4 9))); [reflexivity|reflexivity|repeat constructor|dl (v_row12 9 ++ concat (v_4x4 9))]. }
      run (@nil Z). {
        more (v_mot 4 11 1100) "W1MOTION" [16; 9; 11; 1]; [eapply (lay_six_complex _ _ _ _ _ _ _ _ 1 (v_pairs 6 1100)); [mem|tr|discriminate|reflexivity|dl [1100; -1100; 1101; -1101; 1102; -1102; 1103; -1103; 1104; -1104; 1105; -1105]]|].
        more (v_mot 9 11 2200) "W1MOTION" [16; 4; 12; 1]; [eapply (lay_six_complex _ _ _ _ _ _ _ _ 1 (v_pairs 6 2200)); [mem|tr|discriminate|reflexivity|dl [2200; -2200; 2201; -2201; 2202; -2202; 2203; -2203; 2204; -2204; 2205; -2205]]|].
        more (v_mot 4 12 1200) "W1MOTION" [16; 9; 12; 1]; [eapply (lay_six_complex _ _ _ _ _ _ _ _ 1 (v_pairs 6 1200)); [mem|tr|discriminate|reflexivity|dl [1200; -1200; 1201; -1201; 1202; -1202; 1203; -1203; 1204; -1204; 1205; -1205]]|].
        more (v_mot 9 12 2400) "W1MOTION" [16; 4; 13; 1]; [eapply (lay_six_complex _ _ _ _ _ _ _ _ 1 (v_pairs 6 2400)); [mem|tr|discriminate|reflexivity|dl [2400; -2400; 2401; -2401; 2402; -2402; 2403; -2403; 2404; -2404; 2405; -2405]]|].
        more (v_mot 4 13 1300) "W1MOTION" [16; 9; 13; 1]; [eapply (lay_six_complex _ _ _ _ _ _ _ _ 1 (v_pairs 6 1300)); [mem|tr|discriminate|reflexivity|dl [1300; -1300; 1301; -1301; 1302; -1302; 1303; -1303; 1304; -1304; 1305; -1305]]|].
        more (v_mot 9 13 2600) "W1MOTION" [16; 4; 14; 1]; [eapply (lay_six_complex _ _ _ _ _ _ _ _ 1 (v_pairs 6 2600)); [mem|tr|discriminate|reflexivity|dl [2600; -2600; 2601; -2601; 2602; -2602; 2603; -2603; 2604; -2604; 2605; -2605]]|].
        more (v_mot 4 14 1400) "W1MOTION" [16; 9; 14; 1]; [eapply (lay_six_complex _ _ _ _ _ _ _ _ 1 (v_pairs 6 1400)); [mem|tr|discriminate|reflexivity|dl [1400; -1400; 1401; -1401; 1402; -1402; 1403; -1403; 1404; -1404; 1405; -1405]]|].
        one "W2HDRIFT" [6; 9; 11; 110]. eapply (lay_six_complex _ _ _ _ _ _ _ _ 1 (v_pairs 6 2800)); [mem|tr|discriminate|reflexivity|dl [2800; -2800; 2801; -2801; 2802; -2802; 2803; -2803; 2804; -2804; 2805; -2805]]. }
      run (@nil Z). {
        more (v_drift 9 11 110) "W2HDRIFT" [6; 9; 12; 120]; [eapply (lay_w2hdrift _ _ _ _ _ _ _ (fl [111; 112])); [reflexivity|dl [111; 112]]|].
        more (v_drift 9 12 120) "W2HDRIFT" [6; 9; 13; 130]; [eapply (lay_w2hdrift _ _ _ _ _ _ _ (fl [121; 122])); [reflexivity|dl [121; 122]]|].
        more (v_drift 9 13 130) "W2HDRIFT" [6; 9; 14; 140]; [eapply (lay_w2hdrift _ _ _ _ _ _ _ (fl [131; 132])); [reflexivity|dl [131; 132]]|].
        one "WSECTION" [14; 2; 1; 1]. eapply (lay_w2hdrift _ _ _ _ _ _ _ (fl [141; 142])); [reflexivity|dl [141; 142]]. }
      run (@nil Z). {
        more (v_sec 1) "WSECTION" [14; 2; 2; 1]; [eapply (lay_wsection _ _ _ _ _ _ _ _ (fl [5; 0; 0]) (fl [5; 1; 0]) (fl [5; 0; 1])); [reflexivity|reflexivity|reflexivity|dl [7; 5; 0; 0; 5; 1; 0; 5; 0; 1]]|].
        one "W1SFORCE" [17; 9; 1; 11]. eapply (lay_wsection _ _ _ _ _ _ _ _ (fl [10; 0; 0]) (fl [10; 1; 0]) (fl [10; 0; 1])); [reflexivity|reflexivity|reflexivity|dl [7; 10; 0; 0; 10; 1; 0; 10; 0; 1]]. }
      run (@nil Z). {
        more (v_sf 9 1 11 1110) "W1SFORCE" [17; 9; 1; 12]; [eapply (lay_w1sforce_complex _ _ _ _ _ _ _ _ 1 (v_pairs 6 1110)); [tr|discriminate|reflexivity|dl [1; 1110; -1110; 1111; -1111; 1112; -1112; 1113; -1113; 1114; -1114; 1115; -1115]]|].
        more (v_sf 9 1 12 1120) "W1SFORCE" [17; 9; 1; 13]; [eapply (lay_w1sforce_complex _ _ _ _ _ _ _ _ 1 (v_pairs 6 1120)); [tr|discriminate|reflexivity|dl [1; 1120; -1120; 1121; -1121; 1122; -1122; 1123; -1123; 1124; -1124; 1125; -1125]]|].
        more (v_sf 9 1 13 1130) "W1SFORCE" [17; 9; 1; 14]; [eapply (lay_w1sforce_complex _ _ _ _ _ _ _ _ 1 (v_pairs 6 1130)); [tr|discriminate|reflexivity|dl [1; 1130; -1130; 1131; -1131; 1132; -1132; 1133; -1133; 1134; -1134; 1135; -1135]]|].
        more (v_sf 9 1 14 1140) "W1SFORCE" [17; 9; 2; 11]; [eapply (lay_w1sforce_complex _ _ _ _ _ _ _ _ 1 (v_pairs 6 1140)); [tr|discriminate|reflexivity|dl [1; 1140; -1140; 1141; -1141; 1142; -1142; 1143; -1143; 1144; -1144; 1145; -1145]]|].
        more (v_sf 9 2 11 2110) "W1SFORCE" [17; 9; 2; 12]; [eapply (lay_w1sforce_complex _ _ _ _ _ _ _ _ 1 (v_pairs 6 2110)); [tr|discriminate|reflexivity|dl [1; 2110; -2110; 2111; -2111; 2112; -2112; 2113; -2113; 2114; -2114; 2115; -2115]]|].
        more (v_sf 9 2 12 2120) "W1SFORCE" [17; 9; 2; 13]; [eapply (lay_w1sforce_complex _ _ _ _ _ _ _ _ 1 (v_pairs 6 2120)); [tr|discriminate|reflexivity|dl [1; 2120; -2120; 2121; -2121; 2122; -2122; 2123; -2123; 2124; -2124; 2125; -2125]]|].
        more (v_sf 9 2 13 2130) "W1SFORCE" [17; 9; 2; 14]; [eapply (lay_w1sforce_complex _ _ _ _ _ _ _ _ 1 (v_pairs 6 2130)); [tr|discriminate|reflexivity|dl [1; 2130; -2130; 2131; -2131; 2132; -2132; 2133; -2133; 2134; -2134; 2135; -2135]]|].
        one "WFKPOINT" [5; 1; 1; 0]. eapply (lay_w1sforce_complex _ _ _ _ _ _ _ _ 1 (v_pairs 6 2140)); [tr|discriminate|reflexivity|dl [1; 2140; -2140; 2141; -2141; 2142; -2142; 2143; -2143; 2144; -2144; 2145; -2145]]. }
      run (@nil Z). {
        more (v_pt 1) "WFKPOINT" [5; 2; 2; 0]; [eapply (lay_wfkpoint _ _ _ _ _ _ _ (f_of_Z (- 1))); dl [-1]|].
        one "WFLUIDKN" [12; 11; 1; 1]. eapply (lay_wfkpoint _ _ _ _ _ _ _ (f_of_Z (- 2))); dl [-2]. }
      run (@nil Z). {
        more (v_fl 11 1 1110) "WFLUIDKN" [12; 11; 2; 1]; [eapply (lay_wfluidkn_complex _ _ _ _ _ _ _ 1 (f_of_Z 1110, f_of_Z (-1110)) (skipn 1 (v_pairs 4 1110))); [tr|discriminate|reflexivity|dl [1110; -1110; 1111; -1111; 1112; -1112; 1113; -1113]]|].
        more (v_fl 11 2 1120) "WFLUIDKN" [12; 12; 1; 1]; [eapply (lay_wfluidkn_complex _ _ _ _ _ _ _ 1 (f_of_Z 1120, f_of_Z (-1120)) (skipn 1 (v_pairs 4 1120))); [tr|discriminate|reflexivity|dl [1120; -1120; 1121; -1121; 1122; -1122; 1123; -1123]]|].
        more (v_fl 12 1 1210) "WFLUIDKN" [12; 12; 2; 1]; [eapply (lay_wfluidkn_complex _ _ _ _ _ _ _ 1 (f_of_Z 1210, f_of_Z (-1210)) (skipn 1 (v_pairs 4 1210))); [tr|discriminate|reflexivity|dl [1210; -1210; 1211; -1211; 1212; -1212; 1213; -1213]]|].
        more (v_fl 12 2 1220) "WFLUIDKN" [12; 13; 1; 1]; [eapply (lay_wfluidkn_complex _ _ _ _ _ _ _ 1 (f_of_Z 1220, f_of_Z (-1220)) (skipn 1 (v_pairs 4 1220))); [tr|discriminate|reflexivity|dl [1220; -1220; 1221; -1221; 1222; -1222; 1223; -1223]]|].
        more (v_fl 13 1 1310) "WFLUIDKN" [12; 13; 2; 1]; [eapply (lay_wfluidkn_complex _ _ _ _ _ _ _ 1 (f_of_Z 1310, f_of_Z (-1310)) (skipn 1 (v_pairs 4 1310))); [tr|discriminate|reflexivity|dl [1310; -1310; 1311; -1311; 1312; -1312; 1313; -1313]]|].
        more (v_fl 13 2 1320) "WFLUIDKN" [12; 14; 1; 1]; [eapply (lay_wfluidkn_complex _ _ _ _ _ _ _ 1 (f_of_Z 1320, f_of_Z (-1320)) (skipn 1 (v_pairs 4 1320))); [tr|discriminate|reflexivity|dl [1320; -1320; 1321; -1321; 1322; -1322; 1323; -1323]]|].
        more (v_fl 14 1 1410) "WFLUIDKN" [12; 14; 2; 1]; [eapply (lay_wfluidkn_complex _ _ _ _ _ _ _ 1 (f_of_Z 1410, f_of_Z (-1410)) (skipn 1 (v_pairs 4 1410))); [tr|discriminate|reflexivity|dl [1410; -1410; 1411; -1411; 1412; -1412; 1413; -1413]]|].
        one "W1PANPRE" [10; 9; 11; 1]. eapply (lay_wfluidkn_complex _ _ _ _ _ _ _ 1 (f_of_Z 1420, f_of_Z (-1420)) (skipn 1 (v_pairs 4 1420))); [tr|discriminate|reflexivity|dl [1420; -1420; 1421; -1421; 1422; -1422; 1423; -1423]]. }
      run (@nil Z). {
        more (v_pan 9 11 1 1 11011) "W1PANPRE" [10; 9; 11; 1]; [eapply (lay_w1panpre_complex _ _ _ (fl [10; 9; 11; 1]) _ _ 1); [reflexivity|tr|discriminate|dl [1; 1; 11011; -11011; 1; 0]]|].
        more (v_pan 9 11 1 2 11012) "W1PANPRE" [10; 9; 11; 1]; [eapply (lay_w1panpre_complex _ _ _ (fl [10; 9; 11; 1]) _ _ 1); [reflexivity|tr|discriminate|dl [1; 1; 11012; -11012; 2; 0]]|].
        more (v_pan 9 11 1 3 11013) "W1PANPRE" [10; 9; 11; 1]; [eapply (lay_w1panpre_complex _ _ _ (fl [10; 9; 11; 1]) _ _ 1); [reflexivity|tr|discriminate|dl [1; 1; 11013; -11013; 3; 0]]|].
        more (v_pan 9 11 2 1 11021) "W1PANPRE" [10; 9; 11; 1]; [eapply (lay_w1panpre_complex _ _ _ (fl [10; 9; 11; 1]) _ _ 1); [reflexivity|tr|discriminate|dl [2; 1; 11021; -11021; 1; 0]]|].
        more (v_pan 9 11 2 2 11022) "W1PANPRE" [10; 9; 11; 1]; [eapply (lay_w1panpre_complex _ _ _ (fl [10; 9; 11; 1]) _ _ 1); [reflexivity|tr|discriminate|dl [2; 1; 11022; -11022; 2; 0]]|].
        more (v_pan 9 11 2 3 11023) "W1PANPRE" [10; 9; 12; 1]; [eapply (lay_w1panpre_complex _ _ _ (fl [10; 9; 11; 1]) _ _ 1); [reflexivity|tr|discriminate|dl [2; 1; 11023; -11023; 3; 0]]|].
        more (v_pan 9 12 1 1 12011) "W1PANPRE" [10; 9; 12; 1]; [eapply (lay_w1panpre_complex _ _ _ (fl [10; 9; 12; 1]) _ _ 1); [reflexivity|tr|discriminate|dl [1; 1; 12011; -12011; 1; 0]]|].
        more (v_pan 9 12 1 2 12012) "W1PANPRE" [10; 9; 12; 1]; [eapply (lay_w1panpre_complex _ _ _ (fl [10; 9; 12; 1]) _ _ 1); [reflexivity|tr|discriminate|dl [1; 1; 12012; -12012; 2; 0]]|].
        more (v_pan 9 12 1 3 12013) "W1PANPRE" [10; 9; 12; 1]; [eapply (lay_w1panpre_complex _ _ _ (fl [10; 9; 12; 1]) _ _ 1); [reflexivity|tr|discriminate|dl [1; 1; 12013; -12013; 3; 0]]|].
        more (v_pan 9 12 2 1 12021) "W1PANPRE" [10; 9; 12; 1]; [eapply (lay_w1panpre_complex _ _ _ (fl [10; 9; 12; 1]) _ _ 1); [reflexivity|tr|discriminate|dl [2; 1; 12021; -12021; 1; 0]]|].
        more (v_pan 9 12 2 2 12022) "W1PANPRE" [10; 9; 12; 1]; [eapply (lay_w1panpre_complex _ _ _ (fl [10; 9; 12; 1]) _ _ 1); [reflexivity|tr|discriminate|dl [2; 1; 12022; -12022; 2; 0]]|].
        more (v_pan 9 12 2 3 12023) "W1PANPRE" [10; 9; 13; 1]; [eapply (lay_w1panpre_complex _ _ _ (fl [10; 9; 12; 1]) _ _ 1); [reflexivity|tr|discriminate|dl [2; 1; 12023; -12023; 3; 0]]|].
        more (v_pan 9 13 1 1 13011) "W1PANPRE" [10; 9; 13; 1]; [eapply (lay_w1panpre_complex _ _ _ (fl [10; 9; 13; 1]) _ _ 1); [reflexivity|tr|discriminate|dl [1; 1; 13011; -13011; 1; 0]]|].
        more (v_pan 9 13 1 2 13012) "W1PANPRE" [10; 9; 13; 1]; [eapply (lay_w1panpre_complex _ _ _ (fl [10; 9; 13; 1]) _ _ 1); [reflexivity|tr|discriminate|dl [1; 1; 13012; -13012; 2; 0]]|].
        more (v_pan 9 13 1 3 13013) "W1PANPRE" [10; 9; 13; 1]; [eapply (lay_w1panpre_complex _ _ _ (fl [10; 9; 13; 1]) _ _ 1); [reflexivity|tr|discriminate|dl [1; 1; 13013; -13013; 3; 0]]|].
        more (v_pan 9 13 2 1 13021) "W1PANPRE" [10; 9; 13; 1]; [eapply (lay_w1panpre_complex _ _ _ (fl [10; 9; 13; 1]) _ _ 1); [reflexivity|tr|discriminate|dl [2; 1; 13021; -13021; 1; 0]]|].
        more (v_pan 9 13 2 2 13022) "W1PANPRE" [10; 9; 13; 1]; [eapply (lay_w1panpre_complex _ _ _ (fl [10; 9; 13; 1]) _ _ 1); [reflexivity|tr|discriminate|dl [2; 1; 13022; -13022; 2; 0]]|].
        more (v_pan 9 13 2 3 13023) "W1PANPRE" [10; 9; 14; 1]; [eapply (lay_w1panpre_complex _ _ _ (fl [10; 9; 13; 1]) _ _ 1); [reflexivity|tr|discriminate|dl [2; 1; 13023; -13023; 3; 0]]|].
        more (v_pan 9 14 1 1 14011) "W1PANPRE" [10; 9; 14; 1]; [eapply (lay_w1panpre_complex _ _ _ (fl [10; 9; 14; 1]) _ _ 1); [reflexivity|tr|discriminate|dl [1; 1; 14011; -14011; 1; 0]]|].
        more (v_pan 9 14 1 2 14012) "W1PANPRE" [10; 9; 14; 1]; [eapply (lay_w1panpre_complex _ _ _ (fl [10; 9; 14; 1]) _ _ 1); [reflexivity|tr|discriminate|dl [1; 1; 14012; -14012; 2; 0]]|].
        more (v_pan 9 14 1 3 14013) "W1PANPRE" [10; 9; 14; 1]; [eapply (lay_w1panpre_complex _ _ _ (fl [10; 9; 14; 1]) _ _ 1); [reflexivity|tr|discriminate|dl [1; 1; 14013; -14013; 3; 0]]|].
        more (v_pan 9 14 2 1 14021) "W1PANPRE" [10; 9; 14; 1]; [eapply (lay_w1panpre_complex _ _ _ (fl [10; 9; 14; 1]) _ _ 1); [reflexivity|tr|discriminate|dl [2; 1; 14021; -14021; 1; 0]]|].
        more (v_pan 9 14 2 2 14022) "W1PANPRE" [10; 9; 14; 1]; [eapply (lay_w1panpre_complex _ _ _ (fl [10; 9; 14; 1]) _ _ 1); [reflexivity|tr|discriminate|dl [2; 1; 14022; -14022; 2; 0]]|].
        one "W1MATRIX" [42; 1; 9; 9]. eapply (lay_w1panpre_complex _ _ _ (fl [10; 9; 14; 1]) _ _ 1); [reflexivity|tr|discriminate|dl [2; 1; 14023; -14023; 3; 0]]. }
      run (@nil Z). {
        more (v_matr 9 9 11 100) "W1MATRIX" [42; 1; 9; 9]; [eapply (lay_w1matrix _ _ _ (fl [42; 1; 9; 9]) (fl [0; 11]) (map fl (v_mat 100))); [reflexivity|reflexivity|repeat constructor|dl (0 :: 11 :: concat (v_mat 100))]|].
        more (v_matr 9 9 12 200) "W1MATRIX" [42; 1; 4; 4]; [eapply (lay_w1matrix _ _ _ (fl [42; 1; 9; 9]) (fl [0; 12]) (map fl (v_mat 200))); [reflexivity|reflexivity|repeat constructor|dl (0 :: 12 :: concat (v_mat 200))]|].
        more (v_matr 4 4 12 300) "W1MATRIX" [42; 1; 9; 9]; [eapply (lay_w1matrix _ _ _ (fl [42; 1; 4; 4]) (fl [0; 12]) (map fl (v_mat 300))); [reflexivity|reflexivity|repeat constructor|dl (0 :: 12 :: concat (v_mat 300))]|].
        more (v_matr 9 9 12 400) "W1MATRIX" [42; 1; 9; 9]; [eapply (lay_w1matrix _ _ _ (fl [42; 1; 9; 9]) (fl [0; 12]) (map fl (v_mat 400))); [reflexivity|reflexivity|repeat constructor|dl (0 :: 12 :: concat (v_mat 400))]|].
        one "IEND" [0; 0; 0; 0]. eapply (lay_w1matrix _ _ _ (fl [42; 1; 9; 9]) (fl [0; 11]) (map fl (v_mat 500))); [reflexivity|reflexivity|repeat constructor|dl (0 :: 11 :: concat (v_mat 500))]. }
      eapply reads_iend; [left; reflexivity|vm_compute; reflexivity]. }
  vm_compute. reflexivity.
Qed.
Lemma v_file : file_of [] Fmt 1 false v_text v_segs.
Proof. destruct v_file0 as (bs & -> & H). exact H. Qed.

(** What the file says. *)
Definition rf (z : Z) : flt := round32 (f_of_Z z).
Definition vc (z : Z) : cell := CC (rf z) (rf (- z)).
Definition v_ds : list flt := [rf 3; rf 0].
Definition v_fs : list flt := [rf 2; rf 1].
Definition v_refs : list wref := [mkW 11 (rf 3) (rf 2); mkW 12 (rf 3) (rf 1); mkW 13 (rf 0) (rf 2); mkW 14 (rf 0) (rf 1)].
Definition v_bodies : list (Z * Z) := [(1, 4); (2, 9)].
Definition v_six (z : Z) : list cell := map (fun i => vc (z + i)) [0; 1; 2; 3; 4; 5].
Definition v_motions : list resp := flat_map (fun r => [mkR 4 r (v_six (100 * r)); mkR 9 r (v_six (200 * r))]) [11; 12; 13; 14].
Definition v_mine : list resp := map (fun r => mkR 9 r (v_six (200 * r))) [11; 12; 13; 14].
Definition v_drifts : list resp := map (fun r => mkR 9 r (map (fun i => CF (rf (10 * r + i))) [0; 1; 2])) [11; 12; 13; 14].
Definition v_sforces : list (Z * resp) := flat_map (fun s => map (fun r => (s, mkR 9 r (v_six (1000 * s + 10 * r)))) [11; 12; 13; 14]) [1; 2].
Definition v_fluids : list fluid := flat_map (fun r => map (fun p => mkFl r p (vc (100 * r + 10 * p)) (map (fun i => vc (100 * r + 10 * p + i)) [1; 2; 3])) [1; 2]) [11; 12; 13; 14].
Definition v_panels : list panel := flat_map (fun r => flat_map (fun s => map (fun p => mkP 9 r p s (vc (1000 * r + 10 * s + p))) [1; 2; 3]) [1; 2]) [11; 12; 13; 14].
Definition v_wsections : list wsect := map (fun s => mkWS 7 1 (CV [CF (rf (5 * s)); CF (rf 0); CF (rf 0)]) (CV [CF (rf (5 * s)); CF (rf 1); CF (rf 0)]) (CV [CF (rf (5 * s)); CF (rf 0); CF (rf 1)])) [1; 2].
Definition v_points : list (list cell) := map (fun p => [CF (rf p); CF (rf 0); CF (rf (- p))]) [1; 2].
Definition v_wbodies : list (Z * list cell) :=
  map (fun c => (c, map (fun z => CF (rf z)) (c + 50 :: c + 60 :: v_row12 c) ++ [CV (map (fun r => CV (map (fun z => CF (rf z)) r)) (v_4x4 c))])) [4; 9].
Definition v_rows (z : Z) : list (list cell) := map (map (fun x => CF (rf x))) (v_mat z).
Definition v_matrices : list matr := [mkM 9 9 11 (v_rows 100); mkM 9 9 12 (v_rows 200); mkM 4 4 12 (v_rows 300); mkM 9 9 12 (v_rows 400); mkM 9 9 11 (v_rows 500)].
Definition v_dir : dir := [("shipG1.SIF", v_text)].

Ltac cell1 := eexists; split; [reflexivity|repeat match goal with |- stored _ _ _ => cbn | |- _ /\ _ => split | |- Forall2 _ _ _ => constructor | |- _ = _ => first [reflexivity | vm_compute; reflexivity] end].
Ltac hlisted_ says := unfold says; match goal with |- listed _ _ _ ?l => let v := eval cbv -[rf] in l in change l with v end; apply listed_all; [vm_compute; discriminate|];
  match goal with |- all_say _ _ ?l _ => let v := eval vm_compute in l in change l with v end; cbn [all_say].
Lemma v_has_refs : wrefs_on v_segs v_refs.
Proof. hlisted_ wrefs_on. unfold wref_says. cbn [w_ires w_dir w_freq]. repeat match goal with |- _ /\ _ => split | |- int_at _ _ _ => FileSample.at_ | |- True => exact I end;
  do 2 eexists; (split; [reflexivity|split; do 2 eexists; (split; [reflexivity|vm_compute; reflexivity])]). Qed.
Lemma v_grid : grid v_refs v_ds v_fs.
Proof.
  split; [reflexivity|]. split; [|split].
  - repeat constructor; (intros [H|[H _]]; vm_compute in H; discriminate).
  - repeat constructor; (intros [H|[H _]]; vm_compute in H; discriminate).
  - cbn. repeat constructor; cbn; intuition discriminate.
Qed.
Lemma v_has_bodies : bodies_on v_segs v_bodies.
Proof. hlisted_ bodies_on. unfold body_says. cbn [fst snd]. parts_. Qed.
Lemma v_cond : body_cond v_bodies 2 9.
Proof. exists [(1, 4)], []. split; [reflexivity|]. cbn. intuition discriminate. Qed.
Lemma v_has_global : global_on v_segs (CF (rf 10)) (CF (rf 1025)) (CF (rf 300)).
Proof. exists (i_entry v_glob), []. split; [vm_compute; reflexivity|]. parts_. Qed.
Lemma v_has_motions : responses_on v_segs "W1MOTION" 6 v_motions.
Proof. hlisted_ responses_on. unfold resp_says. cbn [r_cond r_ires r_comps str_in existsb String.eqb Ascii.eqb Bool.eqb orb]. parts_; cell1. Qed.
Lemma v_has_drifts : responses_on v_segs "W2HDRIFT" 3 v_drifts.
Proof. hlisted_ responses_on. unfold resp_says. cbn [r_cond r_ires r_comps str_in existsb String.eqb Ascii.eqb Bool.eqb orb]. parts_; cell1. Qed.
Lemma v_has_sforces : sforces_on v_segs v_sforces.
Proof. hlisted_ sforces_on. unfold sforce_says. cbn [fst snd r_cond r_ires r_comps]. parts_; cell1. Qed.
Lemma v_has_fluids : fluids_on v_segs v_fluids.
Proof. hlisted_ fluids_on. unfold fluid_says. cbn [f_ires f_point f_p f_v]. parts_; cell1. Qed.
Lemma v_has_panels : panels_on v_segs v_panels.
Proof. hlisted_ panels_on. unfold panel_says. cbn [p_cond p_ires p_pan p_symm p_p]. parts_; cell1. Qed.
Lemma v_has_matrices : matrices_on v_segs v_matrices.
Proof. hlisted_ matrices_on. unfold matr_says. cbn [m_i m_j m_typ m_rows map]. parts_; cell1. Qed.
Lemma v_sesam : sesam_file v_dir "shipG1.SIF" "G" 1 v_segs.
Proof.
  exists "ship", (s2l "1"), "SIF", Fmt, v_text, []. split; [|split; [|split; [|split; [|split; [|split]]]]].
  - sesam "G"%char (@nil ascii); [now left| |reflexivity]. left. apply spelled3. exists "S"%char, "I"%char, "F"%char. tauto.
  - apply has_ext_none. reflexivity.
  - intros X. apply spelled3 in X as (x & y & z & E & A & B & C). injection E as <- <- <-. destruct C; discriminate.
  - cbn; tauto.
  - reflexivity.
  - reflexivity.
  - constructor.
    + discriminate.
    + exists v_text. split; [|exact v_file]. constructor; [vm_compute; discriminate|apply plain_text; vm_compute; reflexivity].
    + do 2 eexists. left. reflexivity.
    + unfold hierarchy_of. replace (entries_of "HIERARCH" v_segs) with (@nil StoreSpec.entry) by (vm_compute; reflexivity). constructor.
    + intros [|i] p H; discriminate.
    + intros p b [].
    + constructor.
Qed.
Lemma v_has_wsections : wsections_on v_segs v_wsections.
Proof. hlisted_ wsections_on. unfold wsect_says. cbn [s_usr s_type s_p1 s_p2 s_p3]. parts_; cell1. Qed.
Lemma v_has_points : points_on v_segs v_points.
Proof. hlisted_ points_on. unfold point_says. parts_; cell1. Qed.
Lemma v_has_wbodies : wbodies_on v_segs v_wbodies.
Proof.
  hlisted_ wbodies_on. unfold wbody_says. cbn [fst snd]. split; [|split; [|exact I]]; (split; [FileSample.at_|]);
  match goal with |- exists rs t, ?l = _ /\ _ => exists (firstn 14 l), (nth 14 l (CI 0)) end; cbn [firstn nth]; (split; [reflexivity|]); (split; [reflexivity|]);
  (split; [do 14 (let k := fresh "k" in let c := fresh "c" in intros k c; destruct k as [|k]; [intro H; injection H as <-; FileSample.at_|revert c; revert k]); intros k c H; destruct k; discriminate|cell1]).
Qed.

(** A file with no bodies, sections, points or panels *)
Definition u_segs : list seg := [Run "IDENT" [v_ident]; Run "WDRESREF" [v_ref 11 3 2]; Run "WGLOBDEF" [v_glob]; Look "IEND" (fl [0; 0; 0; 0]) []].
Definition u_text : list ascii :=
  fline "IDENT" [1; 1; 3; 0] ++ v_lines "WDRESREF" [([10; 11; 1; 2], [1; 1; 3; 2; 1; 2])] ++ v_lines "WGLOBDEF" [([5; 10; 1025; 1], [300])] ++ fline "IEND" [0; 0; 0; 0].
Lemma u_file0 : exists bs, bs = u_text /\ file_of [] Fmt 1 false bs u_segs.
Proof.
  eexists. split; [|unfold file_of, u_segs; do 4 eexists; split; [nh "IDENT" [1; 1; 3; 0]|]].
  2:{ eapply reads_ident; [left; reflexivity|vm_compute; reflexivity|tr|tr|tr|reflexivity|apply putf_ok; vm_compute; reflexivity|nh "WDRESREF" [10; 11; 1; 2]|].
      run [1; 2]. { one "WGLOBDEF" [5; 10; 1025; 1]. refl_ 3 2. }
      run (@nil Z). { one "IEND" [0; 0; 0; 0]. eapply (lay_wglobdef_finite _ _ _ _ _ _ _ 1); [tr|discriminate|dl [300]]. }
      eapply reads_iend; [left; reflexivity|vm_compute; reflexivity]. }
  vm_compute. reflexivity.
Qed.
Definition u_dir : dir := [("wG1.SIF", u_text)].
Lemma u_sesam : sesam_file u_dir "wG1.SIF" "G" 1 u_segs.
Proof.
  exists "w", (s2l "1"), "SIF", Fmt, u_text, []. split; [|split; [|split; [|split; [|split; [|split]]]]].
  - sesam "G"%char (@nil ascii); [now left| |reflexivity]. left. apply spelled3. exists "S"%char, "I"%char, "F"%char. tauto.
  - apply has_ext_none. reflexivity.
  - intros X. apply spelled3 in X as (x & y & z & E & A & B & C). injection E as <- <- <-. destruct C; discriminate.
  - cbn; tauto.
  - reflexivity.
  - reflexivity.
  - constructor.
    + discriminate.
    + exists u_text. split; [|destruct u_file0 as (bs & -> & H); exact H]. constructor; [vm_compute; discriminate|apply plain_text; vm_compute; reflexivity].
    + do 2 eexists. left. reflexivity.
    + unfold hierarchy_of. replace (entries_of "HIERARCH" u_segs) with (@nil StoreSpec.entry) by (vm_compute; reflexivity). constructor.
    + intros [|i] p H; discriminate.
    + intros p b [].
    + constructor.
Qed.
