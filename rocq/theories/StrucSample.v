(** * StrucSample: a small structure as found in a data set. *)
From Coq Require Import Sorted.
From Verif Require Import Base Flt H5 Schema StoreSpec ParserSpec Data Struc StrucSpec.
Open Scope string_scope.
Open Scope Z_scope.
Open Scope list_scope.

Definition fz (z : Z) : cell := CF (f_of_Z z).
Definition w_x : path := ["T1"].
Definition tab (w : path) (n : string) (rows : list (list cell)) : path * node := (tpath w n, Table (descr_of n) rows).
Definition arr1 (w : path) (n : string) (items : list cell) : path * node :=
  (nth 0 (apaths w n) [], Arr (nth 0 (elts_of n) TI) items).

(** Five nodes; a beam, a shell and a beam. *)
Definition x_ns : list mnode :=
  [mkNode 10 [fz 0; fz 0; fz 0]; mkNode 20 [fz 1; fz 0; fz 0]; mkNode 30 [fz 1; fz 1; fz 0]; mkNode 40 [fz 0; fz 1; fz 0]; mkNode 50 [fz 0; fz 1; fz 7]].
Definition x_es : list melem := [mkElem 101 15 [2; 1]; mkElem 102 24 [1; 2; 3; 4]; mkElem 103 15 [4; 5]].
(** Sets: DECK is spread over two records, and is also a set of nodes. *)
Definition deck := s2l "DECK".
Definition col_ := s2l "COL".
Definition x_nms : list setname := [(deck, 1); (col_, 2)].
Definition x_ms : list memrec := [(1, 1, [1; 2]); (1, 2, [2]); (2, 2, [3; 1]); (1, 2, [1])].
Definition x_refs : list ref := [mkRef 1 1 5 0; mkRef 2 2 5 0; mkRef 3 1 6 0; mkRef 4 1 7 2].
Definition x_val (z : Z) : list cell := map (fun i => fz (z + i)) [0; 1; 2; 3; 4; 5].
Definition x_val2 (z : Z) : list cell := map (fun i => fz (z + i)) [0; 1; 2; 3; 4; 5; 6; 7; 8; 9; 10; 11].
Definition x_blocks : list block :=
  [(1, map x_val [10; 20; 30; 40; 50]); (3, map x_val [110; 120; 130; 140; 150]); (4, map x_val2 [210; 230; 250; 270; 290])].
Definition x_geo : list Z := [1; 9; 2].
Definition x_sec : list (Z * list cell) := map (fun p => (fst p, map fz (snd p)))
  [(1, [0; 5; 1; 1; 1; 1; 1; 1; 1; 1; 1; 1; 1; 1; 1]); (2, [0; 6; 1; 1; 1; 1; 1; 1; 1; 1; 1; 1; 1; 1; 1])].
Definition x_th : list (Z * cell) := [(9, fz 12)].
Definition x_loads : list (Z * list ascii) := [(5, s2l "DEAD"); (6, s2l "LIVE")].

Definition x_h : h5 := [
  (w_x, Group [("RECORDS", AStrs ["GNODE"]); ("SELTYP", AInt (Some 1)); ("LEVEL", AStr "FIRSTLEVEL"); ("FILETYPE", AStr "T"); ("DATATYPE", AStr "STRUCTURAL")]);
  tab w_x "GNODE" [[CI 10; CI 1; CI 6; CI 123456]; [CI 20; CI 2; CI 6; CI 123456]; [CI 30; CI 3; CI 6; CI 123456]; [CI 40; CI 4; CI 6; CI 123456]; [CI 50; CI 5; CI 6; CI 123456]];
  tab w_x "GCOORD" [[CI 1; fz 0; fz 0; fz 0]; [CI 2; fz 1; fz 0; fz 0]; [CI 3; fz 1; fz 1; fz 0]; [CI 4; fz 0; fz 1; fz 0]; [CI 5; fz 0; fz 1; fz 7]];
  tab w_x "GELMNT1" [[CI 101; CI 1; CI 15; CI 0; CI 0; CI 2]; [CI 102; CI 2; CI 24; CI 0; CI 2; CI 6]; [CI 103; CI 3; CI 15; CI 0; CI 6; CI 8]];
  arr1 w_x "GELMNT1" (map CI [2; 1; 1; 2; 3; 4; 4; 5]);
  tab w_x "TDSETNAM" [[CI 4; CI 1; CI 104; CI 0; CS deck; CI 0; CI 0]; [CI 4; CI 2; CI 103; CI 0; CS col_; CI 0; CI 0]];
  arr1 w_x "TDSETNAM" [];
  tab w_x "GSETMEMB" [[CI 7; CI 1; CI 1; CI 1; CI 0; CI 0; CI 2]; [CI 6; CI 1; CI 1; CI 2; CI 0; CI 2; CI 3]; [CI 7; CI 2; CI 1; CI 2; CI 0; CI 3; CI 5]; [CI 6; CI 1; CI 2; CI 2; CI 0; CI 5; CI 6]];
  arr1 w_x "GSETMEMB" (map CI [1; 2; 2; 3; 1; 1]);
  tab w_x "RDRESREF" [[CI 7; CI 1; CI 1; CI 5; CI 0; CI 0; CI 0; CI 0; CI 0]; [CI 7; CI 2; CI 2; CI 5; CI 0; CI 0; CI 0; CI 0; CI 0]; [CI 7; CI 3; CI 1; CI 6; CI 0; CI 0; CI 0; CI 0; CI 0]; [CI 7; CI 4; CI 1; CI 7; CI 0; CI 2; CI 0; CI 0; CI 0]];
  arr1 w_x "RDRESREF" [];
  tab w_x "RVNODDIS" (map (fun p => [CI 11; CI (fst p); CI (snd p); CI 1; CI 0; CI (if fst p <? 4 then 30 * (fst p / 2) + 6 * (snd p - 1) else 60 + 12 * (snd p - 1)); CI (if fst p <? 4 then 30 * (fst p / 2) + 6 * snd p else 60 + 12 * snd p)])
    [(1, 1); (1, 2); (1, 3); (1, 4); (1, 5); (3, 1); (3, 2); (3, 3); (3, 4); (3, 5); (4, 1); (4, 2); (4, 3); (4, 4); (4, 5)]);
  arr1 w_x "RVNODDIS" (concat (map x_val [10; 20; 30; 40; 50; 110; 120; 130; 140; 150]) ++ concat (map x_val2 [210; 230; 250; 270; 290]));
  tab w_x "GELREF1" [map CI [1; 1; 0; 0; 0; 0; 0; 0; 1; 0; 0; 0; 0; 0; 0; 0; 0; 0; 0; 0]; map CI [2; 1; 0; 0; 0; 0; 0; 0; 9; 0; 0; 0; 0; 0; 0; 0; 0; 0; 0; 0]; map CI [3; 1; 0; 0; 0; 0; 0; 0; 2; 0; 0; 0; 0; 0; 0; 0; 0; 0; 0; 0]];
  (nth 0 (apaths w_x "GELREF1") [], Arr TI []); (nth 1 (apaths w_x "GELREF1") [], Arr TI []); (nth 2 (apaths w_x "GELREF1") [], Arr TI []); (nth 3 (apaths w_x "GELREF1") [], Arr TI []);
  tab w_x "GBEAMG" [CI 1 :: map fz [0; 5; 1; 1; 1; 1; 1; 1; 1; 1; 1; 1; 1; 1; 1]; CI 2 :: map fz [0; 6; 1; 1; 1; 1; 1; 1; 1; 1; 1; 1; 1; 1; 1]];
  tab w_x "GELTH" [[CI 9; fz 12; CI 0]];
  tab w_x "TDLOAD" [[CI 4; CI 5; CI 104; CI 0; CS (s2l "DEAD"); CI 0; CI 0]; [CI 4; CI 6; CI 104; CI 0; CS (s2l "LIVE"); CI 0; CI 0]];
  arr1 w_x "TDLOAD" []].
Definition x_d : sdata := mkSD w_x ["GNODE"] (Some 1) "FIRSTLEVEL" "T" "STRUCTURAL" None OFile None true.

Ltac inhabit := repeat (first [split | constructor | eexists]); vm_compute; reflexivity.
Ltac holds_ := split; [vm_compute; reflexivity|repeat constructor; vm_compute; reflexivity].
Lemma nth_cases {A} (P : nat -> A -> Prop) l : (fix go (j : nat) (l : list A) : Prop := match l with [] => True | x :: r => P j x /\ go (S j) r end) 0%nat l ->
  forall j x, nth_error l j = Some x -> P j x.
Proof.
  enough (G : forall l s, (fix go (j : nat) (l : list A) : Prop := match l with [] => True | x :: r => P j x /\ go (S j) r end) s l ->
    forall j x, nth_error l j = Some x -> P (s + j)%nat x) by (intros H j x; apply (G l 0%nat H)).
  clear. induction l as [|y l IH]; intros s H j x Hj; [destruct j; discriminate|]. destruct H as [H1 H2]. destruct j; cbn in Hj.
  - injection Hj as <-. now rewrite Nat.add_0_r.
  - rewrite Nat.add_succ_r. apply (IH (S s) H2 j x Hj).
Qed.

Lemma x_mesh : mesh_in x_h w_x x_ns x_es.
Proof.
  split; [|split; [|split]].
  - eexists. split; [holds_|]. split; [reflexivity|]. apply nth_cases. repeat split; do 2 eexists; reflexivity.
  - eexists. split; [holds_|]. split; [reflexivity|]. apply nth_cases. repeat split.
  - eexists. split; [holds_|]. split; [reflexivity|]. apply nth_cases. repeat split; eexists; reflexivity.
  - repeat constructor; cbn; try discriminate; lia.
Qed.
Lemma x_names : setnames_in x_h w_x x_nms.
Proof. do 2 eexists. split; [holds_|]. repeat constructor; do 5 eexists; reflexivity. Qed.
Lemma x_members : members_in x_h w_x x_ms.
Proof. do 2 eexists. split; [holds_|]. repeat constructor; do 5 eexists; (split; [reflexivity|]); (split; [lia|split; [vm_compute; discriminate|reflexivity]]). Qed.
Lemma x_has_refs : refs_in x_h w_x x_refs.
Proof. do 2 eexists. split; [holds_|]. repeat constructor; do 5 eexists; reflexivity. Qed.
Lemma x_results : noderes_in x_h w_x "RVNODDIS" 5 x_blocks.
Proof.
  do 2 eexists. split; [holds_|]. split; [repeat constructor|]. unfold flat. cbn [x_blocks flat_map map app combine seq length fst snd].
  repeat constructor; do 5 eexists; (split; [reflexivity|]); (split; [vm_compute; split; discriminate|split; [vm_compute; discriminate|reflexivity]]).
Qed.
Lemma x_geos : geo_in x_h w_x x_geo.
Proof.
  do 2 eexists. split; [holds_|]. unfold x_geo. cbn [length seq combine map]. repeat constructor; cbn [fst snd].
  - exists (map CI [1; 0; 0; 0; 0; 0; 0]). eexists. split; reflexivity.
  - exists (map CI [1; 0; 0; 0; 0; 0; 0]). eexists. split; reflexivity.
  - exists (map CI [1; 0; 0; 0; 0; 0; 0]). eexists. split; reflexivity.
Qed.
Lemma x_sections : sections_in x_h w_x x_sec.
Proof. eexists. split; [holds_|]. repeat constructor. Qed.
Lemma x_thick : thicknesses_in x_h w_x x_th.
Proof. eexists. split; [holds_|]. repeat constructor. eexists. reflexivity. Qed.
Lemma x_has_loads : loads_in x_h w_x x_loads.
Proof. do 2 eexists. split; [holds_|]. repeat constructor; do 5 eexists; reflexivity. Qed.

