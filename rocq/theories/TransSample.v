(** * TransSample: a hierarchy of three levels, in whole numbers. *)
From Coq Require Import Ring_theory InitialRing.
From Verif Require Import Base Flt H5 Schema StoreSpec ParserSpec Data Struc StrucSpec StrucSample Files Trans TransSpec.
Open Scope string_scope.
Open Scope Z_scope.
Open Scope list_scope.

Definition zn (c : cell) : Z := match c with CF (FFin s m e) => (if s then Z.opp else (fun x => x)) (Zpos m * 2 ^ e) | _ => 0 end.
Definition y_top := mkSup 1 3 1 3 0 0.
Definition y_mid := mkSup 2 2 1 2 1 1.
Definition y_low := mkSup 3 1 1 1 2 2.
Definition y_low2 := mkSup 4 1 2 1 3 1. (* directly below the top *)
Definition y_ss := [y_top; y_mid; y_low; y_low2].
(* along x; exchange of x and y, and along z; turned *)
Definition y_m1 := map (map fz) [[1; 0; 0; 0]; [0; 1; 0; 0]; [0; 0; 1; 0]; [5; 0; 0; 1]].
Definition y_m2 := map (map fz) [[0; 1; 0; 0]; [1; 0; 0; 0]; [0; 0; 1; 0]; [0; 0; 2; 1]].
Definition y_m3 := map (map fz) [[0; 1; 0; 0]; [-1; 0; 0; 0]; [0; 0; 1; 0]; [1; 2; 3; 1]].
Definition y_ts : list (Z * list (list cell)) := [(1, y_m1); (2, y_m2); (3, y_m3)].
Definition w_y : path := ["T3"].
Definition w_y1 : path := ["T3"; "T1"].
Definition srow (a b c d e f g n r1 r2 : Z) : list cell := map CI [a; b; c; d; e; f; g; n; r1; r2].
Definition attrs (t : Z) (lv : string) : list (string * aval) :=
  [("RECORDS", AStrs ["GNODE"; "GCOORD"; "GELMNT1"]); ("SELTYP", AInt (Some t)); ("LEVEL", AStr lv); ("FILETYPE", AStr "T"); ("DATATYPE", AStr "STRUCTURAL")].
Definition y_h : h5 := [
  (w_y, Group (attrs 3 "TOPLEVEL"));
  tab w_y "HIERARCH" [srow 10 1 3 1 3 0 0 2 0 2; srow 9 2 2 1 2 1 1 1 2 3; srow 8 3 1 1 1 2 2 0 3 3; srow 8 4 1 2 1 3 1 0 3 3];
  arr1 w_y "HIERARCH" (map CI [2; 4; 3]);
  tab w_y "HSUPTRAN" [[CI 18; CI 1; CV (map CV y_m1)]; [CI 18; CI 2; CV (map CV y_m2)]; [CI 18; CI 3; CV (map CV y_m3)]];
  (w_y1, Group (attrs 1 "FIRSTLEVEL"));
  tab w_y1 "GNODE" [[CI 10; CI 1; CI 6; CI 123456]; [CI 20; CI 2; CI 6; CI 123456]];
  tab w_y1 "GCOORD" [[CI 1; fz 0; fz 0; fz 0]; [CI 2; fz 1; fz 2; fz 3]];
  tab w_y1 "GELMNT1" [[CI 101; CI 1; CI 15; CI 0; CI 0; CI 2]];
  arr1 w_y1 "GELMNT1" (map CI [1; 2])].
Definition y_d : sdata := mkSD w_y ["GNODE"; "GCOORD"; "GELMNT1"] (Some 3) "TOPLEVEL" "T" "STRUCTURAL" None OFile None true.
Definition y_d1 : sdata := mkSD w_y1 ["GNODE"; "GCOORD"; "GELMNT1"] (Some 1) "FIRSTLEVEL" "T" "STRUCTURAL" None (OData w_y) None true.

Lemma y_hier : hier_in y_h w_y y_ss.
Proof. do 2 eexists. split; [holds_|]. repeat constructor; do 4 eexists; reflexivity. Qed.
Lemma y_trans : trans_in y_h w_y y_ts.
Proof. eexists. split; [holds_|]. repeat constructor; eexists; reflexivity. Qed.
Lemma y_hierarchy : hierarchy y_ss y_ts y_top.
Proof.
  split; [|split; [|split; [|split; [|split]]]]; try reflexivity.
  - repeat constructor; cbn; intuition lia.
  - repeat constructor; cbn; intuition congruence.
  - repeat constructor; cbn; intuition lia.
  - intros s [<-|[<-|[<-|[<-|[]]]]] Hne; [congruence| | |]; (split; [discriminate|]); (split; [reflexivity|]); split.
    + exists y_top. split; [now left|]. split; reflexivity.
    + exists (1, y_m1). split; [now left|reflexivity].
    + exists y_mid. split; [right; now left|]. split; reflexivity.
    + exists (2, y_m2). split; [right; now left|reflexivity].
    + exists y_top. split; [now left|]. split; reflexivity.
    + exists (3, y_m3). split; [do 2 right; now left|reflexivity].
Qed.
Lemma y_affine : Forall (fun t => affine 0 1 (map (map zn) (snd t))) y_ts.
Proof. repeat constructor; do 12 eexists; vm_compute; reflexivity. Qed.
