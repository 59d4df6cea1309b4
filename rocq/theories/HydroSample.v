(** * HydroSample: hydrodynamic data of two bodies, two directions and three
    frequencies. *)
From Coq Require Import Sorted.
From Verif Require Import Base Flt H5 Schema StoreSpec ParserSpec Data StrucSpec StrucSample Nd Hydro HydroSpec.
Open Scope string_scope.
Open Scope Z_scope.
Open Scope list_scope.

Definition w_y : path := ["G1"].
Definition fi (z : Z) : flt := f_of_Z z.
(** References in the order of the file: directions 3 and 0, frequencies 2, 1 and 5. *)
Definition y_ds : list flt := [fi 3; fi 0].
Definition y_fs : list flt := [fi 2; fi 1; fi 5].
Definition y_refs : list wref :=
  [mkW 11 (fi 3) (fi 2); mkW 12 (fi 3) (fi 1); mkW 13 (fi 3) (fi 5); mkW 14 (fi 0) (fi 2); mkW 15 (fi 0) (fi 1); mkW 16 (fi 0) (fi 5)].
Definition y_bodies : list (Z * Z) := [(1, 4); (2, 9)].
Definition cz (z : Z) : cell := CC (fi z) (fi (- z)).
Definition six (f : Z -> cell) (z : Z) : list cell := map (fun i => f (z + i)) [0; 1; 2; 3; 4; 5].
(** Motions of both bodies, in turn for each reference *)
Definition y_motions : list resp := flat_map (fun r => [mkR 4 r (six cz (100 * r)); mkR 9 r (six cz (200 * r))]) [11; 12; 13; 14; 15; 16].
Definition y_drifts : list resp := map (fun r => mkR 9 r (map (fun i => CF (fi (10 * r + i))) [0; 1; 2])) [11; 12; 13; 14; 15; 16].
(** Section forces of the second body for sections 1 and 2 *)
Definition y_sforces : list (Z * resp) := flat_map (fun s => map (fun r => (s, mkR 9 r (six cz (1000 * s + 10 * r)))) [11; 12; 13; 14; 15; 16]) [1; 2].
Definition y_fluids : list fluid := flat_map (fun r => map (fun p => mkFl r p (cz (10 * r + p)) [cz (1000 * p + r); cz (2000 * p + r); cz (3000 * p + r)]) [1; 2]) [11; 12; 13; 14; 15; 16].
Definition y_panels : list panel := flat_map (fun r => flat_map (fun s => map (fun p => mkP 9 r p s (cz (1000 * r + 10 * s + p))) [1; 2; 3]) [1; 2]) [11; 12; 13; 14; 15; 16].
Definition y_mat (z : Z) : list (list cell) := map (fun i => map (fun j => CF (fi (z + 10 * i + j))) [0; 1; 2; 3; 4; 5]) [0; 1; 2; 3; 4; 5].
Definition y_matrices : list matr :=
  [mkM 4 4 11 (y_mat 100); mkM 9 9 11 (y_mat 200); mkM 9 9 12 (y_mat 300); mkM 4 4 12 (y_mat 400); mkM 9 9 12 (y_mat 500); mkM 9 4 12 (y_mat 600); mkM 9 9 12 (y_mat 700); mkM 9 9 11 (y_mat 800)].

Definition y_rest (h : list (path * node)) : h5 := [
  (w_y, Group [("RECORDS", AStrs ["WDRESREF"]); ("SELTYP", AInt (Some 1)); ("LEVEL", AStr "FIRSTLEVEL"); ("FILETYPE", AStr "G"); ("DATATYPE", AStr "HYDRODYNAMIC")]);
  tab w_y "WDRESREF" (map (fun r => [CI 10; CI (w_ires r); CI 1; CI 2; CI (w_ires r - 11); CI (w_ires r - 10); CI (w_ires r - 11); CI (w_ires r - 10); CI 0; CI 0]) y_refs);
  (nth 0 (apaths w_y "WDRESREF") [], Arr (TV 2 TF) (map (fun r => CV [CF (fi 1); CF (w_dir r)]) y_refs));
  (nth 1 (apaths w_y "WDRESREF") [], Arr (TV 2 TF) (map (fun r => CV [CF (fi 1); CF (w_freq r)]) y_refs));
  (nth 2 (apaths w_y "WDRESREF") [], Arr (TV 2 TF) []);
  tab w_y "WBODCON" [[CI 5; CI 4; CI 1; CI 0; CI 0; CI 0]; [CI 5; CI 9; CI 2; CI 0; CI 0; CI 0]];
  (nth 0 (apaths w_y "WBODCON") [], Arr (TV 3 TF) []);
  tab w_y "WGLOBDEF" [[CI 5; fz 10; fz 1025; CI 1; fz 300]];
  tab w_y "W1MOTION" (map (fun r => [CI 16; CI (r_cond r); CI (r_ires r); CI 1; CV (r_comps r)]) y_motions);
  tab w_y "W2HDRIFT" (map (fun r => [CI 7; CI (r_cond r); CI (r_ires r); CV (r_comps r)]) y_drifts);
  tab w_y "WFKPOINT" [[CI 5; CI 1; CV [fz 0; fz 0; fz 0]]; [CI 5; CI 2; CV [fz 1; fz 0; fz (-1)]]];
  tab w_y "WFLUIDKN" (map (fun r => [CI 12; CI (f_ires r); CI (f_point r); CI 1; f_p r; CV (f_v r)]) y_fluids);
  tab w_y "W1PANPRE" (map (fun r => [CI 10; CI (p_cond r); CI (p_ires r); CI 1; CI (p_symm r); CI 1; p_p r; CI (p_pan r); CI 0]) y_panels);
  tab w_y "W1MATRIX" (map (fun m => [CI 42; CI 1; CI (m_i m); CI (m_j m); CI 0; CI (m_typ m); CV (map CV (m_rows m))]) y_matrices);
  tab w_y "WSECTION" [[CI 14; CI 2; CI 1; CI 1; CI 7; CV [fz 0; fz 0; fz 0]; CV [fz 0; fz 1; fz 0]; CV [fz 0; fz 0; fz 1]]; [CI 14; CI 2; CI 2; CI 1; CI 8; CV [fz 5; fz 0; fz 0]; CV [fz 5; fz 1; fz 0]; CV [fz 5; fz 0; fz 1]]]] ++ h.
Definition sf_tab (l : list (Z * resp)) : path * node :=
  tab w_y "W1SFORCE" (map (fun sr => [CI 17; CI (r_cond (snd sr)); CI (fst sr); CI (r_ires (snd sr)); CI 1; CV (r_comps (snd sr))]) l).
Definition y_h : h5 := y_rest [sf_tab y_sforces].
(** The same section forces, sections innermost *)
Definition y_minor : list (Z * resp) := flat_map (fun r => map (fun s => (s, mkR 9 r (six cz (1000 * s + 10 * r)))) [1; 2]) [11; 12; 13; 14; 15; 16].
Definition y_h2 : h5 := y_rest [sf_tab y_minor].
Definition y_d : sdata := mkSD w_y ["WDRESREF"] (Some 1) "FIRSTLEVEL" "G" "HYDRODYNAMIC" None OFile None true.
Definition y_x : hydro := mkHy y_d y_fs y_ds [] 2 2 (fz 10) (fz 1025) (fz 300).

Lemma y_init : hydro_init y_h y_d = Ok y_x /\ hydro_init y_h2 y_d = Ok y_x.
Proof. split; vm_compute; reflexivity. Qed.
Lemma y_has_refs : wrefs_in y_h w_y y_refs.
Proof.
  do 4 eexists. split; [split; [vm_compute; reflexivity|repeat constructor; vm_compute; reflexivity]|]. split; [constructor|].
  split; [repeat constructor; do 4 eexists; reflexivity|]. split; repeat constructor; eexists; reflexivity.
Qed.
Lemma not_same a b : fcmp a b <> Some Eq -> a <> FNan -> ~ same a b.
Proof. intros H1 H2 [H|[H _]]; contradiction. Qed.
Lemma y_grid : grid y_refs y_ds y_fs.
Proof.
  split; [reflexivity|]. split; [|split].
  - repeat constructor; apply not_same; vm_compute; discriminate.
  - repeat constructor; apply not_same; vm_compute; discriminate.
  - cbn. repeat constructor; cbn; intuition discriminate.
Qed.
Lemma y_has_bodies : bodies_in y_h w_y y_bodies /\ bodies_in y_h2 w_y y_bodies.
Proof. split; do 2 eexists; (split; [split; [vm_compute; reflexivity|repeat constructor; vm_compute; reflexivity]|]); repeat constructor; do 4 eexists; reflexivity. Qed.
Lemma y_body : body_cond y_bodies 2 9.
Proof. exists [(1, 4)], []. split; [reflexivity|]. cbn. intuition discriminate. Qed.
Lemma Forall2_map_r {A B} (P : A -> B -> Prop) (f : A -> B) l : (forall a, In a l -> P a (f a)) -> Forall2 P l (map f l).
Proof. induction l as [|a l IH]; intro H; constructor; [apply H; now left|apply IH; intros; apply H; now right]. Qed.
Lemma all_in {A} (p : A -> Prop) (q : A -> bool) l : (forall a, q a = true -> p a) -> forallb q l = true -> forall a, In a l -> p a.
Proof. intros H HF a Ha. apply H. rewrite forallb_forall in HF. now apply HF. Qed.
Definition plainb (c : cell) : bool := match c with CV _ => false | _ => true end.
Lemma plains l : forallb plainb l = true -> Forall plain l.
Proof. intro H. apply Forall_forall. intros c Hc. rewrite forallb_forall in H. specialize (H c Hc). now destruct c. Qed.
Lemma resp_rows rec n b l : forallb (fun r => Nat.eqb (length (r_comps r)) n && forallb plainb (r_comps r)) l = true ->
  Forall2 (resp_row rec n) l (map (fun r => CI b :: CI (r_cond r) :: CI (r_ires r) :: (if str_in rec ["W1MOTION"; "W1EXFORC"] then [CI 1] else []) ++ [CV (r_comps r)]) l).
Proof.
  intro H. apply Forall2_map_r. revert H. apply all_in. intros r Hr. apply andb_prop in Hr as [H1 H2]. apply Nat.eqb_eq in H1. split; [exact H1|]. split; [now apply plains|]. exists b, 1. reflexivity.
Qed.
Lemma y_has_motions : responses_in y_h w_y "W1MOTION" 6 y_motions.
Proof. eexists. split; [|apply (resp_rows "W1MOTION" 6 16 y_motions); vm_compute; reflexivity]. split; [vm_compute; reflexivity|constructor]. Qed.
Lemma y_has_drifts : responses_in y_h w_y "W2HDRIFT" 3 y_drifts.
Proof. eexists. split; [|apply (resp_rows "W2HDRIFT" 3 7 y_drifts); vm_compute; reflexivity]. split; [vm_compute; reflexivity|constructor]. Qed.
Lemma y_has_sforces : sforces_in y_h w_y y_sforces /\ sforces_in y_h2 w_y y_minor.
Proof.
  split; (eexists; split; [split; [vm_compute; reflexivity|constructor]|]); repeat constructor; cbn [r_cond r_ires r_comps fst snd]; do 2 eexists; reflexivity.
Qed.
Lemma y_has_fluids : fluids_in y_h w_y y_fluids.
Proof. eexists; split; [split; [vm_compute; reflexivity|constructor]|]. repeat constructor; cbn [f_ires f_point f_p f_v]; do 2 eexists; reflexivity. Qed.
Lemma y_has_panels : panels_in y_h w_y y_panels.
Proof. eexists; split; [split; [vm_compute; reflexivity|constructor]|]. repeat constructor; cbn [p_ires p_cond p_pan p_symm p_p]; do 4 eexists; reflexivity. Qed.
Lemma y_has_matrices : matrices_in y_h w_y y_matrices.
Proof. eexists; split; [split; [vm_compute; reflexivity|constructor]|]. repeat constructor; cbn [m_i m_j m_typ m_rows]; do 3 eexists; reflexivity. Qed.
