(** * Properties of open files: C40, C41

    [runs tr s]: the history [tr] of opening, using and closing leads to the state
    [s].  [alive tr n]: in [tr] the n-th file was opened and not closed since. *)
From Coq Require Import Permutation.
From Verif Require Import Base Flt H5 Schema Data Files Struc Trans Nd Hydro Handles HandlesSpec HandlesProofs.
From Verif Require StrucSample TransSample HydroSample.
Open Scope string_scope.
Open Scope list_scope.

(** C40: a file, its tables file and its data objects are open together, exactly
    as long as the history says. *)
Theorem C40_together : forall tr s n f, runs tr s -> nth_error (st_files s) n = Some f ->
  (alive tr n -> whole f true) /\ (~ alive tr n -> whole f false) /\ (In n (st_set s) <-> alive tr n).
Proof.
  intros tr s n f HR Hf. destruct (state_whole tr s HR n f Hf) as [W S]. pose proof (open_iff_alive tr s HR n f Hf) as A.
  split; [|split].
  - intro H. apply A in H. now rewrite H in W.
  - intro H. destruct (hf_open f); [now exfalso; apply H, A|exact W].
  - now rewrite S.
Qed.
Print Assumptions C40_together.
(** Closing by the file or any data object of it. *)
Theorem C40_close : forall tr s n f o, runs tr s -> nth_error (st_files s) n = Some f ->
  (o = DoClose n \/ exists i, o = DoCloseData n i /\ exists_obj s n i) ->
  snd (step s o) = Ok RNothing /\
  (exists f', nth_error (st_files (fst (step s o))) n = Some f' /\ whole f' false /\ hf_store f' = hf_store f /\ map ob_key (hf_objs f') = map ob_key (hf_objs f)) /\
  ~ In n (st_set (fst (step s o))) /\
  (forall m, m <> n -> nth_error (st_files (fst (step s o))) m = nth_error (st_files s) m /\ (In m (st_set (fst (step s o))) <-> In m (st_set s))) /\
  (~ alive tr n -> fst (step s o) = s).
Proof.
  intros tr s n f o HR Hf HC. destruct (close_effect tr s n f o HR Hf HC) as (E1 & E2 & E3 & E4 & E5). repeat (split; [assumption|]).
  intro H. apply E5. destruct (hf_open f) eqn:E; [|reflexivity]. exfalso. apply H. now apply (open_iff_alive tr s HR n f Hf).
Qed.
Print Assumptions C40_close.
(** Nothing closed opens again. *)
Theorem C40_final : forall tr s tr' s' n f, runs tr s -> runs (tr ++ tr') s' -> nth_error (st_files s) n = Some f -> ~ alive tr n -> ~ alive (tr ++ tr') n.
Proof. intros tr s tr' s' n f HR HR' Hf HA. apply (closed_for_good tr s tr' n HR); [now exists s'| |exact HA]. apply nth_error_Some. congruence. Qed.
Print Assumptions C40_final.
(** Use of a closed file, and of a closed data object. *)
Theorem C40_closed_file : forall tr s n f l, runs tr s -> nth_error (st_files s) n = Some f -> ~ alive tr n -> step s (DoLook n l) = (s, Err ClosedFileError).
Proof.
  intros tr s n f l HR Hf HA. cbn [step]. rewrite Hf. destruct (C40_together tr s n f HR Hf) as (_ & W & _). destruct (W HA) as (W1 & _). now rewrite closed_look.
Qed.
Print Assumptions C40_closed_file.
Theorem C40_closed_data : forall tr s n f i o a, runs tr s -> nth_error (st_files s) n = Some f -> nth_error (hf_objs f) i = Some o -> ~ alive tr n ->
  has_method o a -> proper_args a ->
  step s (DoUse n i a) = (s, Err ClosedFileError).
Proof.
  intros tr s n f i o a HR Hf Ho HA Hm Hp. cbn [step]. rewrite Hf, Ho. destruct (C40_together tr s n f HR Hf) as (_ & W & _). destruct (W HA) as (_ & _ & W3).
  rewrite closed_use; [reflexivity|apply W3; exact (nth_error_In _ _ Ho)|exact Hm|exact Hp].
Qed.
Print Assumptions C40_closed_data.
(** Methods a class does not have, and the one that is empty: get_nodes of data above
    the first level gives None, whether open or closed. *)
Theorem C40_methods : forall s n f i o a, nth_error (st_files s) n = Some f -> nth_error (hf_objs f) i = Some o -> ~ has_method o a ->
  (ob_kind o = KHydro -> ob_hydro o <> None) ->
  (empty_method o a -> step s (DoUse n i a) = (s, Ok RNothing)) /\ (~ empty_method o a -> step s (DoUse n i a) = (s, Err AttributeError)).
Proof.
  intros s n f i o a Hf Ho Hm Hk. cbn [step]. rewrite Hf, Ho. unfold has_method, empty_method, use_obj in *. destruct (ob_hydro o) as [x|].
  - split; [intros [K _]; discriminate|intros _]. destruct a; try (elim Hm; exact I); reflexivity.
  - destruct (ob_kind o); cbn [struc_has struc_method] in *; [| | |now elim Hk].
    + split; [intros (_ & _ & E); destruct a; try destruct E; reflexivity|intro E; destruct a; try (elim Hm; exact I); try reflexivity]. elim E. auto.
    + split; [intros (_ & _ & E); destruct a; try destruct E; reflexivity|intro E; destruct a; try (elim Hm; reflexivity); try reflexivity]. elim E. auto.
    + split; [intros (_ & [K|K] & _); discriminate|intros _]. destruct a; try reflexivity; elim Hm; intros [].
Qed.
Print Assumptions C40_methods.
(** Opening: one new file, open, with a data object for each data set of the file. *)
Theorem C40_opened : forall s h n, snd (step s (DoOpen h)) = Ok (RNew n) ->
  n = length (st_files s) /\ exists f es, nth_error (st_files (fst (step s (DoOpen h)))) n = Some f /\ hf_store f = h /\ whole f true /\ file_data h = Ok es /\
    Forall2 (fun e o => ob_key o = key_of e /\ ob_kind o = kind_of e /\ ob_data o = obj_of e /\ (ob_hydro o <> None <-> kind_of e = KHydro)) es (hf_objs f) /\
    st_files (fst (step s (DoOpen h))) = st_files s ++ [f].
Proof.
  intros s h n H. cbn [step] in *. destruct (open_objs h) as [os|] eqn:E; [|discriminate]. cbn [fst snd] in *. injection H as <-. split; [reflexivity|].
  pose proof E as E'. unfold open_objs in E. destruct (file_data h) as [es|] eqn:F; [|discriminate]. cbn [rbind] in E.
  exists (mkF h os true true), es. cbn [st_files]. split; [now rewrite nth_error_app2, Nat.sub_diag by lia|]. split; [reflexivity|]. split; [|split; [reflexivity|split; [exact (rmap_same h es os E)|reflexivity]]].
  split; [reflexivity|]. split; [reflexivity|]. cbn [hf_objs]. apply Forall_forall. exact (proj1 (open_objs_facts h os E')).
Qed.
Print Assumptions C40_opened.

(** Three files; the first is closed by the data object of its second-level group. *)
Definition ops1 : list op := [DoOpen TransSample.y_h; DoOpen HydroSample.y_h; DoUse 1 0 HFreqs; DoOpen StrucSample.x_h; DoUse 0 1 ASetnames; DoCloseData 0 1].
Example C40_case : runs (history start ops1) (run ops1) /\ length (st_files (run ops1)) = 3%nat /\
  map snd (history start ops1) = [Ok (RNew 0); Ok (RNew 1); Ok RNothing; Ok (RNew 2); Ok RNothing; Ok RNothing] /\
  ~ alive (history start ops1) 0 /\ alive (history start ops1) 1 /\ alive (history start ops1) 2 /\
  map hf_open (st_files (run ops1)) = [false; true; true] /\
  map (fun f => map (fun o => (ob_key o, d_open (ob_data o))) (hf_objs f)) (st_files (run ops1)) = [[("T3", false); ("T3/T1", false)]; [("G1", true)]; [("T1", true)]].
Proof.
  assert (HR : runs (history start ops1) (run ops1)).
  { apply history_runs. unfold ops1, all_allowed. repeat split; vm_compute; eauto 6. }
  split; [exact HR|]. split; [vm_compute; reflexivity|]. split; [vm_compute; reflexivity|].
  assert (A : forall n f, nth_error (st_files (run ops1)) n = Some f -> (hf_open f = true <-> alive (history start ops1) n)) by exact (open_iff_alive _ _ HR).
  destruct (nth_error (st_files (run ops1)) 0) as [f0|] eqn:E0; [|vm_compute in E0; discriminate].
  destruct (nth_error (st_files (run ops1)) 1) as [f1|] eqn:E1; [|vm_compute in E1; discriminate].
  destruct (nth_error (st_files (run ops1)) 2) as [f2|] eqn:E2; [|vm_compute in E2; discriminate].
  assert (O : option_map hf_open (nth_error (st_files (run ops1)) 0) = Some false /\ option_map hf_open (nth_error (st_files (run ops1)) 1) = Some true /\ option_map hf_open (nth_error (st_files (run ops1)) 2) = Some true)
    by (repeat split; vm_compute; reflexivity).
  rewrite E0, E1, E2 in O. cbn [option_map] in O. destruct O as (O0 & O1 & O2). injection O0 as O0. injection O1 as O1. injection O2 as O2.
  split; [intro H; apply (A _ _ E0) in H; congruence|]. split; [now apply (A _ _ E1)|]. split; [now apply (A _ _ E2)|].
  split; vm_compute; reflexivity.
Qed.
Definition made (tr : list op) : list (list (string * kind)) := map (fun f => map (fun o => (ob_key o, ob_kind o)) (hf_objs f)) (st_files (run tr)).
Example C40_opened_case : made ops1 = [[("T3", KTop); ("T3/T1", KFirst)]; [("G1", KHydro)]; [("T1", KFirst)]].
Proof. vm_compute. reflexivity. Qed.
Example C40_closed_case : snd (step (run ops1) (DoUse 0 1 (ANodes [] "" false))) = Err ClosedFileError /\ snd (step (run ops1) (DoUse 0 0 ASetnames)) = Err ClosedFileError /\
  snd (step (run ops1) (DoUse 0 0 (ANodes [] "" false))) = Ok RNothing /\ snd (step (run ops1) (DoUse 0 1 (ATransformation 1 1 Top))) = Err AttributeError /\
  snd (step (run ops1) (DoLook 0 (LGet "T3"))) = Err ClosedFileError /\
  snd (step (run ops1) (DoLook 1 (LGet "T3"))) = Ok RNone /\ snd (step (run ops1) (DoUse 1 0 (HBody 0%Z))) <> Err ClosedFileError.
Proof. repeat split; vm_compute; try reflexivity; discriminate. Qed.
(** The kind of results is checked before whether the object is open. *)
Example C40_args_needed : snd (step (run ops1) (DoUse 0 1 (ANoderesults "stress" 1%Z AllCases [] "" false))) = Err ValueError.
Proof. vm_compute. reflexivity. Qed.

(** C41 fails: closing all files raises whenever a file is open, and with two or
    more open files all but one stay open.  [n :: r]: the open files in the order
    in which the set is iterated over. *)
Theorem C41_refuted : forall tr s n m r, runs tr s -> Permutation (n :: m :: r) (st_set s) ->
  snd (step s (DoCloseAll (n :: m :: r))) = Err RuntimeError /\
  forall k, In k (m :: r) -> exists f, nth_error (st_files (fst (step s (DoCloseAll (n :: m :: r))))) k = Some f /\ whole f true.
Proof.
  intros tr s n m r HR HP. destruct (close_all_one tr s n (m :: r) HR HP) as (E1 & E2 & E3). split; [exact E1|]. intros k Hk.
  pose proof (runs_step tr s (DoCloseAll (n :: m :: r)) HR HP) as HR'. pose proof (Permutation_in _ E3 Hk) as Hin.
  destruct (runs_inv _ _ HR') as (_ & HL & _). specialize (HL k Hin). apply nth_error_Some in HL.
  destruct (nth_error (st_files (fst (step s (DoCloseAll (n :: m :: r))))) k) as [f|] eqn:Ef; [|contradiction]. exists f. split; [reflexivity|].
  destruct (C40_together _ _ k f HR' Ef) as (W & _ & S). apply W, S, Hin.
Qed.
Print Assumptions C41_refuted.
(** What is left of C41: without open files nothing happens; otherwise exactly
    one is closed before the error, so that as many calls as there are open files
    close them all. *)
Theorem C41_one_partial : forall tr s n r, runs tr s -> Permutation (n :: r) (st_set s) ->
  snd (step s (DoCloseAll (n :: r))) = Err RuntimeError /\ fst (step s (DoCloseAll (n :: r))) = fst (step s (DoClose n)) /\
  Permutation r (st_set (fst (step s (DoCloseAll (n :: r))))).
Proof. exact close_all_one. Qed.
Print Assumptions C41_one_partial.
Theorem C41_none_partial : forall tr s, runs tr s -> st_set s = [] -> step s (DoCloseAll []) = (s, Ok RNothing).
Proof. exact close_all_none. Qed.
Print Assumptions C41_none_partial.
Theorem C41_repeated_partial : forall tr s, runs tr s -> exists s', closing s (length (st_set s)) s' /\ st_set s' = [].
Proof. exact close_all_repeated. Qed.
Print Assumptions C41_repeated_partial.
Example C41_case : Permutation [1; 2]%nat (st_set (run ops1)) /\ snd (step (run ops1) (DoCloseAll [1; 2]%nat)) = Err RuntimeError /\
  map hf_open (st_files (fst (step (run ops1) (DoCloseAll [1; 2]%nat)))) = [false; false; true].
Proof. split; [change (Permutation [1; 2]%nat [2; 1]%nat); constructor|]. split; vm_compute; reflexivity. Qed.
