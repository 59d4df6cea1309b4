(** * HandlesProofs: openness follows the history. *)
From Coq Require Import Permutation.
From Verif Require Import Base Flt H5 Schema Data Files FilesProofs Struc Trans Nd Hydro Handles HandlesSpec.
Open Scope string_scope.
Open Scope Z_scope.
Open Scope list_scope.
Open Scope monad_scope.

(** ** Lists *)
Lemma set_nth_same {A} n (x : A) l : (n < length l)%nat -> nth_error (set_nth n x l) n = Some x.
Proof. revert n. induction l as [|y l IH]; intros n H; [cbn in H; lia|]. destruct n; [reflexivity|]. cbn. apply IH. cbn in H. lia. Qed.
Lemma set_nth_other {A} n m (x : A) l : n <> m -> nth_error (set_nth n x l) m = nth_error l m.
Proof. revert n m. induction l as [|y l IH]; intros n m H; destruct n, m; try reflexivity; [contradiction|]. cbn. apply IH. congruence. Qed.
Lemma set_nth_length {A} n (x : A) l : length (set_nth n x l) = length l.
Proof. revert n. induction l as [|y l IH]; intros [|n]; cbn; auto. Qed.
Lemma nat_mem_spec n l : nat_mem n l = true <-> In n l.
Proof. unfold nat_mem. rewrite existsb_exists. split; [intros (m & H & E); apply Nat.eqb_eq in E; now subst|intro H; exists n; split; [exact H|apply Nat.eqb_refl]]. Qed.
Lemma In_remove_first n m l : NoDup l -> (In m (remove_first n l) <-> In m l /\ m <> n).
Proof.
  induction l as [|k l IH]; intro HN; [cbn; tauto|]. inversion HN; subst. cbn. destruct (Nat.eqb_spec n k) as [->|Hk].
  - split; [intro H; split; [now right|intros ->; contradiction]|]. intros [[->|H] Hm]; [contradiction|exact H].
  - cbn. rewrite IH by assumption. split; [intros [->|[H Hm]]; [split; [now left|congruence]|tauto]|tauto].
Qed.
Lemma NoDup_remove_first n l : NoDup l -> NoDup (remove_first n l).
Proof.
  induction l as [|k l IH]; intro HN; [constructor|]. inversion HN; subst. cbn. destruct (Nat.eqb n k); [assumption|].
  constructor; [|now apply IH]. rewrite In_remove_first by assumption. tauto.
Qed.
Lemma remove_first_length n l : In n l -> S (length (remove_first n l)) = length l.
Proof. induction l as [|k l IH]; intro H; [destruct H|]. cbn. destruct (Nat.eqb_spec n k); [reflexivity|]. cbn. destruct H as [->|H]; [congruence|]. now rewrite IH. Qed.
Lemma path_eqb_spec p q : path_eqb p q = true <-> p = q.
Proof.
  revert q. induction p as [|a p IH]; intros [|b q]; cbn; split; intro H; try discriminate; try reflexivity.
  - apply andb_prop in H as [H1 H2]. apply String.eqb_eq in H1. apply IH in H2. now subst.
  - injection H as -> ->. now rewrite String.eqb_refl, (proj2 (IH q) eq_refl).
Qed.
Lemma obj_at_spec p i os : (exists o, In o os /\ d_group (ob_data o) = p) -> exists j o, obj_at p i os = Some (i + j)%nat /\ nth_error os j = Some o /\ d_group (ob_data o) = p.
Proof.
  revert i. induction os as [|o os IH]; intros i (x & Hx & E); [destruct Hx|]. cbn [obj_at]. destruct (path_eqb p (d_group (ob_data o))) eqn:EP.
  - apply path_eqb_spec in EP. exists O, o. rewrite Nat.add_0_r. auto.
  - destruct Hx as [->|Hx]; [pose proof (proj2 (path_eqb_spec p _) (eq_sym E)) as K; congruence|].
    destruct (IH (S i) (ex_intro _ x (conj Hx E))) as (j & o' & H1 & H2 & H3). exists (S j), o'. rewrite H1. repeat split; [f_equal; lia|exact H2|exact H3].
Qed.

(** ** Data objects of a new file *)
Definition owned (es : list sdata) (d : sdata) : Prop :=
  (exists g, d_group d = [g] /\ d_file d = OFile) \/ (exists g s g0, d_group d = [g; s] /\ d_file d = OData [g0] /\ exists d', In d' es /\ d_group d' = [g0]).
Lemma owned_more es es' d : (forall x, In x es -> In x es') -> owned es d -> owned es' d.
Proof. intros H [K|(g & s & g0 & K1 & K2 & d' & K3 & K4)]; [now left|]. right. exists g, s, g0. repeat split; [exact K1|exact K2|]. exists d'. split; [now apply H|exact K4]. Qed.
Lemma subs_owned h gr data subs : forall es, sub_objects h gr data subs = Ok es ->
  Forall (fun e => (exists s, d_group (obj_of e) = [gr; s]) /\ d_file (obj_of e) = OData data) es.
Proof.
  induction subs as [|s subs IH]; intros es H; cbn [sub_objects] in H; [injection H as <-; constructor|].
  destruct (attr_str h [gr; s] "LEVEL") as [lv|]; [|discriminate]. cbn [rbind] in H.
  destruct (String.eqb lv "INTERLEVEL").
  - destruct (sif_init h [gr; s] (OData data) None) as [d|] eqn:E; [|discriminate]. cbn [rbind] in H. apply sif_init_top in E. destruct E as (E1 & E2 & E3 & E4).
    destruct (sub_objects h gr data subs) as [rest|]; [|discriminate]. cbn [rbind] in H. injection H as <-. constructor; [|now apply IH]. split; [now exists s|exact E2].
  - destruct (String.eqb lv "FIRSTLEVEL").
    + destruct (first_init h [gr; s] (OData data)) as [d|] eqn:E; [|discriminate]. cbn [rbind] in H. apply first_init_top in E. destruct E as (E1 & E2 & E3 & E4).
      destruct (sub_objects h gr data subs) as [rest|]; [|discriminate]. cbn [rbind] in H. injection H as <-. constructor; [|now apply IH]. split; [now exists s|exact E2].
    + cbn [rbind] in H. destruct (sub_objects h gr data subs) as [rest|]; [|discriminate]. cbn [rbind] in H. injection H as <-. now apply IH.
Qed.
Definition top_one (d : sdata) : Prop := exists g, d_group d = [g] /\ d_file d = OFile.
Lemma objects_owned h grs : forall data es, (forall k d, data = Some (k, d) -> top_one d) ->
  objects h data grs = Ok es -> Forall (fun e => owned (map obj_of es) (obj_of e)) es.
Proof.
  induction grs as [|gr grs IH]; intros data es HD H; cbn [objects] in H; [injection H as <-; constructor|].
  destruct (attr_str h [gr] "DATATYPE") as [dt|]; [|discriminate]. cbn [rbind] in H.
  match type of H with rbind ?m _ = _ => destruct m as [data'|] eqn:E; [|discriminate] end. cbn [rbind] in H.
  assert (HD' : forall k d, data' = Some (k, d) -> top_one d).
  { destruct (String.eqb dt "STRUCTURAL").
    - destruct (attr_str h [gr] "LEVEL") as [lv|]; [|discriminate]. cbn [rbind] in E. destruct (String.eqb lv "TOPLEVEL").
      + destruct (sif_init h [gr] OFile None) as [d|] eqn:E1; [|discriminate]. injection E as <-. apply sif_init_top in E1. intros k d' K. injection K as _ <-. exists gr. tauto.
      + destruct (String.eqb lv "FIRSTLEVEL").
        * destruct (first_init h [gr] OFile) as [d|] eqn:E1; [|discriminate]. injection E as <-. apply first_init_top in E1. intros k d' K. injection K as _ <-. exists gr. tauto.
        * injection E as <-. exact HD.
    - destruct (String.eqb dt "HYDRODYNAMIC").
      + unfold hydro_data in E. destruct (sif_init h [gr] OFile None) as [d|] eqn:E1; [|discriminate]. cbn [rbind] in E. destruct (hydro_init h d); [|discriminate]. injection E as <-. apply sif_init_top in E1. intros k d' K. injection K as _ <-. exists gr. tauto.
      + injection E as <-. exact HD. }
  destruct data' as [[k d]|]; [|discriminate]. pose proof (HD' k d eq_refl) as (g & G1 & G2).
  destruct (sub_objects h gr (d_group d) (child_groups h [gr])) as [subs|] eqn:ES; [|discriminate]. cbn [rbind] in H.
  destruct (objects h (Some (k, d)) grs) as [rest|] eqn:ER; [|discriminate]. cbn [rbind] in H. injection H as <-.
  constructor; [left; exists g; now split|]. apply Forall_app. split.
  - apply subs_owned in ES. eapply Forall_impl; [|exact ES]. cbv beta. intros e [(s & K1) K2]. right. exists gr, s, g. rewrite G1 in K2. repeat split; [exact K1|exact K2|]. exists d. split; [now left|exact G1].
  - specialize (IH (Some (k, d)) rest HD' ER). eapply Forall_impl; [|exact IH]. cbv beta. intros e K. eapply owned_more; [|exact K]. intros x Hx. cbn [map]. right. rewrite map_app. apply in_or_app. now right.
Qed.
Lemma rmap_same h es os : rmap (make_obj h) es = Ok os -> Forall2 (fun e o => ob_key o = key_of e /\ ob_kind o = kind_of e /\ ob_data o = obj_of e /\ (ob_hydro o <> None <-> kind_of e = KHydro)) es os.
Proof.
  revert os. induction es as [|e es IH]; intros os H; cbn [rmap] in H; [injection H as <-; constructor|].
  destruct (make_obj h e) as [o|] eqn:E; [|discriminate]. cbn [rbind] in H. destruct (rmap (make_obj h) es) as [r|]; [|discriminate]. cbn [rbind] in H. injection H as <-.
  constructor; [|now apply IH]. unfold make_obj in E. destruct (kind_of e) eqn:K; try (injection E as <-; cbn; repeat split; congruence).
  destruct (hydro_init h (obj_of e)) as [x|]; [|discriminate]. injection E as <-. cbn. repeat split; congruence.
Qed.
Lemma rmap_make h es os : rmap (make_obj h) es = Ok os -> map ob_data os = map obj_of es /\
  (forall o, In o os -> match ob_hydro o with Some x => ob_kind o = KHydro /\ hydro_init h (ob_data o) = Ok x | None => ob_kind o <> KHydro end).
Proof.
  revert os. induction es as [|e es IH]; intros os H; cbn [rmap] in H; [injection H as <-; split; [reflexivity|intros o []]|].
  destruct (make_obj h e) as [o|] eqn:E; [|discriminate]. cbn [rbind] in H. destruct (rmap (make_obj h) es) as [r|]; [|discriminate]. cbn [rbind] in H. injection H as <-.
  destruct (IH r eq_refl) as [I1 I2]. unfold make_obj in E.
  assert (G : ob_data o = obj_of e /\ match ob_hydro o with Some x => ob_kind o = KHydro /\ hydro_init h (ob_data o) = Ok x | None => ob_kind o <> KHydro end).
  { destruct (kind_of e); try (injection E as <-; split; [reflexivity|discriminate]).
    destruct (hydro_init h (obj_of e)) as [x|] eqn:EX; [|discriminate]. injection E as <-. repeat split. exact EX. }
  split; [cbn; now rewrite I1, (proj1 G)|]. intros o' [<-|Ho]; [apply G|now apply I2].
Qed.
Lemma open_objs_facts h os : open_objs h = Ok os -> Forall (fun o => d_open (ob_data o) = true) os /\ Forall (owned (map ob_data os)) (map ob_data os).
Proof.
  unfold open_objs. intro H. destruct (file_data h) as [es|] eqn:E; [|discriminate]. cbn [rbind] in H. apply rmap_make in H as [H _].
  split.
  - apply file_no_top in E. assert (G : Forall (fun d => d_open d = true) (map ob_data os)); [|now rewrite Forall_map in G].
    rewrite H, Forall_map. eapply Forall_impl; [|exact E]. intros e [_ K]. exact K.
  - rewrite H. unfold file_data in E. apply objects_owned in E; [|discriminate]. now rewrite Forall_map.
Qed.

(** ** The invariant *)
Definition good (s : state) (n : nat) (f : hfile) : Prop :=
  hf_tb f = hf_open f /\ Forall (fun o => d_open (ob_data o) = hf_open f) (hf_objs f) /\ Forall (owned (map ob_data (hf_objs f))) (map ob_data (hf_objs f)) /\
  (In n (st_set s) <-> hf_open f = true).
Definition inv (s : state) : Prop :=
  NoDup (st_set s) /\ (forall n, In n (st_set s) -> (n < length (st_files s))%nat) /\ forall n f, nth_error (st_files s) n = Some f -> good s n f.

Definition shut (f : hfile) : hfile := mkF (hf_store f) (map closed_obj (hf_objs f)) false false.
Lemma close_file_inv s n f : inv s -> nth_error (st_files s) n = Some f ->
  snd (close_file s n) = Ok tt /\
  (hf_open f = true -> fst (close_file s n) = mkS (set_nth n (shut f) (st_files s)) (remove_first n (st_set s)) /\ In n (st_set s)) /\
  (hf_open f = false -> fst (close_file s n) = s).
Proof.
  intros (_ & _ & HI) Hf. destruct (HI n f Hf) as (_ & _ & _ & HS). unfold close_file. rewrite Hf.
  destruct (hf_open f); [|split; [reflexivity|split; [discriminate|reflexivity]]].
  pose proof (proj2 HS eq_refl) as Hn. rewrite (proj2 (nat_mem_spec _ _) Hn). split; [reflexivity|]. split; [split; [reflexivity|exact Hn]|discriminate].
Qed.
Lemma closed_groups os : map ob_data (map closed_obj os) = map closed_data (map ob_data os).
Proof. rewrite !map_map. reflexivity. Qed.
Lemma owned_closed es d : owned es d -> owned (map closed_data es) (closed_data d).
Proof.
  intros [(g & K1 & K2)|(g & s & g0 & K1 & K2 & d' & K3 & K4)]; [left; exists g; now split|]. right. exists g, s, g0. repeat split; [exact K1|exact K2|].
  exists (closed_data d'). split; [now apply in_map|exact K4].
Qed.
Lemma inv_shut s n f : inv s -> nth_error (st_files s) n = Some f -> inv (mkS (set_nth n (shut f) (st_files s)) (remove_first n (st_set s))).
Proof.
  intros (HN & HL & HI) Hf. split; [|split]; cbn [st_files st_set].
  - now apply NoDup_remove_first.
  - intros m Hm. rewrite set_nth_length. apply HL. apply In_remove_first in Hm; tauto.
  - intros m g Hg. assert (Hn : (n < length (st_files s))%nat) by (apply nth_error_Some; congruence).
    destruct (Nat.eq_dec n m) as [<-|Hm].
    + rewrite set_nth_same in Hg by exact Hn. injection Hg as <-. destruct (HI n f Hf) as (_ & _ & HO & _). unfold good, shut. cbn [hf_tb hf_open hf_objs st_set]. repeat split.
      * rewrite Forall_map. apply Forall_forall. reflexivity.
      * rewrite closed_groups, Forall_map. eapply Forall_impl; [|exact HO]. apply owned_closed.
      * intro H. apply In_remove_first in H; [tauto|exact HN].
      * discriminate.
    + rewrite set_nth_other in Hg by exact Hm. destruct (HI m g Hg) as (H1 & H2 & H3 & H4). repeat split; try assumption; cbn [st_set].
      * intro H. apply In_remove_first in H; [|exact HN]. now apply H4.
      * intro H. apply In_remove_first; [exact HN|]. split; [now apply H4|congruence].
Qed.
(** Closing a data object of an open file closes the file. *)
Lemma close_data_inv s n i f o : inv s -> nth_error (st_files s) n = Some f -> nth_error (hf_objs f) i = Some o ->
  close_data (S (obj_count s n)) s n i = close_file s n.
Proof.
  intros HI Hf Ho. pose proof HI as (_ & _ & HG). destruct (HG n f Hf) as (H1 & H2 & H3 & H4).
  rewrite Forall_forall in H2. pose proof (nth_error_In _ _ Ho) as HIn. pose proof (H2 o HIn) as E. cbn [close_data]. rewrite Hf, Ho, E.
  destruct (hf_open f) eqn:EO.
  - rewrite Forall_map, Forall_forall in H3. destruct (H3 o HIn) as [(g & K1 & K2)|(g & t & g0 & K1 & K2 & d' & K3 & K4)]; rewrite K2; [reflexivity|].
    apply in_map_iff in K3 as (o' & <- & K3). destruct (obj_at_spec [g0] 0 (hf_objs f) (ex_intro _ o' (conj K3 K4))) as (j & oj & J1 & J2 & J3).
    rewrite J1. cbn [Nat.add]. unfold obj_count. rewrite Hf. destruct (length (hf_objs f)) as [|k] eqn:EL; [destruct (hf_objs f); [destruct HIn|discriminate]|].
    cbn [close_data]. rewrite Hf, J2. pose proof (nth_error_In _ _ J2) as HJ. rewrite (H2 oj HJ).
    destruct (H3 oj HJ) as [(g1 & L1 & L2)|(g1 & t1 & g2 & L1 & _)]; [now rewrite L2|congruence].
  - unfold close_file. now rewrite Hf, EO.
Qed.
Lemma close_all_inv s order : inv s -> Permutation order (st_set s) ->
  match order with
  | [] => close_all order s = (s, Ok tt) /\ st_set s = []
  | n :: _ => close_all order s = (fst (close_file s n), Err RuntimeError) /\ exists f, nth_error (st_files s) n = Some f /\ hf_open f = true
  end.
Proof.
  intros HI HP. destruct order as [|n r].
  - apply Permutation_nil in HP. unfold close_all. cbn [close_each]. rewrite HP, Nat.eqb_refl. split; [|reflexivity]. destruct s as [fs st]. cbn in *. now rewrite HP.
  - assert (Hn : In n (st_set s)) by (eapply Permutation_in; [exact HP|now left]). pose proof HI as (HN & HL & HG).
    destruct (nth_error (st_files s) n) as [f|] eqn:Hf; [|apply nth_error_None in Hf; specialize (HL n Hn); lia].
    destruct (HG n f Hf) as (_ & _ & _ & HS). pose proof (proj1 HS Hn) as HO. destruct (close_file_inv s n f HI Hf) as (E1 & E2 & _). destruct (E2 HO) as [E3 _].
    split; [|now exists f]. unfold close_all. cbn [close_each]. rewrite Nat.eqb_refl. destruct (close_file s n) as [s' a]. cbn [fst snd] in *. subst a s'.
    pose proof (remove_first_length n (st_set s) Hn) as EL.
    assert (NE : Nat.eqb (length (remove_first n (st_set s))) (length (st_set s)) = false) by (apply Nat.eqb_neq; lia).
    destruct r; cbn [close_each st_set]; rewrite NE; reflexivity.
Qed.
Lemma inv_step s o : inv s -> allowed s o -> inv (fst (step s o)).
Proof.
  intros HI HA. pose proof HI as (HN & HL & HG). destruct o as [h|n l|n i a|n|n i|order]; cbn [step].
  - destruct (open_objs h) as [os|] eqn:E; [|exact HI]. cbn [fst]. apply open_objs_facts in E as [E1 E2]. split; [|split]; cbn [st_files st_set].
    + constructor; [|exact HN]. intro H. specialize (HL _ H). lia.
    + intros n [<-|H]; rewrite app_length; cbn [length]; [lia|]. specialize (HL n H). lia.
    + intros n f Hf. destruct (Nat.lt_ge_cases n (length (st_files s))) as [Hn|Hn].
      * rewrite nth_error_app1 in Hf by exact Hn. destruct (HG n f Hf) as (G1 & G2 & G3 & G4). repeat split; try assumption; cbn [st_set].
        { intros [H|H]; [lia|now apply G4]. } { intro H. right. now apply G4. }
      * rewrite nth_error_app2 in Hf by exact Hn. destruct (n - length (st_files s))%nat as [|m] eqn:EM; [|destruct m; discriminate]. cbn in Hf. injection Hf as <-.
        assert (n = length (st_files s)) as -> by lia. repeat split; cbn [hf_open hf_objs st_set]; try assumption. intro. now left.
  - destruct (nth_error (st_files s) n); exact HI.
  - destruct (nth_error (st_files s) n) as [f|]; [|exact HI]. destruct (nth_error (hf_objs f) i); exact HI.
  - destruct HA as (f & Hf). destruct (close_file_inv s n f HI Hf) as (_ & E1 & E2). unfold nothing. cbn [fst].
    destruct (hf_open f); [destruct (E1 eq_refl) as [-> _]; now apply inv_shut|now rewrite (E2 eq_refl)].
  - destruct HA as (f & o & Hf & Ho). rewrite (close_data_inv s n i f o HI Hf Ho). destruct (close_file_inv s n f HI Hf) as (_ & E1 & E2). unfold nothing. cbn [fst].
    destruct (hf_open f); [destruct (E1 eq_refl) as [-> _]; now apply inv_shut|now rewrite (E2 eq_refl)].
  - cbn in HA. pose proof (close_all_inv s order HI HA) as H. unfold nothing. cbn [fst]. destruct order as [|n r]; [destruct H as [-> _]; exact HI|].
    destruct H as (-> & f & Hf & Hop). cbn [fst]. destruct (close_file_inv s n f HI Hf) as (_ & E1 & _). destruct (E1 Hop) as [-> _]. now apply inv_shut.
Qed.
Lemma runs_inv tr s : runs tr s -> inv s.
Proof.
  induction 1 as [|tr s o _ IH HA]; [|now apply inv_step]. split; [constructor|]. split; [intros n []|]. intros n f Hf. destruct n; discriminate.
Qed.

(** ** Openness follows the history *)
Definition cl (n : nat) (s : state) (o : op) : Prop := o = DoClose n \/ (exists i, o = DoCloseData n i) \/ (exists r, o = DoCloseAll (n :: r)).
(** An operation leaves a file alone, or closes it. *)
Lemma step_file s o n f : inv s -> allowed s o -> nth_error (st_files s) n = Some f ->
  nth_error (st_files (fst (step s o))) n = Some (if hf_open f then f else f) /\ ~ cl n s o \/
  nth_error (st_files (fst (step s o))) n = Some (if hf_open f then shut f else f) /\ cl n s o.
Proof.
  intros HI HA Hf. assert (Hn : (n < length (st_files s))%nat) by (apply nth_error_Some; congruence).
  assert (CF : forall m, (exists g, nth_error (st_files s) m = Some g) -> nth_error (st_files (fst (close_file s m))) n = Some (if Nat.eqb m n then (if hf_open f then shut f else f) else f)).
  { intros m (g & Hg). destruct (close_file_inv s m g HI Hg) as (_ & E1 & E2). destruct (hf_open g) eqn:Eg.
    - destruct (E1 eq_refl) as [-> _]. cbn [st_files]. destruct (Nat.eqb_spec m n) as [->|Hm].
      + rewrite set_nth_same by exact Hn. rewrite Hg in Hf. injection Hf as ->. now rewrite Eg.
      + rewrite set_nth_other by exact Hm. exact Hf.
    - rewrite (E2 eq_refl). destruct (Nat.eqb_spec m n) as [->|Hm]; [|exact Hf]. rewrite Hg in Hf. injection Hf as ->. now rewrite Eg. }
  assert (ID : forall X, nth_error (st_files s) n = X -> X = Some (if hf_open f then f else f)) by (intros X <-; rewrite Hf; now destruct (hf_open f)).
  destruct o as [h|m l|m i a|m|m i|order]; cbn [step].
  - left. split; [|unfold cl; intros [H|[(i & H)|(r & H)]]; discriminate]. destruct (open_objs h); cbn [fst]; [|now apply ID]. cbn [st_files]. rewrite nth_error_app1 by exact Hn. now apply ID.
  - left. split; [|unfold cl; intros [H|[(i & H)|(r & H)]]; discriminate]. destruct (nth_error (st_files s) m); now apply ID.
  - left. split; [|unfold cl; intros [H|[(j & H)|(r & H)]]; discriminate]. destruct (nth_error (st_files s) m) as [g|]; [|now apply ID]. destruct (nth_error (hf_objs g) i); now apply ID.
  - unfold nothing. cbn [fst]. specialize (CF m HA). destruct (Nat.eqb_spec m n) as [->|Hm].
    + right. split; [exact CF|now left].
    + left. split; [rewrite CF; now destruct (hf_open f)|]. intros [H|[(i & H)|(r & H)]]; congruence.
  - destruct HA as (g & o & Hg & Ho). rewrite (close_data_inv s m i g o HI Hg Ho). unfold nothing. cbn [fst]. specialize (CF m (ex_intro _ g Hg)). destruct (Nat.eqb_spec m n) as [->|Hm].
    + right. split; [exact CF|right; left; now exists i].
    + left. split; [rewrite CF; now destruct (hf_open f)|]. intros [H|[(j & H)|(r & H)]]; congruence.
  - unfold nothing. cbn [fst]. pose proof (close_all_inv s order HI HA) as H. destruct order as [|m r].
    + destruct H as [-> _]. left. split; [now apply ID|]. intros [H|[(j & H)|(r & H)]]; congruence.
    + destruct H as (-> & g & Hg & _). cbn [fst]. specialize (CF m (ex_intro _ g Hg)). destruct (Nat.eqb_spec m n) as [->|Hm].
      * right. split; [exact CF|right; right; now exists r].
      * left. split; [rewrite CF; now destruct (hf_open f)|]. intros [H|[(j & H)|(r' & H)]]; congruence.
Qed.
Lemma if_id (b : bool) {A} (x : A) : (if b then x else x) = x. Proof. now destruct b. Qed.
Lemma shut_open b f : hf_open (if b : bool then shut f else f) = if b then false else hf_open f. Proof. now destruct b. Qed.
Lemma alive_snoc tr e n : alive (tr ++ [e]) n <-> (alive tr n /\ ~ closes n e) \/ (exists h, e = (DoOpen h, Ok (RNew n))).
Proof.
  split.
  - intros (tr1 & h & tr2 & E & HF). destruct tr2 as [|x tr2] using rev_ind.
    + apply app_inj_tail in E as [-> ->]. right. now exists h.
    + clear IHtr2. rewrite app_comm_cons, app_assoc in E. apply app_inj_tail in E as [-> ->]. apply Forall_app in HF as [HF1 HF2]. left. split; [now exists tr1, h, tr2|]. now inversion HF2.
  - intros [[(tr1 & h & tr2 & -> & HF) HC]|(h & ->)].
    + exists tr1, h, (tr2 ++ [e]). split; [now rewrite <- app_assoc|]. apply Forall_app. split; [exact HF|repeat constructor; exact HC].
    + exists tr, h, []. split; [reflexivity|constructor].
Qed.
Lemma step_length s o : inv s -> allowed s o -> (exists h, o = DoOpen h /\ snd (step s o) = Ok (RNew (length (st_files s))) /\ length (st_files (fst (step s o))) = S (length (st_files s)) /\
     exists f, nth_error (st_files (fst (step s o))) (length (st_files s)) = Some f /\ hf_open f = true) \/
  (length (st_files (fst (step s o))) = length (st_files s) /\ forall h m, (o, snd (step s o)) <> (DoOpen h, Ok (RNew m))).
Proof.
  intros HI HA.
  assert (CF : forall m, (exists g, nth_error (st_files s) m = Some g) -> length (st_files (fst (close_file s m))) = length (st_files s)).
  { intros m (g & Hg). destruct (close_file_inv s m g HI Hg) as (_ & E1 & E2). destruct (hf_open g); [destruct (E1 eq_refl) as [-> _]; apply set_nth_length|now rewrite (E2 eq_refl)]. }
  destruct o as [h|m l|m i a|m|m i|order]; cbn [step].
  - destruct (open_objs h) as [os|]; cbn [fst snd].
    + left. exists h. split; [reflexivity|]. split; [reflexivity|]. cbn [st_files]. split; [rewrite app_length; cbn [length]; lia|]. eexists. split; [rewrite nth_error_app2 by lia; rewrite Nat.sub_diag; reflexivity|reflexivity].
    + right. split; [reflexivity|]. intros; discriminate.
  - right. split; [destruct (nth_error (st_files s) m); reflexivity|]. discriminate.
  - right. split; [destruct (nth_error (st_files s) m) as [g|]; [destruct (nth_error (hf_objs g) i)|]; reflexivity|]. discriminate.
  - right. split; [unfold nothing; cbn [fst]; now apply CF|discriminate].
  - right. destruct HA as (g & o & Hg & Ho). rewrite (close_data_inv s m i g o HI Hg Ho). split; [unfold nothing; cbn [fst]; apply CF; now exists g|discriminate].
  - right. split; [|discriminate]. unfold nothing. cbn [fst]. pose proof (close_all_inv s order HI HA) as H. destruct order as [|m r]; [now destruct H as [-> _]|].
    destruct H as (-> & g & Hg & _). cbn [fst]. apply CF. now exists g.
Qed.
Lemma alive_bound tr s n : runs tr s -> alive tr n -> (n < length (st_files s))%nat.
Proof.
  intro HR. revert n. induction HR as [|tr s o HR IH HA]; intros n HAl.
  - destruct HAl as (tr1 & h & tr2 & E & _). destruct tr1; discriminate.
  - apply alive_snoc in HAl. destruct (step_length s o (runs_inv _ _ HR) HA) as [(h & -> & E & L & _)|[L NE]].
    + rewrite L. destruct HAl as [[HAl _]|(h' & E')]; [specialize (IH n HAl); lia|]. rewrite E in E'. injection E' as _ <-. lia.
    + rewrite L. destruct HAl as [[HAl _]|(h' & E')]; [now apply IH|]. now apply NE in E'.
Qed.
Theorem open_iff_alive tr s : runs tr s -> forall n f, nth_error (st_files s) n = Some f -> (hf_open f = true <-> alive tr n).
Proof.
  intro HR. induction HR as [|tr s o HR IH HA]; intros n f Hf; [destruct n; discriminate|].
  rewrite alive_snoc. pose proof (runs_inv _ _ HR) as HI.
  destruct (Nat.lt_ge_cases n (length (st_files s))) as [Hn|Hn].
  - destruct (nth_error (st_files s) n) as [f0|] eqn:Hf0; [|apply nth_error_None in Hf0; lia]. specialize (IH n f0 Hf0).
    assert (NO : ~ exists h, (o, snd (step s o)) = (DoOpen h, Ok (RNew n))).
    { intros (h & E). destruct (step_length s o HI HA) as [(h' & -> & E' & _)|[_ NE]]; [rewrite E' in E; injection E as _ E; lia|now apply NE in E]. }
    destruct (step_file s o n f0 HI HA Hf0) as [[E HC]|[E HC]]; rewrite E in Hf; injection Hf as <-.
    + rewrite if_id, IH. split; [intro H; left; split; [exact H|exact HC]|]. intros [[H _]|H]; [exact H|contradiction].
    + rewrite shut_open. split.
      * destruct (hf_open f0) eqn:Ef0; discriminate.
      * intros [[_ H]|H]; [exfalso; apply H; exact HC|contradiction].
  - destruct (step_length s o HI HA) as [(h & -> & E & L & f' & Hf' & Ho)|[L _]]; [|exfalso; assert (nth_error (st_files (fst (step s o))) n <> None) as K by congruence; apply nth_error_Some in K; lia].
    assert (n = length (st_files s)) as -> by (assert (nth_error (st_files (fst (step s (DoOpen h)))) n <> None) as K by congruence; apply nth_error_Some in K; lia).
    rewrite Hf' in Hf. injection Hf as <-. split; [|intros _; exact Ho]. intros _. right. exists h. now rewrite E.
Qed.

(** ** Closing *)
Lemma shut_whole f : whole (shut f) false.
Proof. split; [reflexivity|]. split; [reflexivity|]. cbn. intros o Ho. apply in_map_iff in Ho as (x & <- & _). reflexivity. Qed.
Lemma good_whole s n f : good s n f -> whole f (hf_open f).
Proof. intros (H1 & H2 & _). split; [reflexivity|]. split; [exact H1|]. now rewrite Forall_forall in H2. Qed.
Theorem state_whole tr s : runs tr s -> forall n f, nth_error (st_files s) n = Some f -> whole f (hf_open f) /\ (In n (st_set s) <-> hf_open f = true).
Proof. intros HR n f Hf. destruct (runs_inv _ _ HR) as (_ & _ & HG). destruct (HG n f Hf) as (H1 & H2 & H3 & H4). split; [exact (good_whole s n f (HG n f Hf))|exact H4]. Qed.
Definition close_ops (n : nat) (s : state) (o : op) : Prop := o = DoClose n \/ exists i, o = DoCloseData n i /\ exists_obj s n i.
Theorem close_effect tr s n f o : runs tr s -> nth_error (st_files s) n = Some f -> close_ops n s o ->
  snd (step s o) = Ok RNothing /\
  (exists f', nth_error (st_files (fst (step s o))) n = Some f' /\ whole f' false /\ hf_store f' = hf_store f /\ map ob_key (hf_objs f') = map ob_key (hf_objs f)) /\
  ~ In n (st_set (fst (step s o))) /\
  (forall m, m <> n -> nth_error (st_files (fst (step s o))) m = nth_error (st_files s) m /\ (In m (st_set (fst (step s o))) <-> In m (st_set s))) /\
  (hf_open f = false -> fst (step s o) = s).
Proof.
  intros HR Hf HC. pose proof (runs_inv _ _ HR) as HI. pose proof HI as (HN & HL & HG).
  assert (step s o = nothing (close_file s n)) as ->.
  { destruct HC as [->|(i & -> & g & x & Hg & Hx)]; cbn [step]; [reflexivity|]. rewrite Hf in Hg. injection Hg as <-. now rewrite (close_data_inv s n i f x HI Hf Hx). }
  destruct (close_file_inv s n f HI Hf) as (E & E1 & E2). unfold nothing. rewrite E. cbn [fst snd rbind].
  assert (Hn : (n < length (st_files s))%nat) by (apply nth_error_Some; congruence).
  destruct (HG n f Hf) as (G1 & G2 & G3 & G4).
  destruct (hf_open f) eqn:Ef.
  - destruct (E1 eq_refl) as [-> HS]. cbn [st_files st_set]. split; [reflexivity|]. split; [|split; [|split; [|discriminate]]].
    + exists (shut f). rewrite set_nth_same by exact Hn. split; [reflexivity|]. split; [apply shut_whole|]. split; [reflexivity|]. cbn. rewrite map_map. reflexivity.
    + rewrite In_remove_first by exact HN. tauto.
    + intros m Hm. rewrite set_nth_other by congruence. split; [reflexivity|]. rewrite In_remove_first by exact HN. tauto.
  - rewrite (E2 eq_refl). split; [reflexivity|]. split; [|split; [|split; [|reflexivity]]].
    + exists f. split; [exact Hf|]. split; [rewrite <- Ef; exact (good_whole s n f (HG n f Hf))|]. split; reflexivity.
    + intro H. apply G4 in H. congruence.
    + intros m _. tauto.
Qed.

(** ** Use of what is closed *)
Theorem closed_look f l : hf_open f = false -> look f l = Err ClosedFileError.
Proof. intro H. unfold look. now rewrite H. Qed.
Lemma closed_record h d n : d_open d = false -> get_record h d n = Err ClosedFileError.
Proof. intro H. unfold get_record, check_isopen. now rewrite H. Qed.
Lemma closed_record0 h d n : d_open d = false -> record0 h d n = Err ClosedFileError.
Proof. intro H. unfold record0. now rewrite closed_record. Qed.
Lemma closed_record1 h d n : d_open d = false -> record1 h d n = Err ClosedFileError.
Proof. intro H. unfold record1. now rewrite closed_record. Qed.
Theorem closed_use h o a : d_open (ob_data o) = false -> has_method o a -> proper_args a ->
  use_obj h o a = Err ClosedFileError.
Proof.
  unfold has_method. intros Hc Hm Hp. unfold use_obj. destruct (ob_hydro o) as [x|].
  - destruct a; try destruct Hm; cbn [use_hydro]; unfold drop;
      try (unfold get_angular_freqs, get_periods, get_directions, get_timesteps, get_response, get_sectionforce_raos, get_fluidkinematics_raos, get_pressure_panel_ids, get_panel_pressures, assert_domaintype, check_isopen; cbn [hy_data with_data]; rewrite Hc; reflexivity);
      unfold get_sections, get_points, get_bodyproperties, get_matrix; cbn [hy_data with_data]; rewrite closed_record0 by exact Hc; reflexivity.
  - assert (struc_method h (ob_kind o) (ob_data o) a = use_data h (ob_data o) a /\ ~ hydro_method a) as [-> Hm'].
    { destruct (ob_kind o); cbn [struc_has] in Hm; [| |destruct a; try (destruct Hm; fail); try (exfalso; apply Hm; exact I)|destruct Hm]; [|subst a|..]; try (destruct a; try destruct Hm); split; try reflexivity; intros []. }
    clear Hm. rename Hm' into Hm. destruct a; try (exfalso; apply Hm; exact I); cbn [use_data]; unfold drop.
    + unfold get_setnames. rewrite closed_record1 by exact Hc. reflexivity.
    + unfold get_transformation, get_transformation_with. rewrite closed_record1 by exact Hc. reflexivity.
    + unfold get_coords. rewrite closed_record0 by exact Hc. reflexivity.
    + unfold get_nodenumbers. rewrite closed_record0 by exact Hc. reflexivity.
    + unfold get_noderesults. destruct Hp as [<-|[<-|[<-|[]]]]; cbn [restype_of rbind]; (match goal with |- context [restype_of ?t] => let r := eval vm_compute in (restype_of t) in change (restype_of t) with r end; cbn [rbind]; rewrite closed_record1 by exact Hc; reflexivity).
    + unfold get_elements. rewrite closed_record1 by exact Hc. reflexivity.
    + unfold get_elementnumbers. rewrite closed_record1 by exact Hc. reflexivity.
    + unfold get_section_properties. first [rewrite closed_record by exact Hc|rewrite closed_record0 by exact Hc|idtac]. reflexivity.
    + unfold get_shell_thicknesses. first [rewrite closed_record by exact Hc|rewrite closed_record0 by exact Hc|idtac]. reflexivity.
    + unfold get_resultcase_names. rewrite closed_record1 by exact Hc. reflexivity.
Qed.

(** ** Closing all files *)
Theorem close_all_one tr s n r : runs tr s -> Permutation (n :: r) (st_set s) ->
  snd (step s (DoCloseAll (n :: r))) = Err RuntimeError /\ fst (step s (DoCloseAll (n :: r))) = fst (step s (DoClose n)) /\
  Permutation r (st_set (fst (step s (DoCloseAll (n :: r))))).
Proof.
  intros HR HP. pose proof (runs_inv _ _ HR) as HI. pose proof (close_all_inv s (n :: r) HI HP) as (E & f & Hf & Ho). cbn [step]. unfold nothing. rewrite E. cbn [fst snd rbind].
  split; [reflexivity|]. split; [reflexivity|]. destruct (close_file_inv s n f HI Hf) as (_ & E1 & _). destruct (E1 Ho) as [-> _]. cbn [st_set].
  destruct HI as (HN & _ & _). apply NoDup_Permutation.
  - apply (Permutation_NoDup (Permutation_sym HP)) in HN. now inversion HN.
  - now apply NoDup_remove_first.
  - intro m. rewrite In_remove_first by exact HN. split.
    + intro Hm. split; [eapply Permutation_in; [exact HP|now right]|]. intros ->. apply (Permutation_NoDup (Permutation_sym HP)) in HN. inversion HN; contradiction.
    + intros [Hm Hne]. eapply Permutation_in in Hm; [|apply Permutation_sym; exact HP]. destruct Hm as [->|Hm]; [contradiction|exact Hm].
Qed.
Theorem close_all_none tr s : runs tr s -> st_set s = [] -> step s (DoCloseAll []) = (s, Ok RNothing).
Proof. intros HR E. pose proof (close_all_inv s [] (runs_inv _ _ HR) ltac:(rewrite E; constructor)) as [E1 _]. cbn [step]. unfold nothing. now rewrite E1. Qed.

(** ** Histories that continue *)
Lemma runs_det tr s : runs tr s -> s = run (map fst tr).
Proof. induction 1 as [|tr s o _ IH _]; [reflexivity|]. unfold run in *. rewrite map_app, fold_left_app. cbn. now rewrite <- IH. Qed.
Lemma runs_snoc_inv tr e s : runs (tr ++ [e]) s -> exists s0, runs tr s0 /\ allowed s0 (fst e) /\ e = (fst e, snd (step s0 (fst e))) /\ s = fst (step s0 (fst e)).
Proof.
  intro H. inversion H as [E|tr' s0 o H1 H2 E]; [destruct tr; discriminate|]. apply app_inj_tail in E as [-> <-]. exists s0. auto.
Qed.
Theorem closed_for_good tr s tr' n : runs tr s -> (exists s', runs (tr ++ tr') s') -> (n < length (st_files s))%nat -> ~ alive tr n -> ~ alive (tr ++ tr') n.
Proof.
  intros HR HX Hn HA. assert (G : ~ alive (tr ++ tr') n /\ forall s', runs (tr ++ tr') s' -> (n < length (st_files s'))%nat); [|apply G].
  induction tr' as [|e tr' IH] using rev_ind.
  - rewrite app_nil_r. split; [exact HA|]. intros s' H. rewrite (runs_det _ _ H), <- (runs_det _ _ HR). exact Hn.
  - destruct HX as (s' & HX). rewrite app_assoc in HX |- *. destruct (runs_snoc_inv _ _ _ HX) as (s0 & H0 & HA0 & He & Hs).
    destruct (IH (ex_intro _ s0 H0)) as [I1 I2]. specialize (I2 s0 H0).
    assert (L : (n < length (st_files s'))%nat) by (subst s'; destruct (step_length s0 (fst e) (runs_inv _ _ H0) HA0) as [(h & _ & _ & L & _)|[L _]]; lia).
    split.
    + intro K. apply alive_snoc in K as [[K _]|(h & K)]; [contradiction|]. rewrite He in K.
      destruct (step_length s0 (fst e) (runs_inv _ _ H0) HA0) as [(h' & E1 & E2 & _)|[_ NE]]; [rewrite E2 in K; injection K as _ K; lia|now apply NE in K].
    + intros s2 H2. rewrite (runs_det _ _ H2), <- (runs_det _ _ HX). exact L.
Qed.
Fixpoint history (s : state) (ops : list op) : list (op * Res answer) :=
  match ops with [] => [] | o :: r => (o, snd (step s o)) :: history (fst (step s o)) r end.
Fixpoint all_allowed (s : state) (ops : list op) : Prop :=
  match ops with [] => True | o :: r => allowed s o /\ all_allowed (fst (step s o)) r end.
Lemma history_runs_from tr s ops : runs tr s -> all_allowed s ops -> runs (tr ++ history s ops) (fold_left (fun s o => fst (step s o)) ops s).
Proof.
  revert tr s. induction ops as [|o ops IH]; intros tr s HR HA; cbn; [now rewrite app_nil_r|]. destruct HA as [HA HB].
  replace (tr ++ (o, snd (step s o)) :: history (fst (step s o)) ops) with ((tr ++ [(o, snd (step s o))]) ++ history (fst (step s o)) ops) by now rewrite <- app_assoc.
  apply IH; [now constructor|exact HB].
Qed.
Lemma history_runs ops : all_allowed start ops -> runs (history start ops) (run ops).
Proof. intro H. exact (history_runs_from [] start ops runs_start H). Qed.
(** Calling close_all_files again and again. *)
Inductive closing : state -> nat -> state -> Prop :=
| closing_none s : st_set s = [] -> closing s 0 s
| closing_more s order k s' : Permutation order (st_set s) -> order <> [] -> snd (step s (DoCloseAll order)) = Err RuntimeError ->
    closing (fst (step s (DoCloseAll order))) k s' -> closing s (S k) s'.
Theorem close_all_repeated tr s : runs tr s -> exists s', closing s (length (st_set s)) s' /\ st_set s' = [].
Proof.
  intro HR. remember (length (st_set s)) as k eqn:Ek. revert tr s HR Ek. induction k as [|k IH]; intros tr s HR Ek.
  - exists s. assert (st_set s = []) as E by (destruct (st_set s); [reflexivity|discriminate]). split; [now constructor|exact E].
  - destruct (st_set s) as [|n r] eqn:ES; [discriminate|]. injection Ek as Ek.
    assert (HP : Permutation (n :: r) (st_set s)) by now rewrite ES. destruct (close_all_one tr s n r HR HP) as (E1 & _ & E3).
    assert (HR' := runs_step tr s (DoCloseAll (n :: r)) HR HP). apply Permutation_length in E3. rewrite E3 in Ek.
    destruct (IH _ _ HR' Ek) as (s' & H1 & H2). exists s'. split; [|exact H2]. econstructor; [exact HP|discriminate|exact E1|exact H1].
Qed.
