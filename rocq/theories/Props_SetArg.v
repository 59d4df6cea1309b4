(** * Names of sets as listed and as asked for: C78 *)
From Coq Require Import Sorting.Sorted.
From Verif Require Import Base ListFacts Flt H5 Schema StoreSpec ParserSpec FileSpec Data Struc StrucSpec DataFacts StrucExist StrucSample Listing SetArg SetArgProofs Props_Struc.
Open Scope string_scope.
Open Scope Z_scope.
Open Scope list_scope.

(** C78.  The names listed are those of the sets, in the order of the file; without
    any the result is None. *)
Theorem C78_listed : forall h d nms, d_open d = true ->
  (setnames_in h (d_group d) nms -> get_setnames h d = Ok (Some (map (fun nm => CS (fst nm)) nms))) /\
  (h5_find (tpath (d_group d) "TDSETNAM") h = None -> get_setnames h d = Ok None).
Proof.
  intros h d nms O. split.
  - intros (rows & texts & H & F). unfold get_setnames. rewrite (holds_record1 _ _ _ _ _ O H).
    replace (col (mkTab (descr_of "TDSETNAM") rows) "name") with (Ok (map (fun nm : setname => CS (fst nm)) nms)); [reflexivity|].
    symmetry. unfold col. cbn [t_rows]. clear H. generalize (mkTab (descr_of "TDSETNAM") rows) (eq_refl : t_descr (mkTab (descr_of "TDSETNAM") rows) = descr_of "TDSETNAM"). intros t T. induction F as [|nm row nms rows (a & b & c & r1 & r2 & ->) F IH]; [reflexivity|]. cbn [rmap map]. rewrite IH. unfold field. rewrite T. reflexivity.
  - intro E. unfold get_setnames, record1, get_record, check_isopen, get_child_table. rewrite O. cbn [rbind].
    change (d_group d ++ [lower_s "TDSETNAM"])%list with (tpath (d_group d) "TDSETNAM"). rewrite E. reflexivity.
Qed.
Print Assumptions C78_listed.
(** Asked for by the same name as a str: the elements of that set, each once, by
    number; names are all different and without single quotes. *)
Theorem C78_decoded : forall h d ns es nms ms nm i l,
  d_open d = true -> mesh_in h (d_group d) ns es -> setnames_in h (d_group d) nms -> members_in h (d_group d) ms ->
  NoDup (map fst nms) -> In (nm, i) nms -> nm <> [] -> ~ In single nm -> In (i, 2, l) ms ->
  (forall l', In (i, 2, l') ms -> Forall (fun z => 1 <= z <= Zlen es) l') ->
  exists nos, elementnumbers h d (SOne (PStr nm)) "" "internal" = Ok nos /\ elementnumbers h d (SSeq [PStr nm]) "" "internal" = Ok nos /\
    StronglySorted Z.lt nos /\ forall z, In z nos <-> exists l', In (i, 2, l') ms /\ In z l'.
Proof.
  intros h d ns es nms ms nm i l O HM HN HS ND I NE NQ HI HR.
  assert (U : forall k, set_no nms nm k <-> k = i).
  { intro k. destruct (in_split _ _ I) as (p1 & p2 & E). split.
    - intros (q1 & q2 & E2 & _). assert (I2 : In (nm, k) nms) by (rewrite E2; apply in_or_app; right; now left).
      clear - ND I I2. induction nms as [|[x y] r IH]; [destruct I|]. cbn [map fst] in ND. inversion ND as [|? ? N1 N2]; subst. destruct I as [I|I], I2 as [I2|I2].
      + congruence.
      + injection I as -> ->. elim N1. exact (in_map fst _ _ I2).
      + injection I2 as -> ->. elim N1. exact (in_map fst _ _ I).
      + now apply IH.
    - intros ->. exists p1, p2. split; [exact E|]. rewrite E, map_app in ND. cbn [map fst] in ND. apply NoDup_remove_2 in ND. intro K. apply ND, in_or_app. now left. }
  destruct (exists_selected es nms ms [nm] "") as (idx & S & _).
  assert (P : proper h (d_group d) es nms ms [nm] "").
  { split; [|now left]. intros _. split; [exact HN|]. split; [exact HS|]. split; [intros x [<-|[]]; exists i; now apply U|]. split; [exists nm, i, l; split; [now left|]; split; [now apply U|exact HI]|].
    intros x z [<-|[]] (k & l' & K & J & Z). apply U in K. subst k. pose proof (HR l' J) as F. rewrite Forall_forall in F. now apply F. }
  destruct (C27_union h d ns es nms ms [nm] idx O HM P S) as [_ E]. exists (map no_of idx). split; [now rewrite numbers_one|]. split; [exact (eq_trans (numbers_str h d [nm] "" "internal") E)|].
  destruct S as [S1 S2]. split.
  - clear - S1. induction S1 as [|j idx S IH F]; cbn [map]; constructor; [exact IH|]. rewrite Forall_map. eapply Forall_impl; [|exact F]. cbn beta. unfold no_of. lia.
  - intro z. rewrite in_map_iff. split.
    + intros (j & <- & J). apply S2 in J. destruct J as (e & _ & [J|(x & [<-|[]] & k & l' & K & J & Z)] & _); [discriminate J|]. apply U in K. subst k. eauto.
    + intros (l' & J & Z). pose proof (HR l' J) as F. rewrite Forall_forall in F. specialize (F z Z). exists (Z.to_nat (z - 1)). assert (N : no_of (Z.to_nat (z - 1)) = z) by (unfold no_of; lia). split; [exact N|]. apply S2.
      destruct (nth_error es (Z.to_nat (z - 1))) as [e|] eqn:EE; [|apply nth_error_None in EE; unfold Zlen in F; lia]. exists e. split; [exact EE|]. split; [|now left]. right. exists nm. split; [now left|]. exists i, l'. split; [now apply U|]. rewrite N. auto.
Qed.
Print Assumptions C78_decoded.
(** Asked for by what get_setnames returned, one of the names or all of them: an
    exception, whatever the sets are. *)
Theorem C78_returned_refuted : forall h d ns es nms ms kind nt cs,
  d_open d = true -> mesh_in h (d_group d) ns es -> setnames_in h (d_group d) nms -> members_in h (d_group d) ms -> In nt ["external"; "internal"] ->
  get_setnames h d = Ok (Some cs) ->
  (forall c, In c cs -> c <> CS [] -> elementnumbers h d (SOne (as_bytes c)) kind nt = Err NameError) /\
  (cs <> [] -> elementnumbers h d (SSeq (map as_bytes cs)) kind nt = Err NameError).
Proof.
  intros h d ns es nms ms kind nt cs O HM HN HS HT E. rewrite (proj1 (C78_listed h d nms O) HN) in E. injection E as <-.
  destruct HN as (r1 & t1 & H1 & F1). destruct HS as (r2 & t2 & H2 & F2). pose proof (holds_record1 _ _ _ _ _ O H1) as R1. pose proof (holds_record1 _ _ _ _ _ O H2) as R2.
  destruct HM as (_ & _ & (r3 & H3 & _) & _). pose proof (holds_record1 _ _ _ _ _ O H3) as R3.
  assert (K : exists c, elem_col nt = Ok c) by (destruct HT as [<-|[<-|[]]]; eexists; reflexivity). destruct K as (cc & K).
  assert (G : forall a v vs, given_sets a = true -> values a = Ok (v :: vs) -> compared (condition v) = Err NameError -> elementnumbers h d a kind nt = Err NameError).
  { intros a v vs G V C. unfold elementnumbers. rewrite R3. cbn [rbind]. rewrite K. cbn [rbind]. rewrite G. cbn [orb]. unfold elementindices. rewrite G.
    rewrite (members_bad h d _ _ _ _ a v vs 2 NameError R1 R2 V C). reflexivity. }
  split.
  - intros c J N. apply in_map_iff in J. destruct J as (nm & <- & J). cbn [as_bytes]. destruct (fst nm) as [|x s]; [now elim N|]. eapply G; [reflexivity|reflexivity|apply compared_code].
  - intro N. destruct nms as [|nm nms]; [now elim N|]. cbn [map as_bytes]. eapply G; [reflexivity|reflexivity|apply compared_bytes].
Qed.
Print Assumptions C78_returned_refuted.
(** A set without a name: asked for by its name alone, every element comes. *)
Theorem C78_empty_refuted : forall h d kind nt, elementnumbers h d (SOne (PStr [])) kind nt = elementnumbers h d SNone kind nt /\ elementnumbers h d (SOne (PBytes [])) kind nt = elementnumbers h d SNone kind nt.
Proof. intros. split; reflexivity. Qed.
Print Assumptions C78_empty_refuted.
Example C78_case : setnames_in x_h w_x x_nms /\ members_in x_h w_x x_ms /\ NoDup (map fst x_nms) /\ In (deck, 1) x_nms /\ ~ In single deck /\
  get_setnames x_h x_d = Ok (Some [CS deck; CS col_]) /\ condition (PStr deck) = s2l "name==b'DECK'" /\ condition (PBytes deck) = s2l "name==bnp.bytes_(b'DECK')" /\
  elementnumbers x_h x_d (SOne (PStr deck)) "" "external" = Ok [101; 102] /\ elementnumbers x_h x_d (SSeq [PStr deck; PStr col_]) "" "external" = Ok [101; 102; 103] /\
  elementnumbers x_h x_d (SOne (PBytes deck)) "" "external" = Err NameError /\ elementnumbers x_h x_d (SSeq [PBytes deck]) "" "external" = Err NameError.
Proof.
  split; [exact x_names|]. split; [exact x_members|]. split; [repeat constructor; cbn; intuition discriminate|]. split; [now left|]. split; [vm_compute; intuition discriminate|].
  repeat split; vm_compute; reflexivity.
Qed.
