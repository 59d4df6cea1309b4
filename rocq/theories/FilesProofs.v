(** * FilesProofs: the data objects of a file. *)
From Verif Require Import Base Flt H5 Schema Data Hydro Files.
Open Scope string_scope.
Open Scope Z_scope.
Open Scope list_scope.
Open Scope monad_scope.

Lemma sif_init_top h p o t d : sif_init h p o t = Ok d -> d_top d = t /\ d_file d = o /\ d_group d = p /\ d_open d = true.
Proof.
  unfold sif_init. destruct (attr_strs h p "RECORDS"); [|discriminate]. cbn [rbind]. destruct (attr_int h p "SELTYP"); [|discriminate]. cbn [rbind].
  destruct (attr_str h p "LEVEL"); [|discriminate]. cbn [rbind]. destruct (attr_str h p "FILETYPE"); [|discriminate]. cbn [rbind].
  destruct (attr_str h p "DATATYPE"); [|discriminate]. cbn [rbind]. intro E. injection E as <-. repeat split.
Qed.
Lemma first_init_top h p o d : first_init h p o = Ok d -> d_top d = None /\ d_file d = o /\ d_group d = p /\ d_open d = true.
Proof.
  unfold first_init. destruct (sif_init h p o None) as [d0|] eqn:E; [|discriminate]. cbn [rbind]. apply sif_init_top in E.
  destruct (String.eqb _ _); [|intro K; injection K as <-; exact E].
  destruct (attr_int h p "INDEX"); [|discriminate]. cbn [rbind]. intro K. injection K as <-. exact E.
Qed.
Definition no_top (e : entry) : Prop := d_top (obj_of e) = None /\ d_open (obj_of e) = true.
Lemma subs_no_top h gr data subs : forall es, sub_objects h gr data subs = Ok es ->
  Forall (fun e => no_top e /\ d_file (obj_of e) = OData data) es.
Proof.
  induction subs as [|s subs IH]; intros es H; cbn [sub_objects] in H; [injection H as <-; constructor|].
  destruct (attr_str h [gr; s] "LEVEL") as [lv|]; [|discriminate]. cbn [rbind] in H.
  destruct (String.eqb lv "INTERLEVEL").
  - destruct (sif_init h [gr; s] (OData data) None) as [d|] eqn:E; [|discriminate]. cbn [rbind] in H. apply sif_init_top in E. destruct E as (E1 & E2 & E3 & E4).
    destruct (sub_objects h gr data subs) as [rest|]; [|discriminate]. cbn [rbind] in H. injection H as <-. constructor; [|now apply IH]. repeat split; assumption.
  - destruct (String.eqb lv "FIRSTLEVEL").
    + destruct (first_init h [gr; s] (OData data)) as [d|] eqn:E; [|discriminate]. cbn [rbind] in H. apply first_init_top in E. destruct E as (E1 & E2 & E3 & E4).
      destruct (sub_objects h gr data subs) as [rest|]; [|discriminate]. cbn [rbind] in H. injection H as <-. constructor; [|now apply IH]. repeat split; assumption.
    + cbn [rbind] in H. destruct (sub_objects h gr data subs) as [rest|]; [|discriminate]. cbn [rbind] in H. injection H as <-. now apply IH.
Qed.
(** No data object of a file has a top level reference. *)
Lemma objects_no_top h grs : forall data es, (forall k d, data = Some (k, d) -> d_top d = None /\ d_open d = true) ->
  objects h data grs = Ok es -> Forall no_top es.
Proof.
  induction grs as [|gr grs IH]; intros data es HD H; cbn [objects] in H; [injection H as <-; constructor|].
  destruct (attr_str h [gr] "DATATYPE") as [dt|]; [|discriminate]. cbn [rbind] in H.
  match type of H with rbind ?m _ = _ => destruct m as [data'|] eqn:E; [|discriminate] end. cbn [rbind] in H.
  assert (HD' : forall k d, data' = Some (k, d) -> d_top d = None /\ d_open d = true).
  { destruct (String.eqb dt "STRUCTURAL").
    - destruct (attr_str h [gr] "LEVEL") as [lv|]; [|discriminate]. cbn [rbind] in E. destruct (String.eqb lv "TOPLEVEL").
      + destruct (sif_init h [gr] OFile None) as [d|] eqn:E1; [|discriminate]. injection E as <-. apply sif_init_top in E1. intros k d' K. injection K as _ <-. tauto.
      + destruct (String.eqb lv "FIRSTLEVEL").
        * destruct (first_init h [gr] OFile) as [d|] eqn:E1; [|discriminate]. injection E as <-. apply first_init_top in E1. intros k d' K. injection K as _ <-. tauto.
        * injection E as <-. exact HD.
    - destruct (String.eqb dt "HYDRODYNAMIC").
      + unfold hydro_data in E. destruct (sif_init h [gr] OFile None) as [d|] eqn:E1; [|discriminate]. cbn [rbind] in E. destruct (Hydro.hydro_init h d); [|discriminate]. injection E as <-. apply sif_init_top in E1. intros k d' K. injection K as _ <-. tauto.
      + injection E as <-. exact HD. }
  destruct data' as [[k d]|]; [|discriminate].
  destruct (sub_objects h gr (d_group d) (child_groups h [gr])) as [subs|] eqn:ES; [|discriminate]. cbn [rbind] in H.
  destruct (objects h (Some (k, d)) grs) as [rest|] eqn:ER; [|discriminate]. cbn [rbind] in H. injection H as <-.
  constructor; [exact (HD' k d eq_refl)|]. apply Forall_app. split.
  - apply subs_no_top in ES. eapply Forall_impl; [|exact ES]. cbv beta. intros e [K _]. exact K.
  - eapply IH; [|exact ER]. exact HD'.
Qed.
Lemma file_no_top h es : file_data h = Ok es -> Forall no_top es.
Proof. intro H. apply (objects_no_top h (child_groups h []) None es); [discriminate|exact H]. Qed.
