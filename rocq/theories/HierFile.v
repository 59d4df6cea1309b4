(** * HierFile: the records of a superelement hierarchy. *)
From Verif Require Import Base ListFacts Flt H5 Schema Data Struc StoreSpec ParserSpec LayoutSpec FileSpec DataSpec RecordSpec StrucSpec DataFacts DataProofs RecordProofs FileProofs SaysSpec SaysProofs SaysGives Trans TransSpec TransProofs CoordsProofs.
Open Scope string_scope.
Open Scope Z_scope.
Open Scope list_scope.

(** What a HIERARCH record says: reference number, type, index, level, number of
    the transformation, reference number of the superelement above *)
Definition super_says (_ : nat) (e : StoreSpec.entry) (s : super) : Prop :=
  int_at e 1 (s_ref s) /\ int_at e 2 (s_type s) /\ int_at e 3 (s_index s) /\ int_at e 4 (s_level s) /\ int_at e 5 (s_trans s) /\ int_at e 6 (s_parent s).
Definition supers_on (segs : list seg) (ss : list super) : Prop := listed "HIERARCH" segs super_says ss.
(** What a HSUPTRAN record says: the number and the rows of the matrix *)
Definition shift_says (j : nat) (e : StoreSpec.entry) (t : Z * list (list cell)) : Prop := nth_error (e_row e) 1 = Some (PI (fst t)) /\ own_says j e (snd t).
Definition shifts_on (segs : list seg) (ts : list (Z * list (list cell))) : Prop := listed "HSUPTRAN" segs shift_says ts.

Lemma supers_found h w segs ss : tables h w segs -> supers_on segs ss -> hier_in h w ss.
Proof.
  intros T HL. table_ "HIERARCH" T HL rows arr H LO. exists rows, arr. split; [exact H|].
  apply (listed_Forall2 "HIERARCH" segs super_says ss _ _ HL LO). intros j e s cs He (I1 & I2 & I3 & I4 & I5 & I6) O. one_range_ "HIERARCH".
  cells_ O cs. any_ O 0%nat z0. int_ O I1. int_ O I2. int_ O I3. int_ O I4. int_ O I5. int_ O I6. any_ O 7%nat z7. do 4 eexists. reflexivity.
Qed.
Lemma stored_PI z c : stored TI (PI z) c -> c = CI z.
Proof. destruct c; cbn; try tauto. intros [-> _]. reflexivity. Qed.
Lemma shifts_found h w segs ts : tables h w segs -> shifts_on segs ts -> trans_in h w ts.
Proof.
  intros T HL. table0_ "HSUPTRAN" T HL rows H LO. exists rows. split; [exact H|].
  apply (listed_Forall2 "HSUPTRAN" segs shift_says ts _ _ HL LO). intros j e t cs He (I1 & rs & I2 & _ & E) O. change (seq 0 (length (elts_of "HSUPTRAN"))) with (@nil nat). cbn [map range_cells flat_map]. rewrite app_nil_r.
  cells_ O cs. any_ O 0%nat z0. destruct (own_nth _ _ _ 1%nat TI "itref" _ O eq_refl I1) as (d1 & Hn1 & S1). cbn [nth_error] in Hn1. injection Hn1 as ->. apply stored_PI in S1 as ->. destruct (own_nth _ _ _ 2%nat (TV 4 (TV 4 TF)) "t" _ O eq_refl I2) as (d & Hn & S). cbn [nth_error] in Hn. injection Hn as ->. rewrite (stored_matrix _ _ S). exists z0. now rewrite E.
Qed.
(** The matrices have four rows of four numbers *)
Lemma shifts_four segs ts {A} (num : cell -> A) : shifts_on segs ts -> Forall (fun t => four (map (map num) (snd t))) ts.
Proof.
  intros (_ & L & S). rewrite Forall_forall. intros t I. apply In_nth_error in I as (j & E).
  destruct (nth_error (entries_of "HSUPTRAN" segs) j) as [e|] eqn:He.
  - destruct (S j e t He E) as (_ & rows & _ & [R1 R2] & ->). split; [now rewrite !map_length|]. rewrite !Forall_map. unfold all_len in R2. eapply Forall_impl; [|exact R2]. cbn beta. intros r Hr. unfold reals_. now rewrite !map_length.
  - apply nth_error_None in He. assert (j < length ts)%nat by (apply nth_error_Some; congruence). lia.
Qed.
Lemma chain_four {A} (num : cell -> A) ss ts lev s ms : Forall (fun t => four (map (map num) (snd t))) ts -> up num ss ts lev s ms -> Forall four ms.
Proof.
  intros F. rewrite Forall_forall in F. assert (M : forall s m, moved num ts s m -> four m) by (intros s0 m (t & [I _] & ->); now apply F).
  induction 1; constructor; eauto.
Qed.
