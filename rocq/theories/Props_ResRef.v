(** * Result references: C17, for every reference. *)
From Verif Require Import Base Flt SeqFile H5 Schema Parsers SeqSpec StoreSpec ParserSpec LayoutSpec FileSpec Sample2 Sample ParseMore.
Open Scope string_scope.
Open Scope Z_scope.
Open Scope list_scope.
Open Scope monad_scope.

Lemma upd_nth_other {A} (f : A -> A) : forall l i j, i <> j -> nth_error (upd_nth i f l) j = nth_error l j.
Proof. induction l as [|x l IH]; intros [|i] [|j] N; cbn [upd_nth nth_error]; try reflexivity; [congruence|]. apply IH. congruence. Qed.
Lemma vladds_other : forall ad r i, ~ In i (map fst ad) -> nth_error (r_vls (rd_vladds ad r)) i = nth_error (r_vls r) i.
Proof.
  induction ad as [|[j d] ad IH]; intros r i N; cbn [rd_vladds]; [reflexivity|]. cbn [map fst In] in N. rewrite IH by tauto. cbn [rd_vladd r_vls].
  apply upd_nth_other. intros ->. tauto.
Qed.
Lemma vladds_buf : forall ad r, r_buf (rd_vladds ad r) = r_buf r /\ r_types (rd_vladds ad r) = r_types r.
Proof. induction ad as [|[j d] ad IH]; intros r; cbn [rd_vladds]; [tauto|]. destruct (IH (rd_vladd j d r)) as [-> ->]. split; reflexivity. Qed.
Lemma ranges_at : forall (l : list vl) i v, nth_error l i = Some v ->
  nth_error (flat_map (fun v => [PI (v_start v); PI (v_stop v)]) l) (2 * i) = Some (PI (v_start v)) /\
  nth_error (flat_map (fun v => [PI (v_start v); PI (v_stop v)]) l) (2 * i + 1) = Some (PI (v_stop v)).
Proof.
  induction l as [|x l IH]; intros [|i] v H; cbn [nth_error] in H; try discriminate.
  - injection H as ->. split; reflexivity.
  - destruct (IH i v H) as [A B]. replace (2 * S i)%nat with (S (S (2 * i)))%nat by lia. cbn [flat_map app nth_error]. split; [exact A|exact B].
Qed.
Lemma wdresref_row rec s row ad s1 : b_wdresref "WDRESREF" rec s = Ok ((row, ad), s1) -> length row = length rec.
Proof.
  intro E. unfold b_wdresref, liftR, slift, sbind, sret in E. destruct (int_at rec 3) as [n|]; [|discriminate]. destruct (n <=? 0); [injection E as <- _ _; apply map_length|].
  destruct (int_at rec 2) as [m|]; [|discriminate]. destruct (read_reftypes (Z.to_nat n) m s) as [[a s2]|]; [|discriminate]. injection E as <- _ _. apply map_length.
Qed.

(** Whatever was read before: a reference that does not list a kind ([i]: 0 for
    directions, 1 for frequencies, 2 for times) gets for it the range that the
    references before left, where the claim has an empty one.  (The hypothesis on the
    batch says that the row is still in the buffer; otherwise it is in the table.) *)
Theorem C17_kept_refuted : forall rec s row ad s1 r r1 s2 i v,
  b_wdresref "WDRESREF" rec s = Ok ((row, ad), s1) -> ~ In i (map fst ad) -> nth_error (r_vls r) i = Some v ->
  Zlen (r_buf r) + 1 < g_batch (p_g s1) -> rd_add row (rd_vladds ad r) s1 = Ok (r1, s2) ->
  exists full cells, conv_row (r_types r) full = Ok cells /\ r_buf r1 = r_buf r ++ [cells] /\
    nth_error full (length rec + 2 * i) = Some (PI (v_start v)) /\ nth_error full (length rec + 2 * i + 1) = Some (PI (v_stop v)) /\
    nth_error (r_vls r1) i = Some v.
Proof.
  intros rec s row ad s1 r r1 s2 i v E N V B R. pose proof (wdresref_row _ _ _ _ _ E) as L. pose proof (vladds_other ad r i N) as O. destruct (vladds_buf ad r) as [Eb Et].
  unfold rd_add, getg, liftR, slift, sbind, sret, sraise in R. rewrite Eb, Et in R.
  match type of R with context [conv_row (r_types r) ?f] => set (full := f) in * end.
  destruct (conv_row (r_types r) full) as [cells|] eqn:C; [|discriminate].
  destruct (g_batch (p_g s1) <=? Zlen (r_buf r)) eqn:B1; [lia|]. cbn [r_buf] in R.
  assert (Z1 : Zlen (r_buf r ++ [cells]) = Zlen (r_buf r) + 1) by (unfold Zlen; rewrite app_length; cbn [length]; lia).
  rewrite Z1 in R. destruct (Zlen (r_buf r) + 1 =? g_batch (p_g s1)) eqn:B2; [lia|]. injection R as <- _. cbn [r_buf r_vls].
  rewrite V in O. destruct (ranges_at _ _ _ O) as [P Q]. exists full, cells. split; [exact C|]. split; [reflexivity|]. unfold full. rewrite <- L.
  split; [|split; [|exact O]].
  - rewrite nth_error_app2 by lia. replace (length row + 2 * i - length row)%nat with (2 * i)%nat by lia. exact P.
  - rewrite nth_error_app2 by lia. replace (length row + 2 * i + 1 - length row)%nat with (2 * i + 1)%nat by lia. exact Q.
Qed.
Print Assumptions C17_kept_refuted.

(** One that lists no kind, after one with two directions and one frequency. *)
Definition w_state : pst := mkP (open_in Fmt []) glob0 [].
Definition w_vl (a b : Z) : vl := mkVl [] (TV 2 TF) [] b a b.
Definition w_rd : recd := mkRd [] (map snd (table_descr "WDRESREF")) [] [w_vl 0 2; w_vl 0 1; w_vl 0 0].
Example C17_kept_case : exists s1 r1 s2, b_wdresref "WDRESREF" (fl [4; 2; 1; 0]) w_state = Ok ((map PF (fl [4; 2; 1; 0]), []), s1) /\
  ~ In 0%nat (map fst ([] : adds)) /\ nth_error (r_vls w_rd) 0 = Some (w_vl 0 2) /\ Zlen (r_buf w_rd) + 1 < g_batch (p_g s1) /\
  rd_add (map PF (fl [4; 2; 1; 0])) (rd_vladds [] w_rd) s1 = Ok (r1, s2) /\ r_buf r1 = [map CI [4; 2; 1; 0; 0; 2; 0; 1; 0; 0]].
Proof.
  do 3 eexists. split; [vm_compute; reflexivity|]. split; [cbn; tauto|]. split; [reflexivity|]. split; [vm_compute; reflexivity|]. split; vm_compute; reflexivity.
Qed.
