(** * ParserTerm: parsing finishes on any content (C05). *)
From Verif Require Import Base Flt SeqFile H5 Schema Parsers ListFacts SeqTerm.
From Coq Require Import ZifyBool ZifyNat.
Open Scope string_scope.
Open Scope Z_scope.
Open Scope list_scope.
Open Scope monad_scope.

Definition left (s : pst) : nat := length (f_rest (p_in s)).
Definition monoP {A} (m : P A) : Prop := forall s a s', m s = Ok (a, s') ->
  f_kind (p_in s') = f_kind (p_in s) /\ (left s' <= left s)%nat.
Definition safeP {A} (m : P A) : Prop := forall s, nof (m s).
Definition progP (m : P (string * list flt)) : Prop := forall s n r s', m s = Ok ((n, r), s') ->
  f_kind (p_in s') = f_kind (p_in s) /\ (left s' <= left s)%nat /\ ((left s' < left s)%nat \/ n = "").

Lemma monoP_ret {A} (a : A) : monoP (sret a).
Proof. intros s b s' H. injection H as <- <-. auto. Qed.
Lemma monoP_raise {A} e : monoP (@sraise pst A e).
Proof. intros s b s' H. discriminate. Qed.
Lemma monoP_lift {A} (r : Res A) : monoP (liftR r).
Proof. intros s b s' H. unfold liftR, slift in H. destruct r; [|discriminate]. injection H as <- <-. auto. Qed.
Lemma monoP_bind {A B} (m : P A) (k : A -> P B) : monoP m -> (forall a, monoP (k a)) -> monoP (sbind m k).
Proof.
  intros Hm Hk s b s' H. unfold sbind in H. destruct (m s) as [[a s1]|] eqn:E; [|discriminate].
  apply Hm in E as [E1 E2]. apply Hk in H as [H1 H2]. split; [congruence|lia].
Qed.
Lemma monoP_liftF {A} (m : F A) : mono m -> monoP (liftF m).
Proof.
  intros Hm s b s' H. unfold liftF in H. destruct (m (p_in s)) as [[a i]|] eqn:E; [|discriminate].
  apply Ok_pair_inj in H as [_ <-]. now apply Hm in E.
Qed.
Lemma monoP_getg : monoP getg.
Proof. intros s b s' H. injection H as _ <-. auto. Qed.
Lemma monoP_geth : monoP geth.
Proof. intros s b s' H. injection H as _ <-. auto. Qed.
Lemma monoP_modg f : monoP (modg f).
Proof. intros s b s' H. injection H as _ <-. cbn. auto. Qed.
Lemma monoP_seth h : monoP (seth h).
Proof. intros s b s' H. injection H as _ <-. cbn. auto. Qed.
Lemma monoP_state {A} (f : pst -> P A) : (forall s, monoP (f s)) -> monoP (fun s => f s s).
Proof. intros H s a s' E. eapply H. exact E. Qed.

Lemma safeP_ret {A} (a : A) : safeP (sret a).
Proof. intro s. apply nof_ok. Qed.
Lemma safeP_raise {A} e : e <> OutOfFuel -> safeP (@sraise pst A e).
Proof. intros H s. now apply nof_err. Qed.
Lemma safeP_lift {A} (r : Res A) : nof r -> safeP (liftR r).
Proof. intros H s. unfold liftR, slift. destruct r; auto with nof. unfold nof in *; congruence. Qed.
Lemma safeP_bind {A B} (m : P A) (k : A -> P B) : safeP m -> (forall a, safeP (k a)) -> safeP (sbind m k).
Proof.
  intros Hm Hk s. unfold sbind. specialize (Hm s). destruct (m s) as [[a s1]|e]; [apply Hk|].
  unfold nof in *. congruence.
Qed.
Lemma safeP_liftF {A} (m : F A) : safe m -> safeP (liftF m).
Proof.
  intros Hm s. unfold liftF. specialize (Hm (p_in s)). destruct (m (p_in s)) as [[a i]|]; auto with nof.
  unfold nof in *; congruence.
Qed.
Lemma safeP_getg : safeP getg. Proof. intro s. apply nof_ok. Qed.
Lemma safeP_geth : safeP geth. Proof. intro s. apply nof_ok. Qed.
Lemma safeP_modg f : safeP (modg f). Proof. intro s. apply nof_ok. Qed.
Lemma safeP_seth h : safeP (seth h). Proof. intro s. apply nof_ok. Qed.

Lemma progP_bind {A} (m : P A) k : monoP m -> (forall a, progP (k a)) -> progP (sbind m k).
Proof.
  intros Hm Hk s n r s' H. unfold sbind in H. destruct (m s) as [[a s1]|] eqn:E; [|discriminate].
  apply Hm in E as [E1 E2]. apply Hk in H as (H1 & H2 & H3). repeat split; try congruence; try lia.
  destruct H3; auto. left. lia.
Qed.
Lemma progP_liftF (m : F (string * list flt)) : prog m -> progP (liftF m).
Proof.
  intros Hm s n r s' H. unfold liftF in H. destruct (m (p_in s)) as [[[n1 r1] i]|] eqn:E; [|discriminate].
  apply Ok_pair_inj in H as [E1 <-]. injection E1 as <- <-. apply Hm in E. cbn. unfold left. cbn. tauto.
Qed.
Lemma progP_mono m : progP m -> monoP m.
Proof. intros H s [n r] s' E. apply H in E. tauto. Qed.
Lemma progP_rheader : progP rheader.
Proof. apply progP_liftF, prog_read_headerrec. Qed.
Lemma safeP_rheader : safeP rheader.
Proof. apply safeP_liftF, safe_read_headerrec. Qed.

(** ** Everything that is not a loop *)

Lemma nof_rbind {A B} (r : Res A) (k : A -> Res B) : nof r -> (forall a, nof (k a)) -> nof (rbind r k).
Proof. intros H Hk. unfold rbind. destruct r; [apply Hk|]. unfold nof in *; congruence. Qed.
Lemma nof_int_at l i : nof (int_at l i).
Proof. apply nof_rbind; [apply nof_pyget|intro; apply nof_int_of]. Qed.
Lemma nof_pygetZ {A} (l : list A) i : nof (pygetZ l i).
Proof. unfold pygetZ. cbv zeta. destruct (_ <? 0); auto with nof. apply nof_pyget. Qed.
Lemma nof_dictZ {V} k (d : list (Z * V)) : nof (dictZ k d).
Proof. unfold dictZ. destruct (dget _ _ _); auto with nof. Qed.
Lemma nof_nnodes k : nof (nnodes_of k).
Proof. unfold nnodes_of. destruct (dget _ _ _); auto with nof. Qed.
Lemma nof_set_int z : nof (set_int z).
Proof. unfold set_int. destruct (_ && _)%bool; auto with nof. Qed.
Lemma nof_conv_cell t : forall v, nof (conv_cell t v).
Proof.
  induction t; intro v; cbn [conv_cell]; destruct v; auto with nof; try apply nof_set_int.
  - pose proof (nof_int_of f). destruct (int_of f); [apply nof_set_int|]. unfold nof in *; congruence.
  - destruct (forallb _ _); auto with nof.
  - apply nof_rbind; [now apply nof_rmap|]. intro cs. destruct (Nat.eqb _ _); auto with nof.
    destruct cs as [|c [|]]; auto with nof.
Qed.
Lemma nof_conv_row ts : forall vs, nof (conv_row ts vs).
Proof.
  induction ts; intros [|v vs]; cbn [conv_row]; auto with nof.
  apply nof_rbind; [apply nof_conv_cell|intro]. apply nof_rbind; [apply IHts|intro]. apply nof_ok.
Qed.
Lemma nof_conv_elem t : forall v, nof (conv_elem t v).
Proof.
  induction t; intro v; cbn [conv_elem]; destruct v; auto with nof.
  destruct (Nat.eqb _ _); auto with nof. apply nof_rbind; [now apply nof_rmap|]. intro. apply nof_ok.
Qed.
Lemma nof_col_int i r : nof (col_int i r).
Proof. unfold col_int. destruct (nth_error r i) as [[]|]; auto with nof. Qed.
Lemma nof_hier_cell g h i c : nof (hier_cell g h i c).
Proof.
  unfold hier_cell. destruct (g_htab g); auto with nof. destruct (nth_error _ _); auto with nof.
  apply nof_col_int.
Qed.
Lemma nof_get_path g h : nof (get_path g h).
Proof.
  unfold get_path. destruct (g_hashier g).
  - destruct (opt_truthy _); [|destruct (g_attop g); auto with nof];
      (apply nof_rbind; [apply nof_hier_cell|intro; apply nof_ok]).
  - destruct (opt_truthy _); auto with nof.
Qed.
Lemma nof_mkgroups : forall p pre h, nof (mkgroups pre p h).
Proof.
  induction p as [|a p IH]; intros pre h; cbn [mkgroups]; auto with nof.
  destruct (h5_find _ _) as [[]|]; auto with nof.
Qed.
Lemma nof_h5_create w n nd h : nof (h5_create w n nd h).
Proof.
  apply nof_rbind; [apply nof_mkgroups|]. intro. destruct (h5_find _ _); auto with nof.
Qed.
Lemma nof_create_arrays w n : forall l h, nof (create_arrays w n l h).
Proof.
  induction l as [|[a t] l IH]; intro h; cbn [create_arrays]; auto with nof.
  apply nof_rbind; [apply nof_h5_create|]. intro. apply nof_rbind; [apply IH|]. intros [? ?]. apply nof_ok.
Qed.
Lemma nof_take_comps c : forall cs it, nof (take_comps cs c it).
Proof.
  induction cs as [|x cs IH]; intro it; cbn [take_comps]; auto with nof.
  destruct (truthy x).
  - destruct c.
    + destruct it as [|y [|z it]]; auto with nof. apply nof_rbind; [apply IH|intro; apply nof_ok].
    + destruct it as [|y it]; auto with nof. apply nof_rbind; [apply IH|intro; apply nof_ok].
  - apply nof_rbind; [apply IH|intro; apply nof_ok].
Qed.
Lemma nof_zelev rec all c per st : nof (zelev_rec rec all c per st).
Proof.
  unfold zelev_rec. destruct (slice _ _ _); auto with nof.
  apply nof_rbind; [apply nof_take_comps|intro; apply nof_ok].
Qed.
Lemma nof_islevl r : nof (islevl_of r).
Proof. destruct r; cbn; auto with nof. apply nof_col_int. Qed.
Lemma nof_level g h : nof (level_of g h).
Proof.
  unfold level_of. cbv zeta.
  repeat match goal with
  | |- nof (if ?b then _ else _) => destruct b
  | |- nof (rbind _ _) => apply nof_rbind; [first [apply nof_hier_cell|apply nof_islevl]|intro]
  end; auto with nof.
Qed.

(** Decompose straight-line code. *)
Ltac nofs := first
  [ apply nof_ok | apply nof_int_at | apply nof_pyget | apply nof_int_of | apply nof_dictZ
  | apply nof_nnodes | apply nof_conv_row | apply nof_get_path | apply nof_h5_create
  | apply nof_create_arrays | apply nof_level | apply nof_col_int | apply nof_pygetZ
  | apply nof_rmap; intro; first [apply nof_conv_elem|apply nof_zelev] ].
Ltac monos :=
  repeat first
  [ apply monoP_ret | apply monoP_raise | apply monoP_lift | apply monoP_getg | apply monoP_geth
  | apply monoP_modg | apply monoP_seth
  | apply monoP_liftF, mono_read_floats | apply monoP_liftF, mono_read_floatrec
  | apply monoP_liftF, mono_read_stringrec | apply monoP_liftF, mono_at_headerrec
  | apply progP_mono, progP_rheader
  | match goal with |- monoP (match ?x with _ => _ end) => destruct x end
  | apply monoP_bind; [|intro]
  | assumption ].
Ltac safes :=
  repeat first
  [ apply safeP_ret | apply safeP_raise; discriminate | apply safeP_lift; nofs
  | apply safeP_getg | apply safeP_geth | apply safeP_modg | apply safeP_seth
  | apply safeP_liftF, safe_read_floats | apply safeP_liftF, safe_read_floatrec
  | apply safeP_liftF, safe_read_stringrec | apply safeP_liftF, safe_at_headerrec
  | apply safeP_rheader
  | match goal with |- safeP (match ?x with _ => _ end) => destruct x end
  | apply safeP_bind; [|intro]
  | assumption ].

Lemma mono_times {A} (m : P A) : monoP m -> forall n, monoP (times n m).
Proof. intro H. induction n; cbn [times]; monos. Qed.
Lemma safe_times {A} (m : P A) : safeP m -> forall n, safeP (times n m).
Proof. intro H. induction n; cbn [times]; safes. Qed.
Lemma mono_groups n k : monoP (groups n k).
Proof. apply mono_times. unfold rfloats. monos. Qed.
Lemma safe_groups n k : safeP (groups n k).
Proof. apply safe_times. unfold rfloats. safes. Qed.
Lemma mono_points : forall n, monoP (read_points n).
Proof. induction n; cbn [read_points]; unfold rfloats; monos. Qed.
Lemma safe_points : forall n, safeP (read_points n).
Proof. induction n; cbn [read_points]; unfold rfloats; safes. Qed.
Lemma mono_reftypes z : forall n, monoP (read_reftypes n z).
Proof.
  induction n; cbn [read_reftypes]; unfold rfloats; [monos|].
  apply monoP_bind; [monos|intro]. apply monoP_bind; [monos|intro].
  apply monoP_bind; [apply mono_groups|intro]. apply monoP_bind; [exact IHn|intro]. apply monoP_ret.
Qed.
Lemma safe_reftypes z : forall n, safeP (read_reftypes n z).
Proof.
  induction n; cbn [read_reftypes]; unfold rfloats; [safes|].
  apply safeP_bind; [safes|intro]. apply safeP_bind; [safes|intro].
  apply safeP_bind; [apply safe_groups|intro]. apply safeP_bind; [exact IHn|intro]. apply safeP_ret.
Qed.
Lemma mono_strip_rec : monoP strip_rec.
Proof. unfold strip_rec. apply (monoP_state (fun s => _)). intro s. monos. Qed.
Lemma safe_strip_rec : safeP strip_rec.
Proof.
  unfold strip_rec. intro s.
  match goal with |- nof ((sbind ?m ?k) s) => apply (safeP_bind m k) end; [|intro]; safes.
Qed.
Lemma nof_decode l : nof (decode l).
Proof. unfold decode. destruct (forallb _ _); auto with nof. Qed.
Lemma mono_name_line : monoP name_line.
Proof.
  unfold name_line. apply (monoP_state (fun s => _)). intro s.
  apply monoP_bind; [apply mono_strip_rec|intro]. monos.
Qed.
Lemma safe_name_line : safeP name_line.
Proof.
  unfold name_line. intro s.
  apply (safeP_bind strip_rec (fun l => match f_kind (p_in s) return P (list ascii) with
    | Unf => liftR (decode l) | Fmt => sret l end)); [apply safe_strip_rec|intro].
  destruct (f_kind (p_in s)); [apply safeP_lift, nof_decode|apply safeP_ret].
Qed.

Ltac monob := unfold rfloats, timesZ, refs; monos;
  try first [apply mono_times; monos | apply mono_groups | apply mono_points | apply mono_reftypes].
Ltac safeb := unfold rfloats, timesZ, refs; safes;
  try first [apply safe_times; safes | apply safe_groups | apply safe_points | apply safe_reftypes].

Definition good (b : body) : Prop := forall n rec, monoP (b n rec) /\ safeP (b n rec).

Lemma good_standard c sk : good (b_standard c sk).
Proof. split; unfold b_standard; [monob|safeb]. Qed.
Lemma good_optional c sk o : good (b_optional c sk o).
Proof. split; unfold b_optional; [monob|safeb]. Qed.
Lemma good_hierarch : good b_hierarch.
Proof. split; unfold b_hierarch; [monob|safeb]. Qed.
Lemma good_text : good b_text.
Proof. split; unfold b_text; [monob|safeb]. Qed.
Lemma good_td : good b_td.
Proof.
  split; unfold b_td, timesZ.
  - monos; [apply mono_times, mono_name_line|apply mono_times, mono_strip_rec].
  - safes; [apply safe_times, safe_name_line|apply safe_times, safe_strip_rec].
Qed.
Lemma good_gelmnt1 : good b_gelmnt1.
Proof. split; unfold b_gelmnt1; [monob|safeb]. Qed.
Lemma good_gelmnt2 : good b_gelmnt2.
Proof. split; unfold b_gelmnt2; [monob|safeb]. Qed.
Lemma good_gelref1 : good b_gelref1.
Proof. split; unfold b_gelref1; [monob|safeb]. Qed.
Lemma good_gsetmemb : good b_gsetmemb.
Proof. split; unfold b_gsetmemb; [monob|safeb]. Qed.
Lemma good_sconcept : good b_sconcept.
Proof. split; unfold b_sconcept; [monob|safeb]. Qed.
Lemma good_sconmesh : good b_sconmesh.
Proof. split; unfold b_sconmesh; [monob|safeb]. Qed.
Lemma good_bnbcd : good b_bnbcd.
Proof. split; unfold b_bnbcd; [monob|safeb]. Qed.
Lemma good_bldep : good b_bldep.
Proof. split; unfold b_bldep; [monob|safeb]. Qed.
Lemma good_beuslo : good b_beuslo.
Proof. split; unfold b_beuslo; [monob|safeb]. Qed.
Lemma good_brigac : good b_brigac.
Proof. split; unfold b_brigac; [monob|safeb]. Qed.
Lemma good_xsuptran : good b_xsuptran.
Proof. split; unfold b_xsuptran; cbv zeta; [monob|safeb]. Qed.
Lemma good_compdef : good b_compdef.
Proof. split; unfold b_compdef; [monob|safeb]. Qed.
Lemma good_rdpoints : good b_rdpoints.
Proof. split; unfold b_rdpoints; cbv zeta; [monob|safeb]. Qed.
Lemma good_rdielcor : good b_rdielcor.
Proof. split; unfold b_rdielcor; cbv zeta; [monob|safeb]. Qed.
Lemma good_rdresref : good b_rdresref.
Proof. split; unfold b_rdresref; cbv zeta; [monob|safeb]. Qed.
Lemma good_groups3 : good b_groups3.
Proof. split; unfold b_groups3; cbv zeta; [monob|safeb]. Qed.
Lemma good_rvnodres : good b_rvnodres.
Proof. split; unfold b_rvnodres; cbv zeta; [monob|safeb]. Qed.
Lemma good_rvelmres : good b_rvelmres.
Proof. split; unfold b_rvelmres; cbv zeta; [monob|safeb]. Qed.
Lemma good_wdresref : good b_wdresref.
Proof. split; unfold b_wdresref; cbv zeta; [monob|safeb]. Qed.
Lemma good_wglobdef : good b_wglobdef.
Proof. split; unfold b_wglobdef; cbv zeta; [monob|safeb]. Qed.
Lemma good_wbody : good b_wbody.
Proof. split; unfold b_wbody; cbv zeta; [monob|safeb]. Qed.
Lemma good_w1matrix : good b_w1matrix.
Proof. split; unfold b_w1matrix; cbv zeta; [monob|safeb]. Qed.
Lemma good_wcommon1 : good b_wcommon1.
Proof. split; unfold b_wcommon1; cbv zeta; [monob|safeb]. Qed.
Lemma good_w1sforce : good b_w1sforce.
Proof. split; unfold b_w1sforce; cbv zeta; [monob|safeb]. Qed.
Lemma good_drift n : good (b_drift n).
Proof. split; unfold b_drift; cbv zeta; [monob|safeb]. Qed.
Lemma good_wfkpoint : good b_wfkpoint.
Proof. split; unfold b_wfkpoint; cbv zeta; [monob|safeb]. Qed.
Lemma good_wfluidkn : good b_wfluidkn.
Proof. split; unfold b_wfluidkn; cbv zeta; [monob|safeb]. Qed.
Lemma good_wsection : good b_wsection.
Proof. split; unfold b_wsection; cbv zeta; [monob|safeb]. Qed.
Lemma good_wsurface : good b_wsurface.
Proof. split; unfold b_wsurface; cbv zeta; [monob|safeb]. Qed.
Lemma good_winput : good b_winput.
Proof. split; unfold b_winput; cbv zeta; [monob|safeb]. Qed.
Lemma good_w1panpre : good b_w1panpre.
Proof. split; unfold b_w1panpre; cbv zeta; [monob|safeb]. Qed.

(** ** recdata *)
Lemma mono_vl_write v : monoP (vl_write v).
Proof. unfold vl_write. monos. Qed.
Lemma safe_vl_write v : safeP (vl_write v).
Proof. unfold vl_write. safes. Qed.
Lemma mono_vls_write l : monoP (vls_write l).
Proof.
  induction l; cbn [vls_write]; [monos|].
  apply monoP_bind; [apply mono_vl_write|intro]. apply monoP_bind; [exact IHl|intro]. apply monoP_ret.
Qed.
Lemma safe_vls_write l : safeP (vls_write l).
Proof.
  induction l; cbn [vls_write]; [safes|].
  apply safeP_bind; [apply safe_vl_write|intro]. apply safeP_bind; [exact IHl|intro]. apply safeP_ret.
Qed.
Lemma mono_rd_write r : monoP (rd_write r).
Proof.
  unfold rd_write. apply monoP_bind; [monos|intro]. apply monoP_bind; [monos|intro].
  apply monoP_bind; [apply mono_vls_write|intro]. apply monoP_ret.
Qed.
Lemma safe_rd_write r : safeP (rd_write r).
Proof.
  unfold rd_write. apply safeP_bind; [safes|intro]. apply safeP_bind; [safes|intro].
  apply safeP_bind; [apply safe_vls_write|intro]. apply safeP_ret.
Qed.
Lemma mono_rd_add rec r : monoP (rd_add rec r).
Proof.
  unfold rd_add. apply monoP_bind; [monos|intro]. cbv zeta.
  apply monoP_bind; [monos|intro]. destruct (_ <=? _); [monos|].
  destruct (_ =? _); [apply mono_rd_write|monos].
Qed.
Lemma safe_rd_add rec r : safeP (rd_add rec r).
Proof.
  unfold rd_add. apply safeP_bind; [safes|intro]. cbv zeta.
  apply safeP_bind; [safes|intro]. destruct (_ <=? _); [safes|].
  destruct (_ =? _); [apply safe_rd_write|safes].
Qed.
Lemma mono_get_table n : monoP (get_table n).
Proof. unfold get_table. monos. Qed.
Lemma safe_get_table n : safeP (get_table n).
Proof. unfold get_table. safes. Qed.

(** ** Loops *)
Lemma run_loop_mono fuel name b : good b -> forall n fs r, monoP (run_loop fuel name b n fs r).
Proof.
  intro Hb. induction fuel; intros n fs r; cbn [run_loop]; destruct (String.eqb n name);
    try apply monoP_ret; try apply monoP_raise.
  apply monoP_bind; [apply Hb|]. intros [row ad].
  apply monoP_bind; [apply mono_rd_add|intro r1].
  apply monoP_bind; [apply progP_mono, progP_rheader|]. intros [n1 fs1]. apply IHfuel.
Qed.
(** Entered with the record's own name the loop reads at least one header. *)
Lemma run_loop_prog fuel name b : name <> "" -> good b -> forall fs r s n' fs' r' s',
  run_loop fuel name b name fs r s = Ok ((n', fs', r'), s') ->
  (left s' <= left s)%nat /\ ((left s' < left s)%nat \/ n' = "").
Proof.
  intros Hn Hb fs r s n' fs' r' s' H. destruct fuel; cbn [run_loop] in H; rewrite String.eqb_refl in H; [discriminate|].
  unfold sbind in H. destruct (b name fs s) as [[[row ad] s1]|] eqn:E1; [|discriminate].
  destruct (rd_add row (rd_vladds ad r) s1) as [[r1 s2]|] eqn:E2; [|discriminate].
  destruct (rheader s2) as [[[n1 fs1] s3]|] eqn:E3; [|discriminate].
  apply (proj1 (Hb _ _)) in E1. apply mono_rd_add in E2. apply progP_rheader in E3 as (_ & L3 & P3).
  pose proof H as Hm. apply run_loop_mono in Hm; [|exact Hb].
  split; [lia|]. destruct P3 as [P3| ->]; [left; lia|].
  right. destruct fuel; cbn [run_loop] in H; (destruct (String.eqb_spec "" name); [congruence|]);
    injection H as <- _ _ _; reflexivity.
Qed.
Lemma run_loop_nof name b : name <> "" -> good b -> forall fuel n fs r s,
  (left s < fuel)%nat -> nof (run_loop fuel name b n fs r s).
Proof.
  intros Hn Hb. induction fuel; intros n fs r s Hf; [lia|]. cbn [run_loop].
  destruct (String.eqb n name); [|apply nof_ok].
  unfold sbind. pose proof (proj2 (Hb n fs) s) as S1.
  destruct (b n fs s) as [[[row ad] s1]|] eqn:E1; [|unfold nof in *; congruence].
  pose proof (safe_rd_add row (rd_vladds ad r) s1) as S2.
  destruct (rd_add row (rd_vladds ad r) s1) as [[r1 s2]|] eqn:E2; [|unfold nof in *; congruence].
  pose proof (safeP_rheader s2) as S3.
  destruct (rheader s2) as [[[n1 fs1] s3]|] eqn:E3; [|unfold nof in *; congruence].
  apply (proj1 (Hb _ _)) in E1. apply mono_rd_add in E2. apply progP_rheader in E3 as (_ & L3 & P3).
  destruct P3 as [P3| ->]; [apply IHfuel; lia|].
  destruct fuel; cbn [run_loop]; (destruct (String.eqb_spec "" name); [congruence|]); apply nof_ok.
Qed.

Definition good_reader (n : string) (rd : reader) : Prop := forall fs, progP (rd n fs) /\ safeP (rd n fs).

Lemma progP_of (m : P (string * list flt)) :
  (forall s n r s', m s = Ok ((n, r), s') -> f_kind (p_in s') = f_kind (p_in s) /\
     (left s' <= left s)%nat /\ ((left s' < left s)%nat \/ n = "")) -> progP m.
Proof. exact (fun H => H). Qed.

Lemma good_run b n : n <> "" -> good b -> good_reader n (run_reader b).
Proof.
  intros Hn Hb fs. unfold run_reader. split.
  - apply progP_bind; [apply mono_get_table|intro t]. apply progP_bind; [monos|intro h].
    intros s n' fs' s' H. unfold sbind in H.
    destruct (run_loop (fuel_of s) n b n fs (rd_init n t h) s) as [[[x r] s1]|] eqn:E; [|discriminate].
    destruct (rd_write r s1) as [[r2 s2]|] eqn:E2; [|discriminate].
    injection H as -> <-. apply mono_rd_write in E2.
    pose proof E as E0. apply run_loop_mono in E0; [|exact Hb]. apply run_loop_prog in E; auto.
    split; [destruct E0, E2; congruence|]. split; [lia|]. destruct E as [_ [E|E]]; [left; lia|auto].
  - apply safeP_bind; [apply safe_get_table|intro t]. apply safeP_bind; [safes|intro h].
    intro s. unfold sbind.
    pose proof (run_loop_nof n b Hn Hb (fuel_of s) n fs (rd_init n t h) s) as N.
    assert (L : (left s < fuel_of s)%nat) by (unfold left, fuel_of; lia). specialize (N L).
    destruct (run_loop (fuel_of s) n b n fs (rd_init n t h) s) as [[[x r] s1]|]; [|unfold nof in *; congruence].
    pose proof (safe_rd_write r s1) as N2. destruct (rd_write r s1) as [[r2 s2]|]; [apply nof_ok|].
    unfold nof in *; congruence.
Qed.

Lemma good_irecsize n : good_reader n rd_irecsize.
Proof.
  intro fs. unfold rd_irecsize. split.
  - apply progP_bind; [monos|intro; apply progP_rheader].
  - safes.
Qed.
Lemma good_iend n : good_reader n rd_iend.
Proof.
  intro fs. unfold rd_iend. split.
  - apply progP_bind; [monos|intro a]. destruct (flt_eq a f0); [|apply progP_rheader].
    intros s n' r s' H. injection H as <- <- <-. auto.
  - safes.
Qed.
Lemma good_ident n : good_reader n rd_ident.
Proof.
  intro fs. unfold rd_ident. split.
  - apply progP_bind; [monos|intro g]. apply progP_bind; [monos|intro].
    apply progP_bind; [apply mono_get_table|intro t]. repeat (apply progP_bind; [monos|intro]).
    apply progP_rheader.
  - apply safeP_bind; [safes|intro g]. apply safeP_bind; [safes|intro].
    apply safeP_bind; [apply safe_get_table|intro t]. safes.
Qed.
Lemma good_hier n : n <> "" -> good_reader n rd_hierarch.
Proof.
  intros Hn fs. unfold rd_hierarch. pose proof good_hierarch as Hb. split.
  - apply progP_bind; [unfold rfloats; monos|intro rec2]. apply progP_bind; [monos|intro st].
    apply progP_bind; [monos|intro]. apply progP_bind; [apply mono_get_table|intro t].
    apply progP_bind; [monos|intro h]. apply progP_bind; [monos|intro].
    apply progP_bind; [unfold rfloats; monos|intro].
    apply progP_bind; [apply mono_rd_add|intro r1].
    intros s n' fs' s' H. unfold sbind in H.
    destruct (rheader s) as [[[n1 fs1] s1]|] eqn:E1; [|discriminate].
    destruct (run_loop (fuel_of s1) n b_hierarch n1 fs1 r1 s1) as [[[x r] s2]|] eqn:E; [|discriminate].
    destruct (rd_write r s2) as [[r2 s3]|] eqn:E2; [|discriminate].
    unfold geth in H. destruct (tab_rows (fst t) (p_out s3)); [discriminate|].
    unfold modg, sret in H. apply Ok_pair_inj in H as [-> <-]. apply mono_rd_write in E2.
    apply progP_rheader in E1 as (K1 & L1 & P1).
    pose proof E as E0. apply run_loop_mono in E0; [|exact Hb]. cbn. unfold left in *. cbn.
    split; [destruct E0, E2; congruence|]. split; [lia|]. destruct P1 as [P1| ->]; [left; lia|].
    right. unfold fuel_of in E. cbn [run_loop] in E. destruct (String.eqb_spec "" n); [congruence|].
    injection E as <- _ _. reflexivity.
  - apply safeP_bind; [unfold rfloats; safes|intro rec2]. apply safeP_bind; [safes|intro st].
    apply safeP_bind; [safes|intro]. apply safeP_bind; [apply safe_get_table|intro t].
    apply safeP_bind; [safes|intro h]. apply safeP_bind; [safes|intro].
    apply safeP_bind; [unfold rfloats; safes|intro].
    apply safeP_bind; [apply safe_rd_add|intro r1].
    apply safeP_bind; [safes|]. intros [n1 fs1] s. unfold sbind.
    pose proof (run_loop_nof n b_hierarch Hn Hb (fuel_of s) n1 fs1 r1 s) as N.
    assert (L : (left s < fuel_of s)%nat) by (unfold left, fuel_of; lia). specialize (N L).
    destruct (run_loop (fuel_of s) n b_hierarch n1 fs1 r1 s) as [[[x r] s1]|]; [|unfold nof in *; congruence].
    pose proof (safe_rd_write r s1) as N2. destruct (rd_write r s1) as [[r2 s2]|]; [|unfold nof in *; congruence].
    cbn [geth]. destruct (tab_rows (fst t) (p_out s2)); [apply nof_err; discriminate|]. apply nof_ok.
Qed.

Definition xsup_step name p rec_name rec : P (string * list flt) :=
  do (row, _) <- b_xsuptran rec_name rec;
  do cs <- liftR (conv_row (map snd (table_descr name)) row);
  do h <- geth;
  dos seth (h5_upd p (append_rows [cs]) h);
  rheader.
Lemma xsup_loop_S k name p rec_name rec s : String.eqb rec_name name = true ->
  xsup_loop (S k) name p rec_name rec s
  = (do (n, fs) <- xsup_step name p rec_name rec; xsup_loop k name p n fs) s.
Proof.
  intro H. cbn [xsup_loop]. rewrite H. unfold xsup_step, sbind.
  destruct (b_xsuptran rec_name rec s) as [[[row ad] s1]|]; auto.
  destruct (liftR _ s1) as [[cs s2]|]; auto.
Qed.
Lemma prog_xsup_step name p n r : progP (xsup_step name p n r).
Proof.
  unfold xsup_step. apply progP_bind; [apply good_xsuptran|]. intros [row ad].
  repeat (apply progP_bind; [monos|intro]). apply progP_rheader.
Qed.
Lemma safe_xsup_step name p n r : safeP (xsup_step name p n r).
Proof.
  unfold xsup_step. apply safeP_bind; [apply good_xsuptran|]. intros [row ad]. safes.
Qed.
Lemma mono_xsup_loop name p : forall fuel n r, monoP (xsup_loop fuel name p n r).
Proof.
  induction fuel; intros n r; cbn [xsup_loop]; destruct (String.eqb n name) eqn:E;
    try apply monoP_ret; try apply monoP_raise.
  apply monoP_bind; [apply good_xsuptran|]. intros [row ad].
  repeat (apply monoP_bind; [monos|intro]). destruct a2. apply IHfuel.
Qed.
Lemma nof_xsup_loop name p : name <> "" -> forall fuel n r s, (left s < fuel)%nat ->
  nof (xsup_loop fuel name p n r s).
Proof.
  intro Hn. induction fuel; intros n r s Hf; [lia|].
  destruct (String.eqb n name) eqn:E; [|cbn [xsup_loop]; rewrite E; apply nof_ok].
  rewrite xsup_loop_S by exact E. unfold sbind.
  pose proof (safe_xsup_step name p n r s) as S1.
  destruct (xsup_step name p n r s) as [[[n1 r1] s1]|] eqn:E1; [|unfold nof in *; congruence].
  apply prog_xsup_step in E1 as (_ & L1 & [P1| ->]); [apply IHfuel; lia|].
  destruct fuel; cbn [xsup_loop]; (destruct (String.eqb_spec "" name); [congruence|]); apply nof_ok.
Qed.
Lemma good_xsup n : n <> "" -> good_reader n rd_xsuptran.
Proof.
  intros Hn fs. unfold rd_xsuptran. split.
  - apply progP_bind; [apply mono_get_table|intro t]. intros s n' r' s' H.
    unfold fuel_of in H. rewrite xsup_loop_S in H by apply String.eqb_refl.
    unfold sbind in H. destruct (xsup_step n (fst t) n fs s) as [[[n1 r1] s1]|] eqn:E1; [|discriminate].
    apply prog_xsup_step in E1 as (K1 & L1 & P1). pose proof H as H0. apply mono_xsup_loop in H0 as [K2 L2].
    split; [congruence|]. split; [lia|]. destruct P1 as [P1| ->]; [left; lia|].
    right. destruct (length (f_rest (p_in s))); cbn [xsup_loop] in H; (destruct (String.eqb_spec "" n); [congruence|]);
      injection H as <- _ _; reflexivity.
  - apply safeP_bind; [apply safe_get_table|intro t]. intro s. apply nof_xsup_loop; [exact Hn|].
    unfold left, fuel_of; lia.
Qed.
Lemma good_sconm n : n <> "" -> good_reader n rd_sconmesh.
Proof.
  intros Hn fs. unfold rd_sconmesh. destruct (good_run b_sconmesh n Hn good_sconmesh fs) as [G1 G2]. split.
  - apply progP_bind; [monos|intro]. destruct (1 <? a); [|exact G1]. intros s n' r' s' H. discriminate.
  - apply safeP_bind; [safes|intro]. destruct (1 <? a); [safes|exact G2].
Qed.
Lemma good_ielcor n : n <> "" -> good_reader n rd_rdielcor.
Proof.
  intros Hn fs. unfold rd_rdielcor. destruct (good_run b_rdielcor n Hn good_rdielcor fs) as [G1 G2]. split.
  - apply progP_bind; [monos|intro]. exact G1.
  - apply safeP_bind; [safes|intro]. exact G2.
Qed.

Lemma readers_good : Forall (fun nr => fst nr <> "" /\ good_reader (fst nr) (snd nr)) readers.
Proof.
  unfold readers, std, opt.
  repeat (apply Forall_cons; [cbn [fst snd]; split; [discriminate|]|]); [..|apply Forall_nil].
  all: try (apply good_run; [discriminate|]).
  all: first [ apply good_standard | apply good_optional | apply good_irecsize | apply good_iend
    | apply good_ident | apply good_text | apply good_td | apply good_gelmnt1
    | apply good_gelmnt2 | apply good_gelref1 | apply good_gsetmemb | apply good_sconcept | apply good_bnbcd
    | apply good_bldep | apply good_beuslo | apply good_brigac | apply good_compdef | apply good_rdpoints
    | apply good_rdresref | apply good_groups3 | apply good_rvnodres | apply good_rvelmres | apply good_wdresref
    | apply good_wglobdef | apply good_wbody | apply good_w1matrix | apply good_wcommon1 | apply good_w1sforce
    | apply good_drift | apply good_wfkpoint | apply good_wfluidkn | apply good_wsection | apply good_wsurface
    | apply good_winput | apply good_w1panpre | idtac ].
  all: first [ apply good_hier; discriminate | apply good_xsup; discriminate
    | apply good_sconm; discriminate | apply good_ielcor; discriminate ].
Qed.

Lemma dget_in {K V} (eqb : K -> K -> bool) (Heq : forall a b, eqb a b = true -> a = b) k (d : list (K * V)) v :
  dget eqb k d = Some v -> In (k, v) d.
Proof.
  induction d as [|[k' v'] d IH]; cbn; [discriminate|]. destruct (eqb k k') eqn:E.
  - intro H. injection H as ->. left. f_equal. symmetry. now apply Heq.
  - auto.
Qed.
Lemma reader_good n rd : sget n readers = Some rd -> n <> "" /\ good_reader n rd.
Proof.
  intro H. apply dget_in in H; [|intros a b; apply String.eqb_eq].
  pose proof readers_good as G. rewrite Forall_forall in G. now apply G in H.
Qed.

Lemma mono_skip_run cur : forall fuel n r, monoP (skip_run fuel cur n r).
Proof.
  induction fuel; intros n r; cbn [skip_run]; destruct (String.eqb n cur);
    try apply monoP_ret; try apply monoP_raise.
  apply monoP_bind; [apply progP_mono, progP_liftF, prog_skip_restofrecord|]. intros [n1 r1]. apply IHfuel.
Qed.
Lemma nof_skip_run cur : cur <> "" -> forall fuel n r s, (left s < fuel)%nat -> nof (skip_run fuel cur n r s).
Proof.
  intro Hn. induction fuel; intros n r s Hf; [lia|]. cbn [skip_run].
  destruct (String.eqb n cur); [|apply nof_ok]. unfold sbind.
  pose proof (safeP_liftF _ (safe_skip_restofrecord n r) s) as S1.
  destruct (liftF (skip_restofrecord n r) s) as [[[n1 r1] s1]|] eqn:E1; [|unfold nof in *; congruence].
  apply (progP_liftF _ (prog_skip_restofrecord n r)) in E1 as (_ & L1 & [P1| ->]); [apply IHfuel; lia|].
  destruct fuel; cbn [skip_run]; (destruct (String.eqb_spec "" cur); [congruence|]); apply nof_ok.
Qed.
Lemma good_skip_same n r : n <> "" -> progP (skip_same n r) /\ safeP (skip_same n r).
Proof.
  intro Hn. unfold skip_same. split.
  - intros s n' r' s' H. unfold fuel_of in H. cbn [skip_run] in H. rewrite String.eqb_refl in H. unfold sbind in H.
    destruct (liftF (skip_restofrecord n r) s) as [[[n1 r1] s1]|] eqn:E1; [|discriminate].
    apply (progP_liftF _ (prog_skip_restofrecord n r)) in E1 as (K1 & L1 & P1).
    pose proof H as H0. apply mono_skip_run in H0 as [K2 L2].
    split; [congruence|]. split; [lia|]. destruct P1 as [P1| ->]; [left; lia|].
    right. destruct (length (f_rest (p_in s))); cbn [skip_run] in H; (destruct (String.eqb_spec "" n); [congruence|]);
      injection H as <- _ _; reflexivity.
  - intro s. apply nof_skip_run; [exact Hn|]. unfold left, fuel_of; lia.
Qed.

Lemma good_general n r : n <> "" -> progP (general_parser n r) /\ safeP (general_parser n r).
Proof.
  intro Hn. unfold general_parser. split.
  - apply progP_bind; [monos|intro a]. destruct (flt_lt a f0).
    + apply progP_bind; [monos|intro]. apply progP_rheader.
    + destruct (sget n readers) as [rd|] eqn:E.
      * apply reader_good in E as [_ E]. apply progP_bind; [monos|intro]. apply E.
      * now apply good_skip_same.
  - apply safeP_bind; [safes|intro a]. destruct (flt_lt a f0); [safes|].
    destruct (sget n readers) as [rd|] eqn:E.
    + apply reader_good in E as [_ E]. apply safeP_bind; [safes|intro]. apply E.
    + now apply good_skip_same.
Qed.

Lemma nof_parse_loop only : forall fuel n r s, (left s + 1 < fuel)%nat -> nof (parse_loop fuel only n r s).
Proof.
  induction fuel; intros n r s Hf; [lia|]. cbn [parse_loop].
  destruct (String.eqb_spec n ""); [apply nof_ok|].
  match goal with |- nof (sbind ?m0 _ _) => set (m := m0) end.
  assert (G : progP m /\ safeP m) by (unfold m; clear m; destruct (wanted only n); [now apply good_general|now apply good_skip_same]).
  destruct G as [G1 G2]. clearbody m. unfold sbind. specialize (G2 s).
  destruct (m s) as [[[n1 r1] s1]|] eqn:E; [|clear - G2; intro X; apply G2; injection X as ->; reflexivity].
  apply G1 in E as (_ & L & [Q| ->]); [apply IHfuel; lia|].
  destruct fuel; [lia|]. cbn. apply nof_ok.
Qed.
Lemma safe_set_attributes : safeP set_attributes.
Proof.
  unfold set_attributes. apply safeP_bind; [safes|intro g]. apply safeP_bind; [safes|intro h].
  apply safeP_bind; [safes|intro w]. destruct (h5_find w h); [|safes].
  apply safeP_bind; [safes|]. intros [lev idx]. safes.
Qed.
Theorem parse_file_finishes only s : nof (parse_file only s).
Proof.
  unfold parse_file. apply (safeP_bind rheader); [apply safeP_rheader|]. intros [n r].
  apply safeP_bind; [|intro; apply safe_set_attributes].
  intro s1. apply nof_parse_loop. unfold left, fuel_of. lia.
Qed.
Theorem set_current_ihref_finishes z : safeP (set_current_ihref z).
Proof.
  unfold set_current_ihref. safes.
Qed.
