(** * RecordMore: further record types in the stored data. *)
From Verif Require Import Base Flt SeqFile H5 Schema Parsers SeqSpec StoreSpec ParserSpec LayoutSpec FileSpec DataSpec RecordSpec
  StoreProofs ParserRun FileProofs DataProofs ReadFile RecordProofs.
Open Scope string_scope.
Open Scope Z_scope.
Open Scope list_scope.

Ltac nomem := match goal with H : In _ _ |- _ => solve [exfalso; clear - H; cbn in H; repeat (destruct H as [H|H]; [discriminate H|]); exact H] end.
Ltac is_stored := match goal with |- In ?n _ => unfold stored_types, descriptors; cbn [map fst]; repeat ((left; reflexivity) || right) end.
Ltac is_laid := unfold laid_types; apply filter_In; split; [is_stored|reflexivity].
Ltac inv_layout L := inversion L; subst; clear L; try nomem.
Ltac each HI := cbn in HI; repeat (destruct HI as [<- |HI]); [..|contradiction].

Lemma Forall2_in {A B} (R : A -> B -> Prop) l l' : Forall2 R l l' -> forall a, In a l -> exists b, In b l' /\ R a b.
Proof.
  induction 1; intros z I; [destruct I|]. destruct I as [->|I]; [exists y; split; [now left|assumption]|].
  destruct (IHForall2 _ I) as (b & Ib & Rb). exists b. split; [now right|exact Rb].
Qed.

Section Typed.
  Variables (only : list string) (k : kind) (bs : list ascii) (segs : list seg) (h : h5) (w : path) (h' : h5).
  Hypothesis HR : read_file only k bs segs h w h'.

  Lemma section_force_record j it : nth_error (items_of "W1SFORCE" segs) j = Some it -> section_force_stored k h' w j it.
  Proof.
    intro Hj. destruct (typed _ _ _ _ _ _ _ HR "W1SFORCE" j it ltac:(is_laid) Hj) as ((kinds & c & rest & c' & L) & R). clear Hj.
    assert (Q : exists a b d e ic dat vs bs1,
      it = mkItem [a; b; d; e] bs1 (mkEntry (nums [a; b; d; e; ic] ++ [PT vs]) []) /\ enc_data k Lead0 (ic :: dat) bs1 /\
      ((trunc_is ic 0 /\ length dat = 6%nat /\ vs = nums dat) \/
       (exists z v, trunc_is ic z /\ z <> 0 /\ length v = 6%nat /\ vs = complexes v /\ dat = parts v))).
    { clear R. inv_layout L; do 8 eexists; (split; [reflexivity|]); (split; [eassumption|]);
      ((left; repeat (split; [eassumption|]); reflexivity) || (right; do 2 eexists; repeat (split; [eassumption|]); split; reflexivity)). }
    destruct Q as (a & b & d & e & ic & dat & vs & bs1 & -> & Q1 & Q2). cbn [i_entry i_fs i_bs] in *.
    destruct (no_array _ _ "W1SFORCE" j _ eq_refl R) as (cs & A & B1 & B2). cbn [e_data e_row] in *.
    destruct (row_ints ["nfield"; "ibcond"; "isect"; "iwres"; "icompl"] [("data", TV 6 TC)] _ [a; b; d; e; ic] cs eq_refl B2) as (zs & cs' & -> & F & G).
    cbn [combine map snd] in G. inversion G as [|? nm ? ? G1 G2]; subst. inversion G2; subst. cbn [fst snd] in G1.
    apply stored_TV in G1 as (xs & -> & _ & G1).
    exists a, b, d, e, ic, zs, dat, xs. cbn [i_fs i_bs]. repeat (split; [first [eassumption|reflexivity]|]). split; [|exact A].
    destruct Q2 as [(T & Q2 & ->)|(z & v & T & Hz & Q2 & -> & ->)].
    - left. split; [exact T|split; [exact Q2|apply stored_realc; exact G1]].
    - right. exists z. split; [exact T|split; [exact Hz|split; [rewrite parts_len, Q2; reflexivity|apply stored_complex; exact G1]]].
  Qed.

  Lemma drift_record n m j it : In (n, m) [("W2HDRIFT", 3%nat); ("W2MDRIFT", 6%nat)] ->
    nth_error (items_of n segs) j = Some it -> drift_stored n m k h' w j it.
  Proof.
    intros HI Hj.
    assert (Q : In n laid_types /\ elts_of n = [] /\ exists nm, columns n = ints ["nfield"; "ibcond"; "iwres"] ++ [(nm, TV m TF)]).
    { clear Hj. cbn in HI. destruct HI as [HI|[HI|[]]]; injection HI as <- <-; (split; [is_laid|split; [reflexivity|eexists; reflexivity]]). }
    destruct Q as (Hn & E & nm & EC). destruct (typed _ _ _ _ _ _ _ HR n j it Hn Hj) as ((kinds & c & rest & c' & L) & R). clear Hj.
    assert (Q : exists a b d x dat bs1,
      it = mkItem [a; b; d; x] bs1 (mkEntry (nums [a; b; d] ++ [PT (nums (x :: dat))]) []) /\ enc_data k Lead0 dat bs1 /\ length (x :: dat) = m).
    { clear R EC. cbn in HI. destruct HI as [HI|[HI|[]]]; injection HI as <- <-; inv_layout L; do 6 eexists; (split; [reflexivity|]);
      (split; [eassumption|]); cbn [length]; match goal with H : length _ = _ |- _ => now rewrite H end. }
    destruct Q as (a & b & d & x & dat & bs1 & -> & Q1 & Q2). cbn [i_entry i_fs i_bs] in *.
    destruct (no_array _ _ n j _ E R) as (cs & A & B1 & B2). cbn [e_data e_row] in *. rewrite EC in B2.
    destruct (row_ints ["nfield"; "ibcond"; "iwres"] [(nm, TV m TF)] _ [a; b; d] cs eq_refl B2) as (zs & cs' & -> & F & G).
    cbn [combine map snd] in G. inversion G as [|? nm' ? ? G1 G2]; subst. inversion G2; subst. cbn [fst snd] in G1.
    apply stored_TV in G1 as (xs & -> & _ & G1). apply (stored_reals (x :: dat)) in G1 as ->.
    exists a, b, d, x, zs, dat. cbn [i_fs i_bs]. repeat (split; [first [eassumption|reflexivity]|]). exact A.
  Qed.

  Lemma kinematics_record j it : nth_error (items_of "WFLUIDKN" segs) j = Some it -> kinematics_stored k h' w j it.
  Proof.
    intro Hj. destruct (typed _ _ _ _ _ _ _ HR "WFLUIDKN" j it ltac:(is_laid) Hj) as ((kinds & c & rest & c' & L) & R). clear Hj.
    assert (Q : exists a b d ic dat pv vs bs1,
      it = mkItem [a; b; d; ic] bs1 (mkEntry (nums [a; b; d; ic] ++ [pv; PT vs]) []) /\ enc_data k Lead0 dat bs1 /\
      ((trunc_is ic 0 /\ length dat = 4%nat /\ pv :: vs = nums dat) \/
       (exists z v, trunc_is ic z /\ z <> 0 /\ length v = 4%nat /\ pv :: vs = complexes v /\ dat = parts v))).
    { clear R. inv_layout L.
      - exists a, b, d, ic, (p :: v), (PF p), (nums v), bs0. split; [reflexivity|split; [assumption|left]]. split; [assumption|split; [cbn; match goal with H : length v = _ |- _ => now rewrite H end|reflexivity]].
      - exists a, b, d, ic, (parts (p :: v)), (PC (fst p) (snd p)), (complexes v), bs0. split; [reflexivity|split; [assumption|right]].
        exists z, (p :: v). repeat (split; [first [eassumption|reflexivity|cbn [length]; match goal with H : length v = _ |- _ => now rewrite H end]|]). reflexivity. }
    destruct Q as (a & b & d & ic & dat & pv & vs & bs1 & -> & Q1 & Q2). cbn [i_entry i_fs i_bs] in *.
    destruct (no_array _ _ "WFLUIDKN" j _ eq_refl R) as (cs & A & B1 & B2). cbn [e_data e_row] in *.
    destruct (row_ints ["nfield"; "iwres"; "ifkpnt"; "icompl"] [("p", TC); ("v", TV 3 TC)] _ [a; b; d; ic] cs eq_refl B2) as (zs & cs' & -> & F & G).
    cbn [combine map snd] in G. inversion G as [|? pc ? ? G1 G2]; subst. inversion G2 as [|? vc ? ? G3 G4]; subst. inversion G4; subst. cbn [fst snd] in G1, G3.
    apply stored_TV in G3 as (xs & -> & _ & G3).
    assert (G5 : Forall2 (stored TC) (pv :: vs) (pc :: xs)) by (constructor; assumption).
    exists a, b, d, ic, zs, dat, pc, xs. cbn [i_fs i_bs]. repeat (split; [first [eassumption|reflexivity]|]). split; [|exact A].
    destruct Q2 as [(T & Q2 & E)|(z & v & T & Hz & Q2 & E & ->)]; rewrite E in G5.
    - left. split; [exact T|split; [exact Q2|apply stored_realc; exact G5]].
    - right. exists z. split; [exact T|split; [exact Hz|split; [rewrite parts_len, Q2; reflexivity|apply stored_complex; exact G5]]].
  Qed.

  Lemma panel_record j it : nth_error (items_of "W1PANPRE" segs) j = Some it -> panel_stored k h' w j it.
  Proof.
    intro Hj. destruct (typed _ _ _ _ _ _ _ HR "W1PANPRE" j it ltac:(is_laid) Hj) as ((kinds & c & rest & c' & L) & R). clear Hj.
    assert (Q : exists a b d e s ic dat p q ip js bs1,
      it = mkItem [a; b; d; e] bs1 (mkEntry (nums [a; b; d; e; s; ic] ++ [PC p q; PF ip; PF js]) []) /\ enc_data k Lead0 (s :: ic :: dat ++ [ip; js]) bs1 /\
      ((trunc_is ic 0 /\ dat = [p] /\ q = f0) \/ (exists z, trunc_is ic z /\ z <> 0 /\ dat = [p; q]))).
    { clear R. inv_layout L; destruct fs as [|x1 [|x2 [|x3 [|x4 [|? ?]]]]]; try discriminate.
      - exists x1, x2, x3, x4, a, ic, [p], p, f0, i, j0, bs0. split; [reflexivity|split; [assumption|left; auto]].
      - exists x1, x2, x3, x4, a, ic, [p; q], p, q, i, j0, bs0. split; [reflexivity|split; [assumption|right; eauto]]. }
    destruct Q as (a & b & d & e & s & ic & dat & p & q & ip & js & bs1 & -> & Q1 & Q2). cbn [i_entry i_fs i_bs] in *.
    destruct (no_array _ _ "W1PANPRE" j _ eq_refl R) as (cs & A & B1 & B2). cbn [e_data e_row] in *.
    destruct (row_ints ["nfield"; "ibcond"; "iwres"; "ippan"; "isymm1"; "icompl"] (("p", TC) :: ints ["ipan"; "isymm2"]) _ [a; b; d; e; s; ic] cs eq_refl B2) as (zs & cs' & -> & F & G).
    cbn [combine map snd ints] in G. inversion G as [|? pc ? ? G1 G2]; subst. inversion G2 as [|? ? ? ? G3 G4]; subst. inversion G4 as [|? ? ? ? G5 G6]; subst. inversion G6; subst.
    cbn [fst snd] in G1, G3, G5. apply stored_TI in G3 as (z1 & -> & T1). apply stored_TI in G5 as (z2 & -> & T2).
    destruct pc; try (cbn in G1; tauto). cbn in G1. destruct G1 as [-> ->].
    exists a, b, d, e, s, ic, dat, ip, js, zs, z1, z2, (CC (round32 p) (round32 q)). cbn [i_fs i_bs].
    split; [reflexivity|]. do 4 (split; [assumption|]). split; [|exact A].
    destruct Q2 as [(T & -> & ->)|(z & T & Hz & ->)].
    - left. split; [exact T|exists p; split; reflexivity].
    - right. exists z, p, q. auto.
  Qed.

  Lemma points_data pts : Forall point_ok pts -> forall n cs,
    Forall2 (stored (TV n TF)) (flat_map point_data pts) cs ->
    cs = reals2 (map point_nums (filter (fun p => flt_lt f0 (fst p)) pts)).
  Proof.
    induction 1 as [|p pts Hp _ IH]; intros n cs H; cbn [flat_map filter map] in *; [inversion H; reflexivity|].
    destruct Hp as [[P L]|[P L]]; rewrite P.
    - destruct p as [x [|y l]]; [discriminate|]. unfold point_data in H. cbn [snd app] in H.
      inversion H; subst. apply stored_TV in H2 as (xs & -> & _ & H2). apply (stored_reals (x :: y :: l)) in H2 as ->.
      rewrite (IH _ _ H4). reflexivity.
    - unfold point_data in H. rewrite L in H. cbn [app] in H. exact (IH _ _ H).
  Qed.

  Lemma points_record j it : nth_error (items_of "RDPOINTS" segs) j = Some it -> points_stored k h' w j it.
  Proof.
    intro Hj. destruct (typed _ _ _ _ _ _ _ HR "RDPOINTS" j it ltac:(is_laid) Hj) as ((kinds & c & rest & c' & L) & R). clear Hj.
    inv_layout L. cbn [i_entry i_fs i_bs] in *.
    destruct (two_arrays _ _ "RDPOINTS" (TV 4 TF) (TV 3 (TV 3 TF)) j _ eq_refl R) as (cs & r1 & r2 & l1 & l2 & A & (B1 & B2) & C1 & D1 & C2 & D2).
    cbn [data nth e_data e_row] in *.
    destruct (row_all ["nfield"; "ispalt"; "iielno"; "icoref"; "ieltyp"; "nsp"; "ijkdim"; "nsptra"; "nlay"] [nf; alt; el; cr; e; nsp; ijk; nst; nl] cs eq_refl B2) as (zs & -> & F).
    exists nf, alt, el, cr, e, nsp, ijk, nst, nl, zs, (10000 * Z.of_nat nok + 100 * Z.of_nat noj + Z.of_nat noi), pts, xfs, r1, r2.
    split; [reflexivity|]. split; [exact F|]. split; [assumption|]. split.
    { match goal with H : length pts = _ |- _ => rewrite H end.
      assert (E1 : (10000 * Z.of_nat nok + 100 * Z.of_nat noj + Z.of_nat noi) / 10000 = Z.of_nat nok) by (symmetry; eapply Z.div_unique with (r := 100 * Z.of_nat noj + Z.of_nat noi); lia).
      assert (E2 : (10000 * Z.of_nat nok + 100 * Z.of_nat noj + Z.of_nat noi) / 100 = 100 * Z.of_nat nok + Z.of_nat noj) by (symmetry; eapply Z.div_unique with (r := Z.of_nat noi); lia).
      assert (E3 : (10000 * Z.of_nat nok + 100 * Z.of_nat noj + Z.of_nat noi) mod 100 = Z.of_nat noi) by (symmetry; eapply Z.mod_unique with (q := 100 * Z.of_nat nok + Z.of_nat noj); lia).
      assert (E4 : (100 * Z.of_nat nok + Z.of_nat noj) mod 100 = Z.of_nat noj) by (symmetry; eapply Z.mod_unique with (q := Z.of_nat nok); lia).
      rewrite E1, E2, E3, E4. lia. }
    split. { eapply Forall_impl; [|eassumption]. intros p [[P Q]|[P Q]]; rewrite P; [exact Q|now rewrite Q]. }
    split; [assumption|]. split; [assumption|].
    split. { match goal with H : enc_data _ _ _ bs0 |- _ => rewrite concat_map in H || idtac end.
      assert (E : concat (concat xfs) = concat (map (@concat flt) xfs)).
      { clear. induction xfs as [|m l IH]; [reflexivity|]. cbn [concat map]. now rewrite concat_app, IH. }
      rewrite E. assumption. }
    split; [exact A|]. split.
    - erewrite <- points_data; [exact C1|assumption|exact D1].
    - erewrite <- stored_reals3; [exact C2|exact D2].
  Qed.

  Lemma noderes_record n j it : In n nodres_types -> nth_error (items_of n segs) j = Some it -> noderes_stored n k h' w j it.
  Proof.
    intros HI Hj.
    assert (Q : In n laid_types /\ elts_of n = [TF] /\ columns n = d_rvnodres).
    { clear Hj. each HI; (split; [is_laid|split; reflexivity]). }
    destruct Q as (Hn & E & EC). destruct (typed _ _ _ _ _ _ _ HR n j it Hn Hj) as ((kinds & c & rest & c' & L) & R). clear Hj.
    assert (Q : exists nf ires a b d res bs1,
      it = mkItem [nf; ires; a; b] bs1 (mkEntry (nums [nf; ires; a; b; d]) [nums res]) /\ count nf (5 + length res) /\ enc_data k Lead0 (d :: res) bs1).
    { clear R EC. each HI; inv_layout L; do 7 eexists; (split; [reflexivity|]); split; eassumption. }
    destruct Q as (nf & ires & a & b & d & res & bs1 & -> & Q1 & Q2). cbn [i_entry i_fs i_bs] in *.
    destruct (one_array _ _ n TF j _ E R) as (cs & r & l & A & (B1 & B2) & C & D).
    cbn [data nth e_data e_row] in *. rewrite EC in B2.
    destruct (row_all ["nfield"; "ires"; "iinod"; "irdva"; "itrans"] [nf; ires; a; b; d] cs eq_refl B2) as (zs & -> & F).
    apply stored_reals in D as ->.
    exists nf, ires, a, b, d, zs, res, r. cbn [i_fs i_bs]. repeat (split; [first [eassumption|reflexivity]|]). exact C.
  Qed.

  Lemma ref_data_unique rs js z d1 d2 : Forall2 (fun (r : refkind) j => trunc_is (fst r) j) rs js -> NoDup js ->
    ref_data rs z d1 -> ref_data rs z d2 -> d1 = d2.
  Proof.
    intros F N [(f1 & I1 & T1)|(H1 & ->)] [(f2 & I2 & T2)|(H2 & ->)]; [| | |reflexivity].
    - revert js F N. induction rs as [|r rs IH]; intros js F N; [destruct I1|]. inversion F as [|? j ? js' F0 F1]; subst. inversion N; subst.
      assert (U : forall f d, In (f, d) rs -> trunc_is f z -> trunc_is (fst r) z -> False).
      { intros f d I T T'. assert (j = z) as -> by (eapply trunc_unique; eassumption).
        destruct (Forall2_in _ _ _ F1 _ I) as (j' & Ij & Tj). cbn [fst] in Tj. assert (j' = z) as -> by (eapply trunc_unique; eassumption). contradiction. }
      destruct I1 as [->|I1], I2 as [E|I2]; cbn [fst] in *.
      + now injection E.
      + exfalso. eapply U; eassumption.
      + subst r. exfalso. eapply U; eassumption.
      + eapply IH; eassumption.
    - exfalso. exact (H2 _ I1 T1).
    - exfalso. exact (H1 _ I2 T2).
  Qed.

  Lemma resref_record j it : nth_error (items_of "WDRESREF" segs) j = Some it -> resref_stored k h' w j it.
  Proof.
    intro Hj. destruct (typed _ _ _ _ _ _ _ HR "WDRESREF" j it ltac:(is_laid) Hj) as ((kinds & c & rest & c' & L) & R). clear Hj.
    inv_layout L. cbn [i_entry i_fs i_bs] in *.
    destruct (three_arrays _ _ "WDRESREF" (TV 2 TF) (TV 2 TF) (TV 2 TF) j _ eq_refl R) as (cs & rd & rf & rt & l1 & l2 & l3 & A & (B1 & B2) & C1 & D1 & C2 & D2 & C3 & D3).
    cbn [data nth e_data e_row] in *.
    destruct (row_all ["nfield"; "iwres"; "nresrf"; "numtyp"] [nf; a; nr; nt] cs eq_refl B2) as (zs & -> & F).
    apply stored_reals2 in D1 as ->. apply stored_reals2 in D2 as ->. apply stored_reals2 in D3 as ->.
    exists nf, a, nr, nt, zs, n, rs, rd, rf, rt. repeat (split; [first [eassumption|reflexivity]|]).
    match goal with H : exists js, Forall2 _ rs js /\ _ |- _ => destruct H as (js & J1 & J2) end. assert (NJ : NoDup js) by (eapply Permutation.Permutation_NoDup; [symmetry|]; eassumption).
    intros z m r d HI HD. cbn in HI. destruct HI as [HI|[HI|[HI|[]]]]; injection HI as <- <- <-.
    - assert (d = dd) as -> by (eapply ref_data_unique; eassumption). exact C1.
    - assert (d = df) as -> by (eapply ref_data_unique; eassumption). exact C2.
    - assert (d = dt) as -> by (eapply ref_data_unique; eassumption). exact C3.
  Qed.

  Lemma section_record n nc no j it : In (n, nc, no) section_types -> nth_error (items_of n segs) j = Some it ->
    section_stored n nc no k h' w j it.
  Proof.
    intros HI Hj.
    assert (Q : In n laid_types /\ elts_of n = [] /\ length (columns n) = nc /\ Forall (fun t => t = TI \/ t = TF) (map snd (columns n))).
    { cbn in HI. repeat (destruct HI as [HI|HI]; [injection HI as <- <- <-; split; [is_laid|split; [reflexivity|split; [reflexivity|vm_compute; repeat (constructor; [auto|]); constructor]]]|]).
      contradiction. }
    destruct Q as (Hn & E & LC & TC). destruct (typed _ _ _ _ _ _ _ HR n j it Hn Hj) as ((kinds & c & rest & c' & L) & R).
    destruct (no_array _ _ n j _ E R) as (cs & A & B1 & B2).
    assert (Q : exists more,
      ((length more = (nc - 4)%nat /\ enc_data k Lead8 more (i_bs it)) \/
       (exists given cs, more = given ++ repeat f0 no /\ length given = (nc - 4 - no)%nat /\
        cut_of k given [] cs /\ enc_conts k Lead8 cs (i_bs it))) /\
      length (i_fs it) = 4%nat /\ e_row (i_entry it) = nums (i_fs it ++ more)).
    { cbn in HI. repeat (destruct HI as [HI|HI]; [injection HI as <- <- <-; inversion L; subst; try nomem;
        match goal with H : In (_, _, _) section_types |- _ => cbn in H; repeat (destruct H as [H|H]; [first [discriminate H|injection H as <- <-]|]); try contradiction end;
        cbn [i_bs i_fs i_entry e_row];
        [eexists (_ ++ repeat f0 _); split; [right; do 2 eexists; split; [reflexivity|split; [eassumption|split; eassumption]]|split; [assumption|reflexivity]]
        |eexists; split; [left; split; eassumption|split; [assumption|reflexivity]]]|]). contradiction. }
    destruct Q as (more & Q1 & Q2 & Q3). rewrite Q3 in *.
    destruct (row_mixed (columns n) _ cs TC ltac:(rewrite B1; unfold nums; now rewrite map_length) B2) as [B3 B4].
    exists more, cs. split; [exact Q1|split].
    - unfold row_at in A. rewrite A. f_equal. apply app_nil_r.
    - split; [unfold nums in B1; rewrite map_length in B1; rewrite B3; rewrite <- B1; exact LC|]. split; [exact Q2|exact B4].
  Qed.

  Lemma hierarchy_record j it : nth_error (items_of "HIERARCH" segs) j = Some it -> hierarchy_stored k h' w j it.
  Proof.
    intro Hj. assert (L : exists c rest c', hier_layout k c "HIERARCH" it rest c').
    { destruct (read_outcome _ _ _ _ _ _ _ HR) as (ft & id & idx & p & (sub & HF) & _). eapply file_hier_item; eauto. }
    assert (R : has_record h' w "HIERARCH" j (i_entry it)).
    { apply (proj1 (proj2 (read_records _ _ _ _ _ _ _ "HIERARCH" HR ltac:(is_stored))) j it Hj). }
    destruct L as (c & rest & c' & L). inversion L; subst. cbn [i_entry i_fs i_bs] in *.
    destruct fs as [|x1 [|x2 [|x3 [|x4 [|? ?]]]]]; try discriminate.
    destruct (one_array _ _ "HIERARCH" TI j _ eq_refl R) as (cs & r & l & A & (B1 & B2) & C & D).
    cbn [data nth e_data e_row] in *.
    destruct (row_all ["nfield"; "ihref"; "iselty"; "indsel"; "islevl"; "itref"; "ihpref"; "nsub"] ([x1; x2; x3; x4] ++ [a; b; d; ns]) cs eq_refl B2) as (zs & -> & F).
    exists a, b, d, ns, zs, ih, r, l. cbn [i_fs i_bs]. repeat (split; [first [eassumption|reflexivity]|]).
    split; [apply stored_whole; exact D|exact C].
  Qed.
End Typed.
