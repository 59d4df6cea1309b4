(** * RecordProofs: the main record types in the stored data. *)
From Verif Require Import Base Flt SeqFile H5 Schema Parsers SeqSpec StoreSpec ParserSpec LayoutSpec FileSpec DataSpec RecordSpec
  StoreProofs ParserRun FileProofs DataProofs ReadFile.
Open Scope string_scope.
Open Scope Z_scope.
Open Scope list_scope.

Local Notation cells_of := (Forall2 (fun tv c => stored (fst tv) (snd tv) c)).

Lemma stored_TI f c : stored TI (PF f) c -> exists z, c = CI z /\ trunc_is f z.
Proof. destruct c; cbn; try tauto. intros [H _]. eauto. Qed.
Lemma stored_TF f c : stored TF (PF f) c -> c = CF (round32 f).
Proof. destruct c; cbn; try tauto. now intros ->. Qed.
Lemma stored_whole fs : forall cs, Forall2 (stored TI) (nums fs) cs -> whole fs cs.
Proof.
  induction fs as [|f fs IH]; cbn; intros cs H; inversion H; subst.
  - exists []. split; [constructor|reflexivity].
  - apply stored_TI in H2 as (z & -> & Hz). destruct (IH _ H4) as (zs & A & ->). exists (z :: zs). split; [now constructor|reflexivity].
Qed.
Lemma stored_reals fs : forall cs, Forall2 (stored TF) (nums fs) cs -> cs = reals_ fs.
Proof.
  induction fs as [|f fs IH]; cbn; intros cs H; inversion H; subst; [reflexivity|].
  apply stored_TF in H2 as ->. now rewrite (IH _ H4).
Qed.
Lemma stored_TV n t l c : stored (TV n t) (PT l) c -> exists cs, c = CV cs /\ length l = n /\ Forall2 (stored t) l cs.
Proof. destruct c; cbn; try tauto. intros [H1 H2]. eauto. Qed.
Lemma stored_reals2 n ls : forall cs, Forall2 (stored (TV n TF)) (tuples ls) cs -> cs = reals2 ls.
Proof.
  induction ls as [|l ls IH]; cbn [tuples map]; intros cs H; inversion H; subst; [reflexivity|].
  apply stored_TV in H2 as (x & -> & _ & H2). apply stored_reals in H2 as ->. now rewrite (IH _ H4).
Qed.
Lemma stored_reals3 n m ls : forall cs, Forall2 (stored (TV n (TV m TF))) (map (fun l => PT (tuples l)) ls) cs -> cs = reals3 ls.
Proof.
  induction ls as [|l ls IH]; cbn [map]; intros cs H; inversion H; subst; [reflexivity|].
  apply stored_TV in H2 as (x & -> & _ & H2). apply stored_reals2 in H2 as ->. now rewrite (IH _ H4).
Qed.
Lemma stored_fits n ls : forall cs, Forall2 (stored (TS n)) (map PS ls) cs -> Forall2 (fits n) ls cs.
Proof.
  induction ls as [|l ls IH]; cbn [map]; intros cs H; inversion H; subst; constructor; auto.
  destruct y; cbn in H2; try tauto. exists s. tauto.
Qed.
Lemma stored_realc fs : forall cs, Forall2 (stored TC) (nums fs) cs -> cs = map (fun f => CC (round32 f) f0) fs.
Proof.
  induction fs as [|f fs IH]; cbn [nums map]; intros cs H; inversion H; subst; [reflexivity|].
  rewrite (IH _ H4). destruct y; cbn in H2; try tauto. now destruct H2 as [-> ->].
Qed.
Lemma stored_complex fs : forall cs, Forall2 (stored TC) (complexes fs) cs -> cs = complex_of (odds (parts fs)) (evens (parts fs)).
Proof.
  induction fs as [|f fs IH]; cbn [complexes map]; intros cs H; inversion H; subst; [reflexivity|].
  rewrite (IH _ H4). destruct y; cbn in H2; try tauto. now destruct H2 as [-> ->].
Qed.
Lemma parts_len l : length (parts l) = (2 * length l)%nat.
Proof. induction l as [|a l IH]; [reflexivity|]. cbn -[Nat.mul]. unfold parts in IH. lia. Qed.

Lemma trunc_unique f a b : trunc_is f a -> trunc_is f b -> a = b.
Proof. intros A B. apply trunc_int_of in A. apply trunc_int_of in B. congruence. Qed.

(** A row that starts with whole numbers. *)
Lemma row_ints ns d vs : forall fs cs, length ns = length fs ->
  cells_of (combine (map snd (ints ns ++ d)) (nums fs ++ vs)) cs ->
  exists zs cs', cs = map CI zs ++ cs' /\ Forall2 trunc_is fs zs /\ cells_of (combine (map snd d) vs) cs'.
Proof.
  induction ns as [|n ns IH]; intros [|f fs] cs L H; try discriminate.
  - exists [], cs. split; [reflexivity|split; [constructor|exact H]].
  - cbn [ints map app nums combine snd] in H. inversion H; subst. cbn [fst snd] in H2. apply stored_TI in H2 as (z & -> & Hz).
    destruct (IH fs l' ltac:(now injection L) H4) as (zs & cs' & -> & A & B).
    exists (z :: zs), cs'. split; [reflexivity|split; [now constructor|exact B]].
Qed.
Lemma row_all ns : forall fs cs, length ns = length fs ->
  cells_of (combine (map snd (ints ns)) (nums fs)) cs -> exists zs, cs = map CI zs /\ Forall2 trunc_is fs zs.
Proof.
  intros fs cs L H. rewrite <- (app_nil_r (ints ns)), <- (app_nil_r (nums fs)) in H.
  destruct (row_ints _ _ _ _ _ L H) as (zs & cs' & -> & A & B). inversion B; subst. exists zs. now rewrite app_nil_r.
Qed.
(** Whole numbers and reals, by column. *)
Lemma row_mixed : forall (d : descr) fs cs, Forall (fun t => t = TI \/ t = TF) (map snd d) -> length d = length fs ->
  cells_of (combine (map snd d) (nums fs)) cs ->
  length cs = length fs /\
  forall i f name t, nth_error fs i = Some f -> nth_error d i = Some (name, t) ->
    match t with
    | TI => exists z, trunc_is f z /\ nth_error cs i = Some (CI z)
    | _ => t = TF /\ nth_error cs i = Some (CF (round32 f))
    end.
Proof.
  induction d as [|[nm ty] d IH]; intros [|f fs] cs T L H; try discriminate.
  - inversion H; subst. split; [reflexivity|]. intros [|i] ? ? ? X; discriminate.
  - cbn [map snd nums combine] in H. inversion H; subst. cbn [fst snd] in H2. cbn [map snd] in T. inversion T; subst.
    destruct (IH fs l' H5 ltac:(now injection L) H4) as [A B]. split; [cbn; now rewrite A|].
    intros [|i] f' name t X Y; cbn [nth_error] in X, Y.
    + injection X as <-. injection Y as <- <-. destruct H3 as [-> | ->].
      * apply stored_TI in H2 as (z & -> & Hz). exists z. split; [exact Hz|reflexivity].
      * apply stored_TF in H2 as ->. split; reflexivity.
    + exact (B i f' name t X Y).
Qed.

Ltac nomem := match goal with H : In _ _ |- _ => solve [exfalso; clear - H; cbn in H; repeat (destruct H as [H|H]; [discriminate H|]); exact H] end.
Ltac is_stored := match goal with |- In ?n _ => unfold stored_types, descriptors; cbn [map fst]; repeat ((left; reflexivity) || right) end.
Ltac is_laid := unfold laid_types; apply filter_In; split; [is_stored|reflexivity].

Lemma laid_stored n : In n laid_types -> In n stored_types.
Proof. unfold laid_types. rewrite filter_In. now intros [H _]. Qed.

Section Typed.
  Variables (only : list string) (k : kind) (bs : list ascii) (segs : list seg) (h : h5) (w : path) (h' : h5).
  Hypothesis HR : read_file only k bs segs h w h'.

  Lemma typed n j it : In n laid_types -> nth_error (items_of n segs) j = Some it ->
    (exists kinds c rest c', layout kinds k c n it rest c') /\ has_record h' w n j (i_entry it).
  Proof.
    intros Hn Hj. split; [exact (read_item _ _ _ _ _ _ _ n j it HR Hn Hj)|].
    exact (proj1 (proj2 (read_records _ _ _ _ _ _ _ n HR (laid_stored n Hn))) j it Hj).
  Qed.

  Lemma no_array n j e : elts_of n = [] -> has_record h' w n j e -> exists cs, row_at h' w n j cs [] /\ own_cells n e cs.
  Proof. intros E (cs & rs & A & B & C & _). rewrite E in C. destruct rs; [|discriminate]. eauto. Qed.
  Lemma one_array n t j e : elts_of n = [t] -> has_record h' w n j e ->
    exists cs r l, row_at h' w n j cs [r] /\ own_cells n e cs /\ found h' w n 0 r l /\ Forall2 (stored t) (data 0 e) l.
  Proof.
    intros E (cs & rs & A & B & C & D). rewrite E in C. destruct rs as [|r [|? ?]]; try discriminate.
    destruct (D 0%nat t r ltac:(now rewrite E) eq_refl) as (D1 & D2 & D3 & _).
    exists cs, r, (slice r (array_of h' w n 0)). split; [exact A|split; [exact B|split; [|exact D3]]]. split; [exact D1|split; [exact D2|reflexivity]].
  Qed.
  Lemma two_arrays n t1 t2 j e : elts_of n = [t1; t2] -> has_record h' w n j e ->
    exists cs r1 r2 l1 l2, row_at h' w n j cs [r1; r2] /\ own_cells n e cs /\
      found h' w n 0 r1 l1 /\ Forall2 (stored t1) (data 0 e) l1 /\ found h' w n 1 r2 l2 /\ Forall2 (stored t2) (data 1 e) l2.
  Proof.
    intros E (cs & rs & A & B & C & D). rewrite E in C. destruct rs as [|r1 [|r2 [|? ?]]]; try discriminate.
    destruct (D 0%nat t1 r1 ltac:(now rewrite E) eq_refl) as (D1 & D2 & D3 & _).
    destruct (D 1%nat t2 r2 ltac:(now rewrite E) eq_refl) as (G1 & G2 & G3 & _).
    exists cs, r1, r2, (slice r1 (array_of h' w n 0)), (slice r2 (array_of h' w n 1)).
    split; [exact A|split; [exact B|]]. split; [split; [exact D1|split; [exact D2|reflexivity]]|split; [exact D3|]].
    split; [split; [exact G1|split; [exact G2|reflexivity]]|exact G3].
  Qed.
  Lemma three_arrays n t1 t2 t3 j e : elts_of n = [t1; t2; t3] -> has_record h' w n j e ->
    exists cs r1 r2 r3 l1 l2 l3, row_at h' w n j cs [r1; r2; r3] /\ own_cells n e cs /\
      found h' w n 0 r1 l1 /\ Forall2 (stored t1) (data 0 e) l1 /\ found h' w n 1 r2 l2 /\ Forall2 (stored t2) (data 1 e) l2 /\
      found h' w n 2 r3 l3 /\ Forall2 (stored t3) (data 2 e) l3.
  Proof.
    intros E (cs & rs & A & B & C & D). rewrite E in C. destruct rs as [|r1 [|r2 [|r3 [|? ?]]]]; try discriminate.
    destruct (D 0%nat t1 r1 ltac:(now rewrite E) eq_refl) as (D1 & D2 & D3 & _).
    destruct (D 1%nat t2 r2 ltac:(now rewrite E) eq_refl) as (G1 & G2 & G3 & _).
    destruct (D 2%nat t3 r3 ltac:(now rewrite E) eq_refl) as (K1 & K2 & K3 & _).
    exists cs, r1, r2, r3, (slice r1 (array_of h' w n 0)), (slice r2 (array_of h' w n 1)), (slice r3 (array_of h' w n 2)).
    split; [exact A|split; [exact B|]]. split; [split; [exact D1|split; [exact D2|reflexivity]]|split; [exact D3|]].
    split; [split; [exact G1|split; [exact G2|reflexivity]]|split; [exact G3|]].
    split; [split; [exact K1|split; [exact K2|reflexivity]]|exact K3].
  Qed.

  Lemma fixed_record n nc ld j it : In (n, nc, ld) fixed_types -> nth_error (items_of n segs) j = Some it ->
    fixed_stored n nc ld k h' w j it.
  Proof.
    intros HI Hj.
    assert (Q : In n laid_types /\ elts_of n = [] /\ length (columns n) = nc /\ Forall (fun t => t = TI \/ t = TF) (map snd (columns n))).
    { cbn in HI. repeat (destruct HI as [HI|HI]; [injection HI as <- <- <-; split; [is_laid|split; [reflexivity|split; [reflexivity|vm_compute; repeat (constructor; [auto|]); constructor]]]|]).
      contradiction. }
    destruct Q as (Hn & E & LC & TC). destruct (typed n j it Hn Hj) as ((kinds & c & rest & c' & L) & R).
    destruct (no_array n j _ E R) as (cs & A & B1 & B2).
    assert (Q : exists more, enc_data k ld more (i_bs it) /\ length more = (nc - 4)%nat /\
                e_row (i_entry it) = nums (firstn nc (i_fs it ++ more ++ repeat f0 nc))).
    { cbn in HI. repeat (destruct HI as [HI|HI]; [injection HI as <- <- <-; inversion L; subst; try nomem;
        match goal with H : In (_, _, _) fixed_types |- _ => cbn in H; repeat (destruct H as [H|H]; [first [discriminate H|injection H as <- <-]|]); try contradiction end;
        eexists; split; [eassumption|split; [eassumption|reflexivity]]|]). contradiction. }
    destruct Q as (more & Q1 & Q2 & Q3). rewrite Q3 in *.
    destruct (row_mixed (columns n) _ cs TC ltac:(rewrite B1; unfold nums; now rewrite map_length) B2) as [B3 B4].
    exists more, cs. split; [exact Q1|split; [exact Q2|split]].
    - unfold row_at in A. rewrite A. f_equal. apply app_nil_r.
    - split; [|exact B4]. unfold nums in B1. rewrite map_length in B1. rewrite B3. rewrite <- B1. exact LC.
  Qed.

  Ltac inv_layout L := inversion L; subst; clear L; try nomem.

  Lemma element_record j it : nth_error (items_of "GELMNT1" segs) j = Some it -> element_stored k h' w j it.
  Proof.
    intro Hj. destruct (typed "GELMNT1" j it ltac:(is_laid) Hj) as ((kinds & c & rest & c' & L) & R).
    inv_layout L. cbn [i_entry i_fs i_bs] in *.
    destruct (one_array "GELMNT1" TI j _ eq_refl R) as (cs & r & l & A & (B1 & B2) & C & D).
    cbn [data nth e_data e_row] in *.
    destruct (row_all ["elnox"; "elno"; "eltyp"; "eltyad"] [a; elno; eltyp; ad] cs eq_refl B2) as (zs & -> & F).
    inversion F as [|? z0 ? ? T0 F0]; subst. inversion F0 as [|? z1 ? ? T1 F1]; subst.
    inversion F1 as [|? z2 ? ? T2 F2]; subst. inversion F2 as [|? z3 ? ? T3 F3]; subst. inversion F3; subst.
    assert (z2 = t) as -> by (eapply trunc_unique; eassumption).
    exists a, elno, eltyp, ad, z0, z1, t, z3, (length nod), nod, r, l. repeat (split; [first [eassumption|reflexivity]|]).
    split; [apply stored_whole; exact D|exact C].
  Qed.

  Lemma set_record j it : nth_error (items_of "GSETMEMB" segs) j = Some it -> set_stored k h' w j it.
  Proof.
    intro Hj. destruct (typed "GSETMEMB" j it ltac:(is_laid) Hj) as ((kinds & c & rest & c' & L) & R).
    inv_layout L. cbn [i_entry i_fs i_bs] in *.
    destruct (one_array "GSETMEMB" TI j _ eq_refl R) as (cs & r & l & A & (B1 & B2) & C & D).
    cbn [data nth e_data e_row] in *.
    destruct (row_all ["nfield"; "isref"; "index"; "istype"; "isorig"] [nf; a; b; d; e] cs eq_refl B2) as (zs & -> & F).
    exists nf, a, b, d, e, zs, r, mem, l. repeat (split; [first [eassumption|reflexivity]|]).
    split; [apply stored_whole; exact D|exact C].
  Qed.

  Lemma hundreds l z : 100 * l <= z < 100 * (l + 1) -> l = z / 100.
  Proof. intro H. apply (Z.div_unique z 100 l (z - 100 * l)); lia. Qed.

  Ltac each HI := cbn in HI; repeat (destruct HI as [<- |HI]); [..|contradiction].

  Lemma name_record n j it : In n name_types -> nth_error (items_of n segs) j = Some it -> name_stored n k h' w j it.
  Proof.
    intros HI Hj.
    assert (Q : In n laid_types /\ elts_of n = [TS 64] /\ columns n = d_td).
    { clear Hj. each HI; (split; [is_laid|split; reflexivity]). }
    destruct Q as (Hn & E & EC). destruct (typed n j it Hn Hj) as ((kinds & c & rest & c' & L) & R). clear Hj.
    assert (Q : exists nf idno cn ct zn zt names nls texts tls bs1 bs2,
      it = mkItem [nf; idno; cn; ct] (bs1 ++ bs2) (mkEntry (nums [nf; idno; cn; ct] ++ [PS (concat names)]) [map PS texts]) /\
      trunc_is cn zn /\ trunc_is ct zt /\
      100 * Z.of_nat (length names) <= zn < 100 * (Z.of_nat (length names) + 1) /\
      100 * Z.of_nat (length texts) <= zt < 100 * (Z.of_nat (length texts) + 1) /\
      Forall2 (text_line k) names nls /\ Forall2 (text_line k) texts tls /\ frames k nls bs1 /\ frames k tls bs2).
    { clear R EC. each HI; inv_layout L; do 12 eexists; (split; [reflexivity|]); repeat (split; [eassumption|]); assumption. }
    destruct Q as (nf & idno & cn & ct & zn & zt & names & nls & texts & tls & bs1 & bs2 & -> & T1 & T2 & Q1 & Q2 & Q3 & Q4 & Q5 & Q6).
    cbn [i_entry i_fs i_bs] in *.
    destruct (one_array n (TS 64) j _ E R) as (cs & r & l & A & (B1 & B2) & C & D).
    cbn [data nth e_data e_row] in *. rewrite EC in B2.
    destruct (row_ints ["nfield"; "idno"; "codnam"; "codtxt"] [("name", TS 64)] _ [nf; idno; cn; ct] cs eq_refl B2) as (zs & cs' & -> & F & G).
    inversion F as [|? z0 ? ? T3 F0]; subst. inversion F0 as [|? z1 ? ? T4 F1]; subst.
    inversion F1 as [|? z2 ? ? T5 F2]; subst. inversion F2 as [|? z3 ? ? T6 F3]; subst. inversion F3; subst.
    assert (z2 = zn) as -> by (eapply trunc_unique; eassumption). assert (z3 = zt) as -> by (eapply trunc_unique; eassumption).
    cbn [combine map snd] in G. inversion G as [|? nm ? ? G1 G2]; subst. inversion G2; subst. cbn [fst snd] in G1.
    exists nf, idno, cn, ct, z0, z1, zn, zt, names, nls, texts, tls, bs1, bs2, nm, r, l.
    cbn [i_fs i_bs].
    split; [reflexivity|]. do 4 (split; [assumption|]). do 2 (split; [apply hundreds; assumption|]). split; [reflexivity|].
    do 4 (split; [assumption|]). split; [exact A|]. split; [|split; [apply stored_fits; exact D|exact C]].
    destruct nm; cbn in G1; try tauto. eexists. split; [reflexivity|tauto].
  Qed.

  Lemma text_record n j it : In n text_types -> nth_error (items_of n segs) j = Some it -> text_stored n k h' w j it.
  Proof.
    intros HI Hj.
    assert (Q : In n laid_types /\ elts_of n = [TS 72] /\ columns n = d_text).
    { clear Hj. each HI; (split; [is_laid|split; reflexivity]). }
    destruct Q as (Hn & E & EC). destruct (typed n j it Hn Hj) as ((kinds & c & rest & c' & L) & R). clear Hj.
    assert (Q : exists a b nl e lines bs1,
      it = mkItem [a; b; nl; e] bs1 (mkEntry (nums [a; b; nl; e]) [map PS lines]) /\ count nl (length lines) /\ frames k lines bs1).
    { clear R EC. each HI; inv_layout L; do 6 eexists; (split; [reflexivity|]); split; eassumption. }
    destruct Q as (a & b & nl & e & lines & bs1 & -> & Q1 & Q2). cbn [i_entry i_fs i_bs] in *.
    destruct (one_array n (TS 72) j _ E R) as (cs & r & l & A & (B1 & B2) & C & D).
    cbn [data nth e_data e_row] in *. rewrite EC in B2.
    destruct (row_all ["type"; "subtype"; "nrecs"; "nbyte"] [a; b; nl; e] cs eq_refl B2) as (zs & -> & F).
    exists a, b, nl, e, zs, lines, r, l. cbn [i_fs i_bs]. repeat (split; [first [eassumption|reflexivity]|]).
    split; [apply stored_fits; exact D|exact C].
  Qed.

  Lemma six_record n j it : In n six_types -> nth_error (items_of n segs) j = Some it -> six_stored n k h' w j it.
  Proof.
    intros HI Hj.
    assert (Q : In n laid_types /\ elts_of n = [] /\ columns n = d_wcommon1).
    { clear Hj. each HI; (split; [is_laid|split; reflexivity]). }
    destruct Q as (Hn & E & EC). destruct (typed n j it Hn Hj) as ((kinds & c & rest & c' & L) & R). clear Hj.
    assert (Q : exists a b d ic data vs bs1,
      it = mkItem [a; b; d; ic] bs1 (mkEntry (nums [a; b; d; ic] ++ [PT vs]) []) /\ enc_data k Lead0 data bs1 /\
      ((trunc_is ic 0 /\ length data = 6%nat /\ vs = nums data) \/
       (exists z v, trunc_is ic z /\ z <> 0 /\ length v = 6%nat /\ vs = complexes v /\ data = parts v))).
    { clear R EC. each HI; inv_layout L; do 7 eexists; (split; [reflexivity|]); (split; [eassumption|]);
      ((left; repeat (split; [eassumption|]); reflexivity) || (right; do 2 eexists; repeat (split; [eassumption|]); split; reflexivity)). }
    destruct Q as (a & b & d & ic & dat & vs & bs1 & -> & Q1 & Q2). cbn [i_entry i_fs i_bs] in *.
    destruct (no_array n j _ E R) as (cs & A & B1 & B2).
    cbn [e_data e_row] in *. rewrite EC in B2.
    destruct (row_ints ["nfield"; "ibcond"; "iwres"; "icompl"] [("data", TV 6 TC)] _ [a; b; d; ic] cs eq_refl B2) as (zs & cs' & -> & F & G).
    cbn [combine map snd] in G. inversion G as [|? nm ? ? G1 G2]; subst. inversion G2; subst. cbn [fst snd] in G1.
    apply stored_TV in G1 as (xs & -> & _ & G1).
    exists a, b, d, ic, zs, dat, xs. cbn [i_fs i_bs]. repeat (split; [first [eassumption|reflexivity]|]). split; [|exact A].
    destruct Q2 as [(T & Q2 & ->)|(z & v & T & Hz & Q2 & -> & ->)].
    - left. split; [exact T|split; [exact Q2|apply stored_realc; exact G1]].
    - right. exists z. split; [exact T|split; [exact Hz|split; [rewrite parts_len, Q2; reflexivity|apply stored_complex; exact G1]]].
  Qed.
End Typed.
