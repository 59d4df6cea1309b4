(** * LayoutBodies: each reader body understands the layout of its records. *)
From Verif Require Import Base Flt SeqFile H5 Schema Parsers SeqSpec StoreSpec ParserSpec LayoutSpec
  ListFacts SeqProofs SeqTerm StoreProofs ParserRun LayoutProofs.
From Coq Require Import ZifyBool ZifyNat Permutation.
Open Scope string_scope.
Open Scope Z_scope.
Open Scope list_scope.
Open Scope monad_scope.

(** ** Context *)
Lemma ctx_elem g c e t : ctx_of g c -> ctx_of (add_elem e t g) (with_elem c e t).
Proof.
  intros [H1 H2 H3 H4 H5]. constructor; cbn; auto. intros x v. unfold upd, dset. cbn.
  destruct (Z.eqb x e) eqn:E; auto.
Qed.
Lemma ctx_compl g c e t : ctx_of g c -> ctx_of (add_compl e t g) (with_compl c e t).
Proof.
  intros [H1 H2 H3 H4 H5]. constructor; cbn; auto. intro x. unfold upd, dset. cbn. now rewrite H4.
Qed.
Lemma ctx_points g c e t e2 t2 : ctx_of g c -> ctx_of (add_points e t e2 t2 g) (with_points c e t e2 t2).
Proof.
  intros [H1 H2 H3 H4 H5]. constructor; cbn; auto.
  - intro x. unfold upd, dset. cbn. now rewrite H2.
  - intro x. unfold upd, dset. cbn. rewrite H3. reflexivity.
Qed.
Lemma ctx_lenrec g c e t : ctx_of g c -> ctx_of (add_lenrec e t g) (with_lenrec c e t).
Proof.
  intros [H1 H2 H3 H4 H5]. constructor; cbn; auto. intro x. unfold upd, dset. cbn. rewrite H5. reflexivity.
Qed.
Lemma ctx_ielcor g c v : ctx_of g c -> ctx_of (set_ielcor v g) c.
Proof. intros [H1 H2 H3 H4 H5]. constructor; cbn; auto. Qed.

Lemma node_count_ok t n : In (t, n) node_count -> nnodes_of t = Ok (Z.of_nat n).
Proof.
  intro H. cbn in H. repeat (destruct H as [H|H]; [injection H as <- <-; reflexivity|]). contradiction.
Qed.

Ltac fin2 A := eexists _, _; split; [reflexivity|]; split; [unfold Jany; auto|];
  destruct (at_done _ _ _ _ _ _ _ A) as (F1 & F2 & F3 & F4); rewrite F4; repeat split; auto; try (apply gframe_refl).
Ltac st H A := unfold count in *; start H A.
Ltac md A := match type of A with at_ ?k ?ld ?d ?pad ?rest ?g ?h ?s =>
  match goal with |- context [modg ?f s] =>
    let s' := fresh "s" in let E := fresh "E" in let A' := fresh "A" in
    destruct (at_modg k ld d pad rest g h s f A) as (s' & E & A'); rewrite E; clear E A; rename A' into A end end.
Ltac gt A := rewrite (at_getg _ _ _ _ _ _ _ _ A).
Ltac lr := match goal with |- context [liftR (Ok ?v) ?s] => change (liftR (Ok v) s) with (@Ok (_ * pst) (v, s)); cbv beta iota end.
Ltac tms A gs d2 w := match type of A with at_ ?k ?ld ?d ?pad ?rest ?g ?h ?s =>
  match goal with |- context [timesZ ?z (sbind (rfloats ?W ?sk) (fun l => sret (@?F l))) s] =>
    let s' := fresh "s" in let E := fresh "E" in let A' := fresh "A" in
    destruct (at_timesZ k ld w F sk gs d2 pad rest g h s z W) as (s' & E & A');
    [reflexivity | auto | rewrite ?app_nil_r; exact A | auto | reflexivity | rewrite E; clear E A; rename A' into A] end end.

Section Bodies.
  Variables (k : kind) (c : ctx).

  Lemma ok_text a b nl e lines bs rest n : In n text_types ->
      count nl (length lines) -> frames k lines bs ->
      body_ok Jany b_text k c n (mkItem [a; b; nl; e] bs (mkEntry (nums [a; b; nl; e]) [map PS lines])) rest c.
  Proof.
    intros _ T H. unfold count in *. intros g h fr HC. cbn [i_fs i_bs i_entry e_row e_data].
    unfold b_text, sbind. ii. unfold timesZ. rewrite Nat2Z.id.
    destruct (lines_step k lines bs rest g h (mkP (mkIn k (bs ++ rest) false fr) g h) H) as (s & E & F1 & F2 & F3 & F4);
      [repeat split|]. rewrite E.
    eexists _, _. split; [reflexivity|]. split; [unfold Jany; auto|]. rewrite F4.
    repeat split; auto; apply HC.
  Qed.

  Lemma ok_td n a b cn ct zn zt names nls texts tls bs1 bs2 rest :
      In n name_types -> trunc_is cn zn -> trunc_is ct zt ->
      100 * Z.of_nat (length names) <= zn < 100 * (Z.of_nat (length names) + 1) ->
      100 * Z.of_nat (length texts) <= zt < 100 * (Z.of_nat (length texts) + 1) ->
      Forall2 (text_line k) names nls -> Forall2 (text_line k) texts tls ->
      Forall (Forall (fun x => code x < 128)) names ->
      frames k nls bs1 -> frames k tls bs2 ->
      body_ok Jany b_td k c n (mkItem [a; b; cn; ct] (bs1 ++ bs2)
        (mkEntry (nums [a; b; cn; ct] ++ [PS (concat names)]) [map PS texts])) rest c.
  Proof.
    intros _ T1 T2 L1 L2 N1 N2 N3 F1 F2 g h fr HC. cbn [i_fs i_bs i_entry e_row e_data].
    unfold b_td, sbind. rewrite (lift_int [a; b; cn; ct] 2 cn zn _ eq_refl T1).
    rewrite (lift_int [a; b; cn; ct] 3 ct zt _ eq_refl T2). unfold timesZ.
    replace (zn / 100) with (Z.of_nat (length names)) by (apply Z.div_unique with (r := zn - 100 * Z.of_nat (length names)); lia).
    replace (zt / 100) with (Z.of_nat (length texts)) by (apply Z.div_unique with (r := zt - 100 * Z.of_nat (length texts)); lia).
    rewrite !Nat2Z.id, <- app_assoc.
    destruct (names_step k names nls bs1 (bs2 ++ rest) g h (mkP (mkIn k (bs1 ++ bs2 ++ rest) false fr) g h) N1 N3 F1)
      as (s1 & E1 & R1); [repeat split|]. rewrite E1.
    destruct (strips_step k texts tls bs2 rest g h s1 N2 F2 R1) as (s2 & E2 & Q1 & Q2 & Q3 & Q4). rewrite E2.
    eexists _, _. split; [reflexivity|]. split; [unfold Jany; auto|]. rewrite Q4.
    repeat split; auto; apply HC.
  Qed.

  Lemma ok_gelmnt1 a elno eltyp ad e t n nod bs rest :
      trunc_is elno e -> trunc_is eltyp t -> In (t, n) node_count -> length nod = n ->
      enc_data k Lead8 nod bs ->
      body_ok Jany b_gelmnt1 k c "GELMNT1" (mkItem [a; elno; eltyp; ad] bs (mkEntry (nums [a; elno; eltyp; ad]) [nums nod]))
        rest (with_elem c e t).
  Proof.
    intros T1 T2 N L H. st H A. unfold b_gelmnt1, sbind.
    rewrite (lift_int [a; elno; eltyp; ad] 1 _ _ _ eq_refl T1), (lift_int [a; elno; eltyp; ad] 2 _ _ _ eq_refl T2).
    md A. rewrite (node_count_ok _ _ N). lr. rd A nod (@nil flt). fin2 A; now apply ctx_elem.
  Qed.

  Lemma refs_step f n l d2 pad rest g h s : ref_list f n l -> at_ k Lead8 (l ++ d2) pad rest g h s ->
    exists s', refs f (Z.of_nat n) s = Ok (l, s') /\ at_ k Lead8 d2 pad rest g h s'.
  Proof.
    intros [[H1 H2]|[H1 ->]] A; unfold refs; rewrite H1.
    - rd A l d2. eauto.
    - exists s. auto.
  Qed.
  Lemma ok_gelref1 elno a b d r2 geono fixno eccno transno e t n geo fix_ ecc trans b2 b3 bs rest :
      trunc_is elno e -> x_elem c e = Some t -> In (t, n) node_count ->
      length r2 = 4%nat ->
      ref_list geono n geo -> ref_list fixno n fix_ -> ref_list eccno n ecc -> ref_list transno n trans ->
      enc_cont k Lead8 r2 b2 -> enc_cont k Lead8 [geono; fixno; eccno; transno] b3 ->
      enc_data k Lead8 (geo ++ fix_ ++ ecc ++ trans) bs ->
      body_ok Jany b_gelref1 k c "GELREF1" (mkItem [elno; a; b; d] (b2 ++ b3 ++ bs)
        (mkEntry (nums ([elno; a; b; d] ++ r2 ++ [geono; fixno; eccno; transno]))
           [nums geo; nums fix_; nums ecc; nums trans])) rest c.
  Proof.
    intros T X N L2 R1 R2 R3 R4 C1 C2 H g h fr HC. cbn [i_fs i_bs i_entry e_row e_data]. unfold b_gelref1, sbind.
    destruct (fr_step k Lead8 r2 b2 (b3 ++ bs) rest g h (mkP (mkIn k ((b2 ++ b3 ++ bs) ++ rest) false fr) g h) 8 C1)
      as (fr1 & E1); auto; [now rewrite <- !app_assoc|]. rewrite E1.
    destruct (fr_step k Lead8 _ b3 bs rest g h (mkP (mkIn k ((b3 ++ bs) ++ rest) false fr1) g h) 8 C2)
      as (fr2 & E2); auto; [now rewrite <- !app_assoc|]. rewrite E2.
    destruct (at_start k Lead8 _ bs rest g h fr2 H) as (pad & A).
    set (s0 := mkP (mkIn k (bs ++ rest) false fr2) g h) in *; clearbody s0. ii. gt A.
    unfold dictZ. destruct HC as [HC1 ? ? ? ?]. rewrite (HC1 _ _ X). lr. rewrite (node_count_ok _ _ N). lr.
    gg. destruct (refs_step _ _ _ _ _ _ _ _ _ R1 A) as (s1 & G1 & A1). rewrite G1.
    gg. destruct (refs_step _ _ _ _ _ _ _ _ _ R2 A1) as (s2 & G2 & A2). rewrite G2.
    gg. destruct (refs_step _ _ _ _ _ _ _ _ _ R3 A2) as (s3 & G3 & A3). rewrite G3.
    rewrite <- (app_nil_r trans) in A3.
    gg. destruct (refs_step _ _ _ _ _ _ _ _ _ R4 A3) as (s4 & G4 & A4). rewrite G4.
    fin2 A4.
  Qed.

  Lemma ok_gsetmemb nf a b d e mem bs rest :
      count nf (5 + length mem) -> enc_data k Lead0 (e :: mem) bs ->
      body_ok Jany b_gsetmemb k c "GSETMEMB" (mkItem [nf; a; b; d] bs (mkEntry (nums [nf; a; b; d; e]) [nums mem])) rest c.
  Proof.
    intros T H. st H A. unfold b_gsetmemb, sbind. rd A [e] mem. ii. rd A mem (@nil flt). fin2 A; apply HC.
  Qed.
  Lemma ok_sconcept7 nf a ty d e np nj irp irj bs rest :
      trunc_is ty 7 -> count np (length irp) -> count nj (length irj) ->
      enc_data k Lead0 ([e; np; nj] ++ irp ++ irj) bs ->
      body_ok Jany b_sconcept k c "SCONCEPT" (mkItem [nf; a; ty; d] bs
        (mkEntry (nums [nf; a; ty; d; e; np; nj]) [nums irp; nums irj])) rest c.
  Proof.
    intros T T1 T2 H. st H A. unfold b_sconcept, sbind. rewrite (lift_int [nf; a; ty; d] 2 _ _ _ eq_refl T).
    rd A [e] ([np; nj] ++ irp ++ irj). change (7 =? 7) with true. cbv beta iota.
    rd A [np; nj] (irp ++ irj).
    rewrite (lift_int [np; nj] 0 _ _ _ eq_refl T1), (lift_int [np; nj] 1 _ _ _ eq_refl T2).
    rd A irp irj. rd A irj (@nil flt). fin2 A; apply HC.
  Qed.
  Lemma ok_sconcept2 nf a ty d e bs rest :
      trunc_is ty 2 -> enc_data k Lead0 [e] bs ->
      body_ok Jany b_sconcept k c "SCONCEPT" (mkItem [nf; a; ty; d] bs
        (mkEntry (nums [nf; a; ty; d; e; f0; f0]) [[]; []])) rest c.
  Proof.
    intros T H. st H A. unfold b_sconcept, sbind. ii. rd A [e] (@nil flt).
    change (2 =? 7) with false. change (2 =? 2) with true. cbv beta iota. fin2 A; apply HC.
  Qed.
  Lemma ok_sconmesh nf a nr d nfe fe bs rest :
      count nfe (length fe) -> enc_data k Lead0 (nfe :: fe) bs ->
      body_ok Jany b_sconmesh k c "SCONMESH" (mkItem [nf; a; nr; d] bs (mkEntry (nums [nf; a; nr; d; nfe]) [nums fe])) rest c.
  Proof.
    intros T H. st H A. unfold b_sconmesh, sbind. rd A [nfe] fe. ii. rd A fe (@nil flt). fin2 A; apply HC.
  Qed.
  Lemma ok_bnbcd node nd x y ndof more bs rest :
      count nd ndof -> length more = (ndof - 2)%nat -> enc_data k Lead8 more bs ->
      body_ok Jany b_bnbcd k c "BNBCD" (mkItem [node; nd; x; y] bs
        (mkEntry (nums [node; nd]) [nums (firstn ndof (x :: y :: more))])) rest c.
  Proof.
    intros T L H. st H A. unfold b_bnbcd, sbind. ii. destruct (Z.of_nat ndof <? 3) eqn:E.
    - assert (X : slice 2 (2 + Z.of_nat ndof) [node; nd; x; y] = firstn ndof (x :: y :: more) /\ more = []).
      { destruct ndof as [|[|[|n]]]; [| | |lia]; (destruct more; [|discriminate]); split; reflexivity. }
      destruct X as [-> ->]. fin2 A; apply HC.
    - rd A more (@nil flt).
      assert (X : firstn ndof (x :: y :: more) = x :: y :: more) by (apply firstn_all2; cbn [length]; lia).
      rewrite X. fin2 A; apply HC.
  Qed.
  Lemma bldep_lines : forall deps fill bs rest g h s, all_len 3 deps -> length fill = length deps ->
    enc_conts k Lead8 (map (fun x => fst x ++ snd x) (combine deps fill)) bs ->
    ready k (bs ++ rest) g h s ->
    exists s', times (length deps) (do l <- liftF (read_floatrec 8); sret (PT (pfs (slice_to 3 l)))) s
               = Ok (tuples deps, s') /\ ready k rest g h s'.
  Proof.
    induction deps as [|d deps IH]; intros fill bs rest g h s Hl Hf He R;
      (destruct fill as [|f fill]; try discriminate); cbn [combine map] in He.
    - inversion He; subst. exists s. split; [reflexivity|exact R].
    - inversion He; subst. inversion Hl as [|? ? L1 L2]; subst. cbn [length times fst snd] in *. unfold sbind.
      destruct R as (R1 & R2 & R3 & R4). rewrite <- app_assoc in R2.
      match goal with X : enc_cont _ _ _ ?b, Y : enc_conts _ _ _ ?b2 |- _ =>
        destruct (fr_step k Lead8 _ b b2 rest g h s 8 X R1 R2 R4 R3 eq_refl) as (fr & E);
        destruct (IH fill b2 rest g h (mkP (mkIn k (b2 ++ rest) false fr) g h) L2 ltac:(lia) Y) as (s' & E' & R');
        [repeat split|] end.
      rewrite E. unfold sbind in E'. unfold sret in *. rewrite E'. exists s'. split; [|exact R'].
      replace (slice_to 3 (d ++ f)) with d; [reflexivity|].
      replace 3 with (Zlen d) by (unfold Zlen; lia). now rewrite slice_to_app.
  Qed.
  Lemma ok_bldep fs a b d nd deps fill cs bs rest :
      fs = [a; b; d; nd] -> count nd (length deps) -> all_len 3 deps ->
      length fill = length deps -> cs = map (fun x => fst x ++ snd x) (combine deps fill) ->
      enc_conts k Lead8 cs bs ->
      body_ok Jany b_bldep k c "BLDEP" (mkItem fs bs (mkEntry (nums fs) [tuples deps])) rest c.
  Proof.
    intros -> T L1 L2 -> H g h fr HC. unfold count in *. cbn [i_fs i_bs i_entry e_row e_data].
    unfold b_bldep. unfold sbind at 1. ii. unfold sbind at 1. unfold timesZ. rewrite Nat2Z.id.
    destruct (bldep_lines deps fill bs rest g h (mkP (mkIn k (bs ++ rest) false fr) g h) L1 L2 H) as (s & E & F1 & F2 & F3 & F4);
      [repeat split|]. rewrite E.
    eexists _, _. split; [reflexivity|]. split; [unfold Jany; auto|]. rewrite F4.
    repeat split; auto; apply HC.
  Qed.
  Lemma ok_beuslo a b cplx d r1a nd r1b rl il b1 bs rest :
      count nd (length rl) -> length r1b = 2%nat ->
      (flt_eq cplx f0 = true /\ il = [] \/ flt_eq cplx f0 = false /\ length il = length rl) ->
      enc_cont k Lead8 (r1a :: nd :: r1b) b1 -> enc_data k Lead8 (rl ++ il) bs ->
      body_ok Jany b_beuslo k c "BEUSLO" (mkItem [a; b; cplx; d] (b1 ++ bs)
        (mkEntry (nums ([a; b; cplx; d] ++ r1a :: nd :: r1b)) [nums rl; nums il])) rest c.
  Proof.
    intros T L X C1 H g h fr HC. unfold count in *. cbn [i_fs i_bs i_entry e_row e_data]. unfold b_beuslo, sbind.
    destruct (fr_step k Lead8 _ b1 bs rest g h (mkP (mkIn k ((b1 ++ bs) ++ rest) false fr) g h) 8 C1)
      as (fr1 & E1); auto; [now rewrite <- !app_assoc|]. rewrite E1.
    destruct (at_start k Lead8 _ bs rest g h fr1 H) as (pad & A).
    set (s0 := mkP (mkIn k (bs ++ rest) false fr1) g h) in *; clearbody s0. ii.
    rd A rl il. gg. rewrite truthy_eq. destruct X as [[-> ->]|[-> X]]; cbn [negb].
    - fin2 A; apply HC.
    - rd A il (@nil flt). fin2 A; apply HC.
  Qed.
  Lemma ok_brigac a b cplx d r1 im im' bs rest :
      length r1 = 10%nat -> length im' = 6%nat ->
      (flt_eq cplx f0 = true /\ im = [] /\ im' = repeat f0 6 \/ flt_eq cplx f0 = false /\ im' = im) ->
      enc_data k Lead8 (r1 ++ im) bs ->
      body_ok Jany b_brigac k c "BRIGAC" (mkItem [a; b; cplx; d] bs (mkEntry (nums ([a; b; cplx; d] ++ r1 ++ im')) [])) rest c.
  Proof.
    intros L1 L2 X H. st H A. unfold b_brigac, sbind. rd A r1 im. gg. rewrite truthy_eq.
    destruct X as [(-> & -> & ->)|[-> ->]]; cbn [negb].
    - fin2 A; apply HC.
    - rd A im (@nil flt). fin2 A; apply HC.
  Qed.
  Lemma ok_compdef n rv nf ir lr x z more bs rest :
      In (n, rv) comp_types -> trunc_is ir z -> count lr (1 + length more) -> enc_data k Lead0 more bs ->
      body_ok Jany b_compdef k c n (mkItem [nf; ir; lr; x] bs (mkEntry (nums [nf; ir; lr]) [nums (x :: more)])) rest
        (with_lenrec c (rv, z) (1 + Z.of_nat (length more))).
  Proof.
    intros N T1 T2 H. st H A. unfold b_compdef, sbind.
    rewrite (lift_int [nf; ir; lr; x] 2 _ _ _ eq_refl T2), (lift_int [nf; ir; lr; x] 1 _ _ _ eq_refl T1).
    md A. replace ("RV" ++ substring 2 (String.length n - 2) n)%string with rv in A.
    2:{ cbn in N. repeat (destruct N as [N|N]; [injection N as <- <-; reflexivity|]). contradiction. }
    rd A more (@nil flt). fin2 A. all: replace (1 + Z.of_nat (length more)) with (Z.of_nat (1 + length more)) by lia;
    now apply ctx_lenrec.
  Qed.

  Lemma ok_rdresref nf ires a b d ic nt ires' ic' gs bs rest :
      trunc_is ires ires' -> trunc_is ic ic' -> count nt (length gs) -> all_len 3 gs ->
      enc_data k Lead0 ([d; ic; nt] ++ concat gs) bs ->
      body_ok Jany b_rdresref k c "RDRESREF" (mkItem [nf; ires; a; b] bs
        (mkEntry (nums [nf; ires; a; b; d; ic; nt]) [tuples gs])) rest (with_compl c ires' ic').
  Proof.
    intros T1 T2 T3 L H. st H A. unfold b_rdresref, sbind. rd A [d; ic; nt] (concat gs). cbv zeta.
    rewrite (lift_int ([nf; ires; a; b] ++ [d; ic; nt]) 1 _ _ _ eq_refl T1),
      (lift_int ([nf; ires; a; b] ++ [d; ic; nt]) 5 _ _ _ eq_refl T2),
      (lift_int ([nf; ires; a; b] ++ [d; ic; nt]) 6 _ _ _ eq_refl T3).
    md A. unfold groups. tms A gs (@nil flt) 3%nat. fin2 A; now apply ctx_compl.
  Qed.
  Lemma ok_combi n a b d ng gs bs rest :
      count ng (length gs) -> all_len 3 gs -> enc_data k Lead0 (concat gs) bs ->
      body_ok Jany b_groups3 k c n (mkItem [a; b; d; ng] bs (mkEntry (nums [a; b; d; ng]) [tuples gs])) rest c.
  Proof.
    intros T L H. st H A. unfold b_groups3, groups. unfold sbind at 1. ii. unfold sbind at 1.
    tms A gs (@nil flt) 3%nat. fin2 A; apply HC.
  Qed.
  Lemma ok_nodres n nf ires a b d ires' res bs rest :
      count nf (5 + length res) -> trunc_is ires ires' -> x_compl c ires' = Some 0 ->
      enc_data k Lead0 (d :: res) bs ->
      body_ok Jany b_rvnodres k c n (mkItem [nf; ires; a; b] bs (mkEntry (nums [nf; ires; a; b; d]) [nums res])) rest c.
  Proof.
    intros T1 T2 X H. st H A. unfold b_rvnodres, sbind. rd A [d] res. cbv zeta.
    rewrite (lift_int ([nf; ires; a; b] ++ [d]) 0 _ _ _ eq_refl T1), (lift_int ([nf; ires; a; b] ++ [d]) 1 _ _ _ eq_refl T2).
    gt A. unfold dictZ. rewrite (co_compl _ _ HC), X. lr. change (0 + 1 =? 0) with false. cbv beta iota.
    change (0 + 1) with 1. rewrite Z.div_1_r.
    rd A res (@nil flt). fin2 A; apply HC.
  Qed.
  Lemma ok_elmres n nf ires el alt ir ires' el' alt' ir' nsp lr ic res bs rest :
      trunc_is ires ires' -> trunc_is el el' -> trunc_is alt alt' -> trunc_is ir ir' ->
      x_nsp c (alt', el') = Some nsp -> x_lenrec c (n, ir') = Some lr -> x_compl c ires' = Some ic ->
      Z.of_nat (length res) = nsp * lr * (ic + 1) ->
      enc_data k Lead0 (ir :: res) bs ->
      body_ok Jany b_rvelmres k c n (mkItem [nf; ires; el; alt] bs (mkEntry (nums [nf; ires; el; alt; ir]) [nums res])) rest c.
  Proof.
    intros T1 T2 T3 T4 X1 X2 X3 L H. st H A. unfold b_rvelmres, sbind. rd A [ir] res. cbv zeta.
    rewrite (lift_int ([nf; ires; el; alt] ++ [ir]) 1 _ _ _ eq_refl T1),
      (lift_int ([nf; ires; el; alt] ++ [ir]) 2 _ _ _ eq_refl T2),
      (lift_int ([nf; ires; el; alt] ++ [ir]) 3 _ _ _ eq_refl T3),
      (lift_int ([nf; ires; el; alt] ++ [ir]) 4 _ _ _ eq_refl T4).
    gt A. rewrite (co_nsp _ _ HC), X1. unfold sret at 1. rewrite (co_lenrec _ _ HC), X2. unfold sret at 1.
    unfold dictZ. rewrite (co_compl _ _ HC), X3. lr.
    rd A res (@nil flt). fin2 A; apply HC.
  Qed.
  Lemma ok_wglobdef a b d idep z depth bs rest :
      trunc_is idep z -> z <> 0 -> enc_data k Lead0 [depth] bs ->
      body_ok Jany b_wglobdef k c "WGLOBDEF" (mkItem [a; b; d; idep] bs (mkEntry (nums [a; b; d; idep; depth]) [])) rest c.
  Proof.
    intros T Z0 H. st H A. unfold b_wglobdef, sbind. ii. replace (z =? 0) with false by lia.
    rd A [depth] (@nil flt). fin2 A; apply HC.
  Qed.
  Lemma ok_wglobdef0 a b d idep rest :
      trunc_is idep 0 ->
      body_ok Jany b_wglobdef k c "WGLOBDEF" (mkItem [a; b; d; idep] [] (mkEntry (nums [a; b; d; idep; f1]) [])) rest c.
  Proof.
    intros T g h fr HC. cbn [i_fs i_bs i_entry e_row e_data app]. unfold b_wglobdef, sbind. ii.
    eexists _, _. split; [reflexivity|]. split; [unfold Jany; auto|]. repeat split; apply HC.
  Qed.
  Lemma ok_wbody fs r1 t bs rest :
      length fs = 4%nat -> length r1 = 12%nat -> matrix 4 4 t -> enc_data k Lead0 (r1 ++ concat t) bs ->
      body_ok Jany b_wbody k c "WBODY" (mkItem fs bs (mkEntry (nums (fs ++ r1) ++ [PT (tuples t)]) [])) rest c.
  Proof.
    intros L1 L2 M H. st H A. unfold b_wbody, sbind. pose proof (matrix_length _ _ _ M).
    rd A r1 (concat t). rd A (concat t) (@nil flt). rewrite (rows_of_matrix 3 4 _ M). fin2 A; apply HC.
  Qed.
  Lemma ok_w1matrix fs r1 t bs rest :
      length fs = 4%nat -> length r1 = 2%nat -> matrix 6 6 t -> enc_data k Lead0 (r1 ++ concat t) bs ->
      body_ok Jany b_w1matrix k c "W1MATRIX" (mkItem fs bs (mkEntry (nums (fs ++ r1) ++ [PT (tuples t)]) [])) rest c.
  Proof.
    intros L1 L2 M H. st H A. unfold b_w1matrix, sbind. pose proof (matrix_length _ _ _ M).
    rd A r1 (concat t). rd A (concat t) (@nil flt). rewrite (rows_of_matrix 5 6 _ M). fin2 A; apply HC.
  Qed.
  Lemma ok_six_real n a b d ic v bs rest :
      trunc_is ic 0 -> length v = 6%nat -> enc_data k Lead0 v bs ->
      body_ok Jany b_wcommon1 k c n (mkItem [a; b; d; ic] bs (mkEntry (nums [a; b; d; ic] ++ [PT (nums v)]) [])) rest c.
  Proof.
    intros T L H. st H A. unfold b_wcommon1, sbind. ii. change (0 =? 0) with true. cbv beta iota.
    rd A v (@nil flt). fin2 A; apply HC.
  Qed.
  Lemma ok_six_complex n a b d ic z v bs rest :
      trunc_is ic z -> z <> 0 -> length v = 6%nat -> enc_data k Lead0 (parts v) bs ->
      body_ok Jany b_wcommon1 k c n (mkItem [a; b; d; ic] bs (mkEntry (nums [a; b; d; ic] ++ [PT (complexes v)]) [])) rest c.
  Proof.
    intros T Z0 L H. st H A. unfold b_wcommon1, sbind. ii. replace (z =? 0) with false by lia.
    pose proof (parts_length v).
    rd A (parts v) (@nil flt). rewrite pairs_parts. fin2 A; apply HC.
  Qed.
  Lemma ok_w1sforce_real a b d e ic v bs rest :
      trunc_is ic 0 -> length v = 6%nat -> enc_data k Lead0 (ic :: v) bs ->
      body_ok Jany b_w1sforce k c "W1SFORCE" (mkItem [a; b; d; e] bs (mkEntry (nums [a; b; d; e; ic] ++ [PT (nums v)]) [])) rest c.
  Proof.
    intros T L H. st H A. unfold b_w1sforce, sbind. rd A [ic] v. ii. change (0 =? 0) with true. cbv beta iota.
    rd A v (@nil flt). fin2 A; apply HC.
  Qed.
  Lemma ok_w1sforce_complex a b d e ic z v bs rest :
      trunc_is ic z -> z <> 0 -> length v = 6%nat -> enc_data k Lead0 (ic :: parts v) bs ->
      body_ok Jany b_w1sforce k c "W1SFORCE" (mkItem [a; b; d; e] bs (mkEntry (nums [a; b; d; e; ic] ++ [PT (complexes v)]) [])) rest c.
  Proof.
    intros T Z0 L H. st H A. unfold b_w1sforce, sbind. rd A [ic] (parts v). ii. replace (z =? 0) with false by lia.
    pose proof (parts_length v).
    rd A (parts v) (@nil flt). rewrite pairs_parts. fin2 A; apply HC.
  Qed.
  Lemma ok_drift n m a b d x v bs rest :
      length v = m -> enc_data k Lead0 v bs ->
      body_ok Jany (b_drift (Z.of_nat m)) k c n (mkItem [a; b; d; x] bs (mkEntry (nums [a; b; d] ++ [PT (nums (x :: v))]) [])) rest c.
  Proof.
    intros L H. st H A. unfold b_drift, sbind. rd A v (@nil flt). fin2 A; apply HC.
  Qed.
  Lemma ok_wfkpoint a b x y z bs rest :
      enc_data k Lead0 [z] bs ->
      body_ok Jany b_wfkpoint k c "WFKPOINT" (mkItem [a; b; x; y] bs (mkEntry (nums [a; b] ++ [PT (nums [x; y; z])]) [])) rest c.
  Proof.
    intros H. st H A. unfold b_wfkpoint, sbind. rd A [z] (@nil flt). fin2 A; apply HC.
  Qed.
  Lemma ok_wfluidkn_real a b d ic p v bs rest :
      trunc_is ic 0 -> length v = 3%nat -> enc_data k Lead0 (p :: v) bs ->
      body_ok Jany b_wfluidkn k c "WFLUIDKN" (mkItem [a; b; d; ic] bs
        (mkEntry (nums [a; b; d; ic; p] ++ [PT (nums v)]) [])) rest c.
  Proof.
    intros T L H. st H A. unfold b_wfluidkn, sbind. ii. change (0 =? 0) with true. cbv beta iota.
    rd A [p] v. rd A v (@nil flt). fin2 A; apply HC.
  Qed.
  Lemma ok_wfluidkn_complex a b d ic z p v bs rest :
      trunc_is ic z -> z <> 0 -> length v = 3%nat -> enc_data k Lead0 (parts (p :: v)) bs ->
      body_ok Jany b_wfluidkn k c "WFLUIDKN" (mkItem [a; b; d; ic] bs
        (mkEntry (nums [a; b; d; ic] ++ [PC (fst p) (snd p); PT (complexes v)]) [])) rest c.
  Proof.
    intros T Z0 L H. st H A. unfold b_wfluidkn, sbind. ii. replace (z =? 0) with false by lia.
    pose proof (parts_length v).
    rd A [fst p; snd p] (parts v). gg. gg. rd A (parts v) (@nil flt). rewrite pairs_parts. fin2 A; apply HC.
  Qed.
  Lemma ok_wsection a b d e usr p1 p2 p3 bs rest :
      length p1 = 3%nat -> length p2 = 3%nat -> length p3 = 3%nat ->
      enc_data k Lead0 (usr :: p1 ++ p2 ++ p3) bs ->
      body_ok Jany b_wsection k c "WSECTION" (mkItem [a; b; d; e] bs
        (mkEntry (nums [a; b; d; e; usr] ++ [PT (nums p1); PT (nums p2); PT (nums p3)]) [])) rest c.
  Proof.
    intros L1 L2 L3 H. st H A. unfold b_wsection, sbind.
    rd A (usr :: p1 ++ p2 ++ p3) (@nil flt). { unfold Zlen. cbn [length]. rewrite !app_length. lia. }
    destruct p1 as [|x1 [|x2 [|x3 [|]]]]; try discriminate. destruct p2 as [|y1 [|y2 [|y3 [|]]]]; try discriminate.
    destruct p3 as [|z1 [|z2 [|z3 [|]]]]; try discriminate. cbv zeta.
    fin2 A; apply HC.
  Qed.
  Lemma ok_winput a b x y rows v bs rest :
      matrix 4 4 rows -> concat rows = x :: y :: v -> enc_data k Lead0 v bs ->
      body_ok Jany b_winput k c "WINPUT" (mkItem [a; b; x; y] bs (mkEntry (nums [a; b] ++ [PT (tuples rows)]) [])) rest c.
  Proof.
    intros M E H. st H A. unfold b_winput, sbind. pose proof (matrix_length _ _ _ M) as L. rewrite E in L.
    rd A v (@nil flt). change (slice_from 2 [a; b; x; y] ++ v) with (x :: y :: v). rewrite <- E.
    rewrite (rows_of_matrix 3 4 _ M). fin2 A; apply HC.
  Qed.
  Lemma ok_w1panpre_real fs a ic p i j bs rest :
      length fs = 4%nat -> trunc_is ic 0 -> enc_data k Lead0 [a; ic; p; i; j] bs ->
      body_ok Jany b_w1panpre k c "W1PANPRE" (mkItem fs bs (mkEntry (nums (fs ++ [a; ic]) ++ [PC p f0; PF i; PF j]) [])) rest c.
  Proof.
    intros L T H. st H A. unfold b_w1panpre, sbind. rd A [a; ic] [p; i; j]. ii. change (0 =? 0) with true. cbv beta iota.
    rd A [p] [i; j]. gg. unfold sret at 1. rd A [i; j] (@nil flt). fin2 A; apply HC.
  Qed.
  Lemma ok_w1panpre_complex fs a ic z p q i j bs rest :
      length fs = 4%nat -> trunc_is ic z -> z <> 0 -> enc_data k Lead0 [a; ic; p; q; i; j] bs ->
      body_ok Jany b_w1panpre k c "W1PANPRE" (mkItem fs bs (mkEntry (nums (fs ++ [a; ic]) ++ [PC p q; PF i; PF j]) [])) rest c.
  Proof.
    intros L T Z0 H. st H A. unfold b_w1panpre, sbind. rd A [a; ic] [p; q; i; j]. ii. replace (z =? 0) with false by lia.
    rd A [p; q] [i; j]. gg. gg. unfold sret at 1. rd A [i; j] (@nil flt). fin2 A; apply HC.
  Qed.

  (** *** RDPOINTS, RDIELCOR *)
  Lemma points_step : forall (pts : list point) d2 pad rest g h s, Forall point_ok pts ->
    at_ k Lead0 (flat_map point_nums pts ++ d2) pad rest g h s ->
    exists s', read_points (length pts) s = Ok (flat_map point_data pts, s') /\ at_ k Lead0 d2 pad rest g h s'.
  Proof.
    induction pts as [|[ip xyz] pts IH]; intros d2 pad rest g h s Hp A.
    - exists s. auto.
    - inversion Hp as [|? ? P1 P2]; subst. cbn [length read_points flat_map] in *. unfold sbind.
      change (point_nums (ip, xyz)) with (ip :: xyz) in A. cbn [app] in A. rewrite <- app_assoc in A.
      rd A [ip] (xyz ++ flat_map point_nums pts ++ d2).
      gg. destruct P1 as [[P1 L]|[P1 L]]; cbn [fst snd] in P1, L; rewrite P1.
      + rd A xyz (flat_map point_nums pts ++ d2). unfold sret at 1.
        destruct (IH _ _ _ _ _ _ P2 A) as (s' & E & A'). rewrite E. exists s'. split; [|exact A'].
        unfold sret, point_data. cbn [fst snd point_nums]. destruct xyz; [discriminate|]. reflexivity.
      + subst xyz. unfold sret at 1. destruct (IH _ _ _ _ _ _ P2 A) as (s' & E & A'). rewrite E. exists s'. split; [|exact A'].
        unfold sret, point_data. cbn [fst snd]. reflexivity.
  Qed.
  Lemma at_mats w m : forall xfs d2 pad rest g h s, Forall (matrix (S w) m) xfs ->
    at_ k Lead0 (concat (map (@concat flt) xfs) ++ d2) pad rest g h s ->
    exists s', times (length xfs) (do t <- rfloats (Z.of_nat (S w * m)) 0; sret (PT (rows_of (S w) m t))) s
      = Ok (map (fun m => PT (tuples m)) xfs, s') /\ at_ k Lead0 d2 pad rest g h s'.
  Proof.
    intros xfs d2 pad rest g h s H A.
    destruct (at_times k Lead0 (S w * m) (fun t => PT (rows_of (S w) m t)) 0 eq_refl (map (@concat flt) xfs) d2 pad rest g h s)
      as (s' & E & A').
    - unfold all_len. rewrite Forall_map. eapply Forall_impl; [|exact H]. intros x Hx. now apply matrix_length.
    - exact A.
    - rewrite map_length in E. exists s'. split; [|exact A']. rewrite E. f_equal. f_equal. rewrite map_map.
      apply map_ext_in. intros x Hx. rewrite Forall_forall in H. now rewrite rows_of_matrix by auto.
  Qed.
  Lemma ok_rdpoints nf alt el cr e nsp ijk nst nl alt' el' cr' nsp' nl' nok noj noi (pts : list point) xfs bs rest :
      trunc_is alt alt' -> trunc_is el el' -> trunc_is cr cr' -> trunc_is nsp nsp' -> trunc_is nl nl' ->
      (noj < 100)%nat -> (noi < 100)%nat ->
      trunc_is ijk (10000 * Z.of_nat nok + 100 * Z.of_nat noj + Z.of_nat noi) ->
      length pts = (nok * noj * noi)%nat -> Forall point_ok pts ->
      count nst (length xfs) -> Forall (matrix 3 3) xfs ->
      enc_data k Lead0 ([e; nsp; ijk; nst; nl] ++ flat_map point_nums pts ++ concat (map (@concat flt) xfs)) bs ->
      body_ok Jany b_rdpoints k c "RDPOINTS" (mkItem [nf; alt; el; cr] bs
        (mkEntry (nums [nf; alt; el; cr; e; nsp; ijk; nst; nl])
           [flat_map point_data pts; map (fun m => PT (tuples m)) xfs])) rest
        (with_points c cr' (nl', Z.of_nat nok, Z.of_nat noj, Z.of_nat noi) (alt', el') nsp').
  Proof.
    intros T1 T2 T3 T4 T5 B1 B2 T6 L1 P T7 M H. st H A. unfold b_rdpoints. unfold sbind at 1.
    rd A [e; nsp; ijk; nst; nl] (flat_map point_nums pts ++ concat (map (@concat flt) xfs)). cbv zeta.
    set (rec := [nf; alt; el; cr] ++ [e; nsp; ijk; nst; nl]).
    do 7 (unfold sbind at 1). 
    rewrite (lift_int rec 1 _ _ _ eq_refl T1), (lift_int rec 2 _ _ _ eq_refl T2), (lift_int rec 3 _ _ _ eq_refl T3),
      (lift_int rec 5 _ _ _ eq_refl T4), (lift_int rec 6 _ _ _ eq_refl T6), (lift_int rec 7 _ _ _ eq_refl T7),
      (lift_int rec 8 _ _ _ eq_refl T5).
    set (z := 10000 * Z.of_nat nok + 100 * Z.of_nat noj + Z.of_nat noi).
    assert (Q1 : z / 10000 = Z.of_nat nok)
      by (symmetry; apply Z.div_unique with (r := 100 * Z.of_nat noj + Z.of_nat noi); subst z; lia).
    assert (Q2 : z mod 10000 = 100 * Z.of_nat noj + Z.of_nat noi)
      by (symmetry; apply Z.mod_unique with (q := Z.of_nat nok); subst z; lia).
    assert (Q3 : (100 * Z.of_nat noj + Z.of_nat noi) / 100 = Z.of_nat noj)
      by (symmetry; apply Z.div_unique with (r := Z.of_nat noi); lia).
    assert (Q4 : z mod 100 = Z.of_nat noi)
      by (symmetry; apply Z.mod_unique with (q := 100 * Z.of_nat nok + Z.of_nat noj); subst z; lia).
    rewrite Q1, Q2, Q3, Q4, !Nat2Z.id, <- L1. do 2 (unfold sbind at 1). md A.
    destruct (points_step _ _ _ _ _ _ _ P A) as (s2 & E2 & A2). rewrite E2.
    rewrite <- (app_nil_r (concat (map _ xfs))) in A2.
    destruct (at_mats 2 3 _ _ _ _ _ _ _ M A2) as (s3 & E3 & A3). unfold timesZ. rewrite Nat2Z.id.
    unfold sbind at 1. change (Z.of_nat (3 * 3)) with 9 in E3. rewrite E3.
    fin2 A3; now apply ctx_points.
  Qed.

  Lemma ok_rdielcor nf cr ig g1 cr' nlay nok noj noi gs be al la bs rest :
      trunc_is cr cr' ->
      grid_of c cr' (Z.of_nat nlay, Z.of_nat nok, Z.of_nat noj, Z.of_nat noi) ->
      length gs = (nok - 1)%nat -> length be = noj -> length al = noi -> matrix nlay 2 la ->
      enc_data k Lead0 (gs ++ be ++ al ++ concat la) bs ->
      body_ok Jany b_rdielcor k c "RDIELCOR" (mkItem [nf; cr; ig; g1] bs
        (mkEntry (nums [nf; cr; ig]) [nums (firstn nok (g1 :: gs)); nums be; nums al; tuples la])) rest c.
  Proof.
    intros T G L1 L2 L3 [L4 M] H. st H A. unfold b_rdielcor. unfold sbind at 1. ii. unfold sbind at 1. gt A.
    unfold sbind at 1.
    match goal with |- context [match ?r with Ok _ => _ | Err _ => _ end] =>
      assert (X : r = Ok ((Z.of_nat nlay, Z.of_nat nok, Z.of_nat noj, Z.of_nat noi), s0)) end.
    { rewrite (co_points _ _ HC). destruct G as [->|[-> [[-> G]|[-> G]]]]; [reflexivity|rewrite G; reflexivity|rewrite G; reflexivity]. }
    rewrite X. clear X. unfold sbind at 1. md A.
    unfold sbind at 1.
    match goal with |- context [match ?r with Ok _ => _ | Err _ => _ end] =>
      assert (X : exists s', r = Ok (firstn nok (g1 :: gs), s') /\
        at_ k Lead0 (be ++ al ++ concat la) pad rest (set_ielcor (Some (Z.of_nat nlay, Z.of_nat nok, Z.of_nat noj, Z.of_nat noi)) g) h s') end.
    { destruct (Z.of_nat nok =? 1) eqn:E1.
      - assert (nok = 1%nat) as -> by lia. destruct gs; [|discriminate]. exists s. split; [reflexivity|exact A].
      - destruct (1 <? Z.of_nat nok) eqn:E2.
        + unfold sbind. rd A gs (be ++ al ++ concat la). eexists. split; [|exact A].
          unfold sret. f_equal. f_equal. rewrite firstn_all2 by (cbn [length]; lia). reflexivity.
        + assert (nok = 0%nat) as -> by lia. destruct gs; [|discriminate]. exists s. split; [reflexivity|exact A]. }
    destruct X as (s2 & E2 & A2). rewrite E2. unfold sbind at 1. rd A2 be (al ++ concat la).
    unfold sbind at 1. rd A2 al (concat la). unfold sbind at 1.
    tms A2 la (@nil flt) 2%nat.
    fin2 A2; now apply ctx_ielcor.
  Qed.

  (** *** Records of fixed and optional fields *)
  Lemma fit_spec n l : fit n l = firstn n (l ++ repeat f0 n).
  Proof.
    unfold fit. destruct (length l <? n)%nat eqn:E.
    - rewrite firstn_app. rewrite firstn_all2 by lia. f_equal.
      assert (R : forall m n, (m <= n)%nat -> firstn m (repeat f0 n) = repeat f0 m).
      { induction m; intros [|x] Hx; cbn; auto; [lia|]. f_equal. apply IHm. lia. }
      symmetry. apply R. lia.
    - rewrite firstn_app. replace (n - length l)%nat with 0%nat by lia. cbn. now rewrite app_nil_r.
  Qed.
  Lemma ok_fixed n nc ld fs more bs rest :
      length more = (nc - 4)%nat -> enc_data k ld more bs ->
      body_ok Jany (b_standard nc (lead_n ld)) k c n
        (mkItem fs bs (mkEntry (nums (firstn nc (fs ++ more ++ repeat f0 nc))) [])) rest c.
  Proof.
    intros L H. st H A. unfold b_standard, sbind. destruct (4 <? nc)%nat eqn:E.
    - rd A more (@nil flt). rewrite fit_spec, <- app_assoc. fin2 A; apply HC.
    - assert (more = []) as -> by (destruct more; [reflexivity|cbn in L; lia]). unfold sret at 1.
      rewrite fit_spec, app_nil_r. cbn [app]. fin2 A; apply HC.
  Qed.

  Lemma read_floatrec_hr sk s l s' : read_floatrec sk s = Ok (l, s') -> f_hasrest s' = false.
  Proof.
    unfold read_floatrec, sbind. intro H.
    destruct (read_stringrec s) as [[p s1]|] eqn:E; [|discriminate].
    assert (F : f_hasrest s1 = false).
    { unfold read_stringrec in E. destruct (f_kind s).
      - destruct (f_rest s); [discriminate|]. now injection E as _ <-.
      - destruct (readline (f_rest s)). now injection E as _ <-. }
    unfold slift, sret in H. destruct (f_kind s); (destruct (tofloatrec _ _) as [v|]; [|discriminate]; injection H as _ <-; exact F).
  Qed.
  Lemma read_until_hr fuel : forall need sk s l s', read_until fuel need sk s = Ok (l, s') ->
    f_hasrest s = false -> f_hasrest s' = false.
  Proof.
    induction fuel; intros need sk s l s' H Hs; cbn [read_until] in H; (destruct (need <=? 0); [injection H as _ <-; exact Hs|]).
    - discriminate.
    - unfold sbind in H. destruct (read_floatrec sk s) as [[a s1]|] eqn:E; [|discriminate].
      destruct (read_until fuel _ sk s1) as [[b s2]|] eqn:E2; [|discriminate]. injection H as _ <-.
      apply IHfuel in E2; auto. eapply read_floatrec_hr; eauto.
  Qed.
  Lemma read_lines_hr n : forall sk s l s', read_lines n sk s = Ok (l, s') ->
    f_hasrest s = false -> f_hasrest s' = false.
  Proof.
    induction n; intros sk s l s' H Hs; cbn [read_lines] in H.
    - injection H as _ <-. exact Hs.
    - unfold sbind in H. destruct (read_floatrec sk s) as [[a s1]|] eqn:E; [|discriminate].
      destruct (read_lines n sk s1) as [[b s2]|] eqn:E2; [|discriminate]. injection H as _ <-.
      apply IHn in E2; auto. eapply read_floatrec_hr; eauto.
  Qed.
  Lemma read_floats_hr n sk s l s' : read_floats n sk s = Ok (l, s') -> f_hasrest s = false ->
    f_hasrest s' = true -> f_floatrest s' <> [].
  Proof.
    unfold read_floats. intros H Hs. destruct (n =? 0); [injection H as _ <-; congruence|].
    rewrite Hs in H. cbv zeta in H.
    destruct (0 <? n - Zlen []).
    - unfold sbind in H.
      destruct (f_kind s).
      + destruct (read_until _ _ _ s) as [[fl s1]|] eqn:E; [|discriminate]. apply read_until_hr in E; [|exact Hs].
        unfold sret in H. injection H as _ <-. cbn [f_hasrest f_floatrest]. match goal with |- context [slice_from n ?x] => destruct (slice_from n x) end; congruence.
      + destruct (read_lines _ _ s) as [[fl s1]|] eqn:E; [|discriminate]. apply read_lines_hr in E; [|exact Hs].
        unfold sret in H. injection H as _ <-. cbn [f_hasrest f_floatrest]. match goal with |- context [slice_from n ?x] => destruct (slice_from n x) end; congruence.
    - injection H as _ <-. cbn [f_hasrest f_floatrest]. destruct (slice_from n []); congruence.
  Qed.
  Lemma rf_hr n sk s l s' : rfloats n sk s = Ok (l, s') -> f_hasrest (p_in s) = false ->
    f_hasrest (p_in s') = true -> f_floatrest (p_in s') <> [].
  Proof.
    unfold rfloats, liftF. destruct (read_floats n sk (p_in s)) as [[a i]|] eqn:E; [|discriminate].
    intro H. injection H as _ <-. cbn. eapply read_floats_hr; eauto.
  Qed.

  (** After all numbers with no padding, the header of a known record is seen. *)
  Lemma see_header m mfs hb tl s : enc_header k m mfs hb -> In m (allowed k) ->
    f_kind s = k -> f_rest s = hb ++ tl -> f_hasrest s = false -> at_headerrec s = Ok (true, s).
  Proof.
    intros [n nb fs fb bs Hn Hf Hfr] Hi Hk Hr Hh. unfold at_headerrec. rewrite Hk, Hr, Hh. cbn [negb andb].
    pose proof (name8_length _ _ Hn) as Hl. destruct (name8_strip _ _ Hn) as [S1 S2].
    assert (X : l2s (match k with Unf => strip is_space_b (skipn 1 (firstn 9 (bs ++ tl)))
                     | Fmt => strip is_space_s (firstn 8 (bs ++ tl)) end) = n).
    { inversion Hfr; subst.
      - match goal with |- context [firstn 9 ((?x :: ?l) ++ tl)] =>
          change (skipn 1 (firstn 9 ((x :: l) ++ tl))) with (firstn 8 (l ++ tl)) end. rewrite <- !app_assoc, firstn_app_exact by exact Hl. rewrite S2. apply l2s_s2l.
      - rewrite <- !app_assoc, firstn_app_exact by exact Hl. rewrite S1. apply l2s_s2l. }
    rewrite X. replace (str_in n (allowed k)) with true; [reflexivity|]. symmetry. now apply str_in_spec.
  Qed.
  (** With numbers left, it is not. *)
  Lemma see_data s data pad rest : reading k Lead8 s data pad rest -> data <> [] -> 
    at_headerrec s = Ok (false, s).
  Proof.
    intros (cs & bs & Hk & Hr & He & Hl & Hd & Hp) Hne. unfold at_headerrec. rewrite Hk.
    destruct (f_hasrest s); [reflexivity|]. cbn [negb andb app] in *.
    destruct He as [|c0 cs b bs Hc Hcs]; [exfalso; cbn in Hd; symmetry in Hd; apply app_eq_nil in Hd; tauto|].
    destruct Hc as [fs fb b Hf Hfr].
    assert (X : l2s (match k with Unf => strip is_space_b (skipn 1 (firstn 9 (f_rest s)))
                     | Fmt => strip is_space_s (firstn 8 (f_rest s)) end) = "").
    { rewrite Hr. inversion Hfr; subst; cbn [lead_of lead_n] in *; reflexivity. }
    rewrite X. destruct k; vm_compute; reflexivity.
  Qed.

  Lemma ok_section_with n nc no fs more bs rest :
      (0 < no)%nat -> (4 + no <= nc)%nat -> length fs = 4%nat -> length more = (nc - 4)%nat ->
      enc_data k Lead8 more bs ->
      body_ok Jany (b_optional nc 8 no) k c n (mkItem fs bs (mkEntry (nums (fs ++ more)) [])) rest c.
  Proof.
    intros Hno Hno2 Lf L H.
    set (m1 := firstn (nc - 4 - no) more). set (m2 := skipn (nc - 4 - no) more).
    assert (E : more = m1 ++ m2) by (symmetry; apply firstn_skipn).
    assert (L1 : length m1 = (nc - 4 - no)%nat) by (unfold m1; rewrite firstn_length; lia).
    assert (L2 : length m2 = no) by (unfold m2; rewrite skipn_length; lia).
    clearbody m1 m2. subst more. st H A. unfold b_optional. unfold sbind at 1. rd A m1 m2.
    unfold sbind at 1. unfold liftF at 1. rewrite (see_data _ _ _ _ (at_in _ _ _ _ _ _ _ _ A)) by (destruct m2; [cbn in L2; lia|discriminate]).
    set (s1 := mkP (p_in s) (p_g s) (p_out s)).
    assert (A1 : at_ k Lead8 m2 pad rest g h s1) by (destruct A; split; auto). clearbody s1.
    unfold sbind at 1. rd A1 m2 (@nil flt).
    rewrite fit_spec, firstn_app, firstn_all2 by (rewrite !app_length in *; lia).
    replace (nc - _)%nat with 0%nat by (rewrite !app_length in *; lia). cbn [firstn]. rewrite app_nil_r.
    fin2 A1; apply HC.
  Qed.
  Lemma ok_section_without n nc no fs more bs cs m mfs hb tl :
      (4 + no <= nc)%nat -> length fs = 4%nat -> length more = (nc - 4 - no)%nat ->
      cut_of k more [] cs -> enc_conts k Lead8 cs bs ->
      enc_header k m mfs hb -> In m (allowed k) ->
      body_ok Jany (b_optional nc 8 no) k c n
        (mkItem fs bs (mkEntry (nums (fs ++ more ++ repeat f0 no)) [])) (hb ++ tl) c.
  Proof.
    intros Hno Lf L Hcut He Hh Hm g h fr HC. cbn [i_fs i_bs i_entry e_row e_data].
    set (s0 := mkP (mkIn k (bs ++ hb ++ tl) false fr) g h).
    assert (A : at_ k Lead8 more [] (hb ++ tl) g h s0).
    { split; auto. destruct Hcut as (C1 & C2 & C3). exists cs, bs. cbn [f_kind f_rest f_hasrest p_in s0].
      cbn [app]. repeat split; auto. }
    assert (Hs : f_hasrest (p_in s0) = false) by reflexivity. clearbody s0.
    unfold b_optional. unfold sbind at 1.
    destruct (rf_step k Lead8 more more [] [] (hb ++ tl) g h s0 (Z.of_nat nc - 4 - Z.of_nat no) 8 A) as (s1 & E & A1);
      [now rewrite app_nil_r|unfold Zlen; lia|reflexivity|]. rewrite E.
    destruct (at_done _ _ _ _ _ _ _ A1) as (F1 & F2 & F3 & F4).
    assert (Hs1 : f_hasrest (p_in s1) = false).
    { destruct (f_hasrest (p_in s1)) eqn:X; [|reflexivity]. exfalso. pose proof (rf_hr _ _ _ _ _ E Hs X) as N.
      destruct A1 as [(cs1 & bs1 & _ & _ & _ & _ & D & _) _ _]. rewrite X in D. cbn [app] in D.
      apply app_eq_nil in D. tauto. }
    unfold sbind at 1. unfold liftF at 1. rewrite (see_header _ _ _ _ _ Hh Hm F1 F2 Hs1).
    set (s2 := mkP (p_in s1) (p_g s1) (p_out s1)).
    assert (A2 : at_ k Lead8 [] [] (hb ++ tl) g h s2) by (destruct A1; split; auto). clearbody s2.
    unfold sbind at 1. unfold sret at 1. rewrite fit_spec, app_nil_r.
    assert (X : firstn nc ((fs ++ more) ++ repeat f0 nc) = fs ++ more ++ repeat f0 no).
    { rewrite firstn_app, firstn_all2 by (rewrite !app_length in *; lia). rewrite <- app_assoc. f_equal. f_equal.
      replace (nc - length (fs ++ more))%nat with no by (rewrite app_length; lia).
      assert (R : forall m n, (m <= n)%nat -> firstn m (repeat f0 n) = repeat f0 m).
      { induction m0; intros [|x] Hx; cbn; auto; [lia|]. f_equal. apply IHm0. lia. }
      apply R. lia. }
    rewrite X. clear F1 F2 F3 F4. fin2 A2; apply HC.
  Qed.

  (** *** WSURFACE *)
  Lemma ones_or_zeros cx cy cz : Forall (fun f => f = f1 \/ flt_eq f f0 = true) [cx; cy; cz] ->
    exists n, int_of (fadd (fadd cx cy) cz) = Ok (Z.of_nat n) /\ n = length (filter truthy [cx; cy; cz]).
  Proof.
    intro H.
    assert (Q : forall f, flt_eq f f0 = true -> f = FZero true \/ f = FZero false).
    { intros f Hf. pose proof (truthy_eq f) as T. rewrite Hf in T. destruct f as [| |[]|]; try discriminate; auto. }
    inversion H as [|? ? A1 H1]; subst. inversion H1 as [|? ? A2 H2]; subst. inversion H2 as [|? ? A3 H3]; subst.
    destruct A1 as [->|A1]; [|apply Q in A1 as [->| ->]];
    (destruct A2 as [->|A2]; [|apply Q in A2 as [->| ->]]);
    (destruct A3 as [->|A3]; [|apply Q in A3 as [->| ->]]);
    eexists; (split; [|reflexivity]); vm_compute; reflexivity.
  Qed.
  Lemma comp_vals_take cplx : forall cs l vs, comp_vals cplx cs l vs ->
    take_comps cs cplx l = Ok vs /\ length l = (length (filter truthy cs) * (if cplx then 2 else 1))%nat /\ Forall (fun f => f = f1 \/ flt_eq f f0 = true) cs.
  Proof.
    induction 1 as [|c0 cs l vs E H IH|c0 cs x l vs -> Hc H IH|c0 cs x y l vs -> Hc H IH]; cbn [take_comps filter].
    - auto.
    - destruct IH as (I1 & I2 & I3). rewrite truthy_eq, E. cbn [negb]. rewrite I1. cbn [rbind]. auto.
    - destruct IH as (I1 & I2 & I3). subst cplx. cbv iota in I2. change (truthy f1) with true; cbv iota. unfold rbind. rewrite I1. cbn [length]. repeat split; auto; lia.
    - destruct IH as (I1 & I2 & I3). subst cplx. cbv iota in I2. change (truthy f1) with true; cbv iota. unfold rbind. rewrite I1. cbn [length]. repeat split; auto; lia.
  Qed.
  Lemma slice_mid {A} (a b d : list A) i j : i = Zlen a -> j = Zlen a + Zlen b -> slice i j (a ++ b ++ d) = b.
  Proof.
    intros -> ->. unfold slice, clamp. rewrite !Zlen_app. pose proof (Zlen_nonneg a). pose proof (Zlen_nonneg b).
    pose proof (Zlen_nonneg d).
    replace (Zlen a <? 0) with false by lia. replace (Zlen a + Zlen b <? 0) with false by lia.
    rewrite (Z.min_l (Zlen a)) by lia. rewrite Z.min_l by lia.
    replace (Zlen a + Zlen b - Zlen a) with (Zlen b) by lia. unfold Zlen at 1 2. rewrite !Nat2Z.id.
    rewrite skipn_app_exact by reflexivity. now apply firstn_app_exact.
  Qed.
  Lemma mod_step a q : (0 < q -> a mod q = 0 -> (a + q) mod q = 0 /\ (a + q) / q = S (a / q))%nat.
  Proof.
    intros Hq H. replace (a + q)%nat with (a + 1 * q)%nat by lia. rewrite Nat.mod_add, Nat.div_add by lia. lia.
  Qed.
  Lemma rmap_zelev rec (cplx : bool) comps per : slice_from 5 rec = comps -> forall pts vals pre,
    Forall2 (surf_point cplx comps) pts vals -> all_len per pts -> (length pre mod per = 0)%nat -> (0 < per)%nat ->
    rmap (zelev_rec rec (pre ++ concat pts) cplx (Z.of_nat per))
      (map (fun i => Z.of_nat i * Z.of_nat per) (seq (length pre / per) (length pts))) = Ok vals.
  Proof.
    intros Hc pts vals pre H. revert pre. induction H as [|p v pts vals H1 H2 IH]; intros pre Hl Hp Hper; [reflexivity|].
    inversion Hl as [|? ? L1 L2]; subst. cbn [length seq map concat rmap].
    assert (E : Z.of_nat (length pre / length p) * Z.of_nat (length p) = Zlen pre).
    { unfold Zlen. rewrite <- Nat2Z.inj_mul. f_equal. pose proof (Nat.div_mod_eq (length pre) (length p)). nia. }
    rewrite E. unfold zelev_rec at 1. rewrite slice_mid; [|reflexivity|reflexivity].
    destruct H1 as (x & l & vs & -> & Hcv & ->). destruct (comp_vals_take _ _ _ _ Hcv) as (T & _ & _).
    unfold rbind. rewrite T.
    specialize (IH (pre ++ x :: l) L2). rewrite app_length in IH.
    destruct (mod_step (length pre) (length (x :: l)) Hper Hp) as [M1 M2]. rewrite M1, M2 in IH.
    specialize (IH eq_refl Hper).
    rewrite <- app_assoc in IH. cbn [app] in *. rewrite IH. reflexivity.
  Qed.
  Lemma ok_wsurface nf a b d ic cx cy cz (cplx : bool) pts vals bs rest :
      count nf (8 + length (concat pts)) ->
      (if cplx then ic = f1 else flt_eq ic f0 = true) ->
      Forall2 (surf_point cplx [cx; cy; cz]) pts vals ->
      (pts = [] -> Forall (fun f => f = f1 \/ flt_eq f f0 = true) [cx; cy; cz]) ->
      enc_data k Lead0 ([ic; cx; cy; cz] ++ concat pts) bs ->
      body_ok Jany b_wsurface k c "WSURFACE" (mkItem [nf; a; b; d] bs
        (mkEntry (nums [nf; a; b; d; ic; cx; cy; cz]) [vals])) rest c.
  Proof.
    intros T Hic Hv He H.
    assert (Hz : Forall (fun f => f = f1 \/ flt_eq f f0 = true) [cx; cy; cz]).
    { destruct Hv as [|p v pts vals (x & l & vs & _ & Hcv & _) _]; [now apply He|]. now apply comp_vals_take in Hcv. }
    destruct (ones_or_zeros _ _ _ Hz) as (nc & En & Ln).
    set (ci := if cplx then 1 else 0). set (per := S (nc * (if cplx then 2 else 1))).
    assert (Hl : all_len per pts).
    { unfold all_len. clear - Hv Ln. induction Hv as [|p v pts vals (x & l & vs & -> & Hcv & _) _ IH]; constructor; auto.
      apply comp_vals_take in Hcv as (_ & L & _). cbn [length]. rewrite L, <- Ln. reflexivity. }
    assert (Ti : trunc_is ic ci).
    { unfold ci. destruct cplx; [subst ic; now apply int_of_trunc|].
      pose proof (truthy_eq ic) as Q. rewrite Hic in Q. destruct ic; cbn in Q; try discriminate Q; reflexivity. }
    st H A. unfold b_wsurface. unfold sbind at 1. rd A [ic; cx; cy; cz] (concat pts). cbv zeta.
    set (rec := [nf; a; b; d] ++ [ic; cx; cy; cz]).
    do 6 (unfold sbind at 1).
    rewrite (lift_int rec 0 _ _ _ eq_refl T), (lift_get rec 5 _ _ eq_refl), (lift_get rec 6 _ _ eq_refl),
      (lift_get rec 7 _ _ eq_refl), En. lr. rewrite (lift_int rec 4 _ _ _ eq_refl Ti).
    unfold sbind at 1. rd A (concat pts) (@nil flt).
    assert (Ep : 1 + Z.of_nat nc * (1 + ci) = Z.of_nat per) by (unfold per, ci; destruct cplx; lia).
    rewrite Ep. replace (Z.of_nat per =? 0) with false by lia. unfold sbind at 1.
    rewrite (lift_get rec 4 _ _ eq_refl).
    assert (Ht : truthy ic = cplx).
    { destruct cplx; [now subst ic|]. rewrite truthy_eq, Hic. reflexivity. }
    rewrite Ht. unfold sbind at 1.
    assert (Er : pyrange (Z.of_nat (8 + length (concat pts)) - 8) (Z.of_nat per) =
      map (fun i => Z.of_nat i * Z.of_nat per) (seq 0 (length pts))).
    { unfold pyrange. replace (0 <? Z.of_nat per) with true by lia. cbv zeta.
      rewrite (all_len_length _ _ Hl).
      replace (Z.of_nat (8 + length pts * per) - 8 + Z.of_nat per - 1) with (Z.of_nat per - 1 + Z.of_nat (length pts) * Z.of_nat per) by lia.
      rewrite Z.div_add by lia. rewrite Z.div_small by lia. rewrite Z.add_0_l, Nat2Z.id. reflexivity. }
    rewrite Er.
    pose proof (rmap_zelev rec cplx [cx; cy; cz] per eq_refl pts vals [] Hv Hl) as Rz. cbn [length app] in Rz.
    rewrite Nat.mod_0_l, Nat.div_0_l in Rz by lia. rewrite Rz; [|reflexivity|lia]. lr.
    fin2 A; apply HC.
  Qed.

  (** ** WDRESREF *)
  Definition kind_add (jd : Z * list pyval) : adds :=
    if fst jd =? 1 then [(0%nat, snd jd)] else if fst jd =? 2 then [(1%nat, snd jd)]
    else if fst jd =? 3 then [(2%nat, snd jd)] else [].
  Fixpoint zfind (j : Z) (l : list (Z * list pyval)) : option (list pyval) :=
    match l with [] => None | (i, d) :: r => if i =? j then Some d else zfind j r end.
  Definition vl_opt (o : option (list pyval)) (v : vl) : vl := match o with Some d => vl_add d v | None => v end.
  Lemma zfind_none j l : ~ In j (map fst l) -> zfind j l = None.
  Proof.
    induction l as [|[i d] l IH]; [reflexivity|]. cbn. intro H. replace (i =? j) with false by lia. apply IH. tauto.
  Qed.
  Lemma zfind_some j d l : NoDup (map fst l) -> In (j, d) l -> zfind j l = Some d.
  Proof.
    induction l as [|[i e] l IH]; [easy|]. cbn. intros H [E|E]; inversion H as [|? ? H1 H2]; subst.
    - injection E as -> ->. now rewrite Z.eqb_refl.
    - destruct (i =? j) eqn:Q; [|auto]. apply Z.eqb_eq in Q. subst. destruct H1. now apply (in_map fst) in E.
  Qed.
  Lemma kind_adds p t b l : NoDup (map fst l) -> forall v0 v1 v2,
    rd_vladds (flat_map kind_add l) (mkRd p t b [v0; v1; v2]) =
    mkRd p t b [vl_opt (zfind 1 l) v0; vl_opt (zfind 2 l) v1; vl_opt (zfind 3 l) v2].
  Proof.
    induction l as [|[j d] l IH]; intros H v0 v1 v2; [reflexivity|].
    cbn [map fst] in H. inversion H as [|? ? H1 H2]; subst. apply zfind_none in H1.
    cbn [flat_map zfind]. unfold kind_add at 1. cbn [fst snd].
    destruct (j =? 1) eqn:E1; [|destruct (j =? 2) eqn:E2; [|destruct (j =? 3) eqn:E3]].
    - apply Z.eqb_eq in E1; subst j. cbn [app rd_vladds]. unfold rd_vladd. cbn [r_path r_types r_buf r_vls upd_nth].
      rewrite IH by exact H2. rewrite H1. reflexivity.
    - apply Z.eqb_eq in E2; subst j. cbn [app rd_vladds]. unfold rd_vladd. cbn [r_path r_types r_buf r_vls upd_nth].
      rewrite IH by exact H2. rewrite H1. reflexivity.
    - apply Z.eqb_eq in E3; subst j. cbn [app rd_vladds]. unfold rd_vladd. cbn [r_path r_types r_buf r_vls upd_nth].
      rewrite IH by exact H2. rewrite H1. reflexivity.
    - cbn [app]. now apply IH.
  Qed.
  Definition Jref (kinds : list Z) (m : list (Z * Z)) : Prop :=
    exists a b d, m = [a; b; d] /\ (~ In 1 kinds -> a = (0, 0)) /\ (~ In 2 kinds -> b = (0, 0)) /\ (~ In 3 kinds -> d = (0, 0)).
  Lemma reftypes_step n : forall (rs : list refkind) js d2 pad rest g h s,
    Forall2 (fun r j => trunc_is (fst r) j) rs js -> Forall (fun r => matrix n 2 (snd r)) rs ->
    at_ k Lead0 (flat_map ref_nums rs ++ d2) pad rest g h s ->
    exists s', read_reftypes (length rs) (Z.of_nat n) s =
      Ok (flat_map kind_add (combine js (map (fun r => tuples (snd r)) rs)), s') /\ at_ k Lead0 d2 pad rest g h s'.
  Proof.
    induction rs as [|[f m] rs IH]; intros js d2 pad rest g h s H1 H2 A; inversion H1 as [|? j ? js' T1 T2]; subst.
    - exists s. auto.
    - inversion H2 as [|? ? M1 M2]; subst. cbn [length read_reftypes fst snd] in *. unfold sbind at 1.
      cbn [flat_map] in A. unfold ref_nums at 1 in A. cbn [fst snd app] in A. rewrite <- !app_assoc in A.
      rd A [f] (concat m ++ flat_map ref_nums rs ++ d2). unfold sbind at 1.
      rewrite (lift_int [f] 0 _ _ _ eq_refl T1). unfold sbind at 1. unfold groups.
      destruct M1 as [L M1].
      destruct (at_timesZ k Lead0 2 (fun l => PT (pfs l)) 0 m (flat_map ref_nums rs ++ d2) pad rest g h s0 (Z.of_nat n) 2
        eq_refl M1 A (f_equal Z.of_nat (eq_sym L)) eq_refl) as (s1 & E1 & A1). rewrite E1.
      destruct (IH _ _ _ _ _ _ _ T2 M2 A1) as (s2 & E2 & A2). unfold sbind at 1. rewrite E2.
      exists s2. split; [|exact A2]. unfold sret. cbn [combine map flat_map fst snd]. reflexivity.
  Qed.
  Lemma combine_fst {A B} (l : list A) (m : list B) : length l = length m -> map fst (combine l m) = l.
  Proof. revert m. induction l as [|a l IH]; intros [|b m] H; try discriminate; [reflexivity|]. cbn. f_equal. apply IH. now injection H. Qed.
  Lemma Forall2_len {A B} (R : A -> B -> Prop) l m : Forall2 R l m -> length l = length m.
  Proof. induction 1; cbn; auto. Qed.
  Lemma ref_found rs js j d v (l := combine js (map (fun r => tuples (snd r)) rs)) :
    Forall2 (fun r j => trunc_is (fst r) j) rs js -> NoDup js -> ref_data rs j d ->
    (~ In j js -> (v_start v, v_stop v) = (0, 0)) -> vl_opt (zfind j l) v = vl_add (tuples d) v.
  Proof.
    intros H1 H2 H3 H4.
    assert (L : length js = length (map (fun r : refkind => tuples (snd r)) rs)).
    { rewrite map_length. symmetry. now apply Forall2_len in H1. }
    destruct H3 as [(f & I & T)|[N ->]].
    - rewrite (zfind_some j (tuples d)); [reflexivity| |].
      + unfold l. now rewrite combine_fst.
      + unfold l. clear - H1 I T. induction H1 as [|[f0 m0] j0 rs js T0 _ IH]; [easy|]. cbn [map combine fst snd] in *.
        destruct I as [I|I]; [|right; auto]. injection I as -> ->.
        apply trunc_int_of in T, T0. rewrite T in T0. injection T0 as ->. now left.
    - assert (Nj : ~ In j js).
      { clear - H1 N. induction H1 as [|r j0 rs js T0 _ IH]; [easy|]. intros [->|I].
        - apply (N r); [now left|exact T0].
        - apply IH; auto. intros r' Hr. apply N. now right. }
      rewrite zfind_none; [|unfold l; now rewrite combine_fst].
      specialize (H4 Nj). injection H4 as E1 E2. destruct v as [p t d n a b]. cbn in *. now subst.
  Qed.
  Lemma ok_wdresref kinds nf a nr nt (rs : list refkind) n dd dt df bs rest :
      count nr n -> count nt (length rs) ->
      NoDup kinds -> (exists js, Forall2 (fun r j => trunc_is (fst r) j) rs js /\ Permutation js kinds) ->
      Forall (fun r => matrix n 2 (snd r)) rs ->
      ref_data rs 1 dd -> ref_data rs 2 dt -> ref_data rs 3 df ->
      enc_data k Lead0 (flat_map ref_nums rs) bs ->
      body_ok (Jref kinds) b_wdresref k c "WDRESREF" (mkItem [nf; a; nr; nt] bs
        (mkEntry (nums [nf; a; nr; nt]) [tuples dd; tuples dt; tuples df])) rest c.
  Proof.
    intros T1 T2 ND (js & F & P) M D1 D2 D3 H. st H A.
    assert (NJ : NoDup js) by (eapply Permutation_NoDup; [symmetry; exact P|exact ND]).
    assert (X : exists s', b_wdresref "WDRESREF" [nf; a; nr; nt] s0 =
       Ok ((pfs [nf; a; nr; nt], flat_map kind_add (combine js (map (fun r => tuples (snd r)) rs))), s') /\
       at_ k Lead0 [] pad rest g h s').
    { unfold b_wdresref. unfold sbind at 1. rewrite (lift_int [nf; a; nr; nt] 3 _ _ _ eq_refl T2).
      destruct (Z.of_nat (length rs) <=? 0) eqn:Q.
      - destruct rs; [|cbn in Q; lia]. inversion F; subst. exists s0. split; [reflexivity|exact A].
      - unfold sbind at 1. rewrite (lift_int [nf; a; nr; nt] 2 _ _ _ eq_refl T1). rewrite Nat2Z.id.
        rewrite <- (app_nil_r (flat_map _ _)) in A.
        destruct (reftypes_step n rs js [] pad rest g h s0 F M A) as (s1 & E1 & A1).
        unfold sbind at 1. rewrite E1. exists s1. split; [reflexivity|exact A1]. }
    destruct X as (s1 & E1 & A1).
    eexists _, s1. split; [exact E1|]. split.
    - intros [p t b vls] (m0 & m1 & m2 & EJ & J1 & J2 & J3). unfold marks in EJ. cbn [r_vls] in EJ.
      destruct vls as [|v0 [|v1 [|v2 [|]]]]; try discriminate. injection EJ as <- <- <-.
      assert (IK : forall j, ~ In j js -> ~ In j kinds).
      { intros j Hj Hk. apply Hj. eapply Permutation_in; [symmetry; exact P|exact Hk]. }
      assert (L : length js = length (map (fun r : refkind => tuples (snd r)) rs)).
      { rewrite map_length. symmetry. now apply Forall2_len in F. }
      rewrite kind_adds by (now rewrite combine_fst). split.
      + rewrite (ref_found rs js 1 dd v0 F NJ D1), (ref_found rs js 2 dt v1 F NJ D2), (ref_found rs js 3 df v2 F NJ D3); auto.
      + unfold marks. cbn [r_vls map].
        eexists _, _, _. split; [reflexivity|].
        assert (W : forall j v, (~ In j kinds -> (v_start v, v_stop v) = (0, 0)) -> ~ In j kinds ->
           (v_start (vl_opt (zfind j (combine js (map (fun r => tuples (snd r)) rs))) v),
            v_stop (vl_opt (zfind j (combine js (map (fun r => tuples (snd r)) rs))) v)) = (0, 0)).
        { intros j v Hv Hk. rewrite zfind_none; [now apply Hv|]. rewrite combine_fst by exact L.
          intro Hj. apply Hk. eapply Permutation_in; [exact P|exact Hj]. }
        split; [|split]; apply W; auto.
    - destruct (at_done _ _ _ _ _ _ _ A1) as (F1 & F2 & F3 & F4). rewrite F4. repeat split; auto; try apply gframe_refl; apply HC.
  Qed.
End Bodies.

(** ** All of them *)
Definition Jk (kinds : list Z) (n : string) : list (Z * Z) -> Prop :=
  if String.eqb n "WDRESREF" then Jref kinds else Jany.

Ltac names H := cbn [In fixed_types section_types text_types name_types comp_types combi_types nodres_types elmres_types six_types] in H;
  repeat (destruct H as [H|H]; [(injection H as <- <- <- || injection H as <- <- || subst) | ]); [.. | contradiction].
Ltac body X := let b := fresh "b" in let E := fresh "E" in intros b E; injection E as <-; change (Jk _ _) with Jany; X.

Lemma layout_reads kinds k c n it rest c' : layout kinds k c n it rest c' ->
  forall b, sget n bodies = Some b -> body_ok (Jk kinds n) b k c n it rest c'.
Proof.
  destruct 1 as [n nc ld fs more bs rest H1 H2 H3 H4|n nc no fs more bs cs m mfs hb tl H1 H2 H3 H4 H5 H6 H7|n nc no fs more bs rest H1 H2 H3 H4
   |fs more bs rest H1 H2 H3|n a b nl e lines bs rest H1 H2 H3|n a b cn ct zn zt names nls texts tls bs1 bs2 rest H1
   |a elno eltyp ad e t n nod bs rest|fs t nn nods bs rest|elno a b d r2 geono fixno eccno transno e t n geo fix_ ecc trans b2 b3 bs rest
   |nf a b d e mem bs rest|nf a ty d e np nj irp irj bs rest|nf a ty d e bs rest|nf a nr z d nfe fe bs rest|node nd x y ndof more bs rest
   |fs a b d nd deps fill cs bs rest|a b cplx d r1a nd r1b rl il b1 bs rest|a b cplx d r1 im im' bs rest|n rv nf ir lr x z more bs rest H1
   |nf alt el cr e nsp ijk nst nl alt' el' cr' nsp' nl' nok noj noi pts xfs bs rest|nf cr ig g1 cr' nlay nok noj noi gs be al la bs rest
   |nf ires a b d ic nt ires' ic' gs bs rest|n a b d ng gs bs rest H1|n nf ires a b d ires' res bs rest H1
   |n nf ires el alt ir ires' el' alt' ir' nsp lr ic res bs rest H1|nf a nr nt rs n dd dt df bs rest|a b d idep z depth bs rest|a b d idep rest
   |fs r1 t bs rest|fs r1 t bs rest|n a b d ic v bs rest H1|n a b d ic z v bs rest H1|a b d e ic v bs rest|a b d e ic z v bs rest
   |a b d x v bs rest|a b d x v bs rest|a b x y z bs rest|a b d ic p v bs rest|a b d ic z p v bs rest|a b d e usr p1 p2 p3 bs rest
   |nf a b d ic cx cy cz cplx pts vals bs rest|a b x y rows v bs rest|fs a ic p i j bs rest|fs a ic z p q i j bs rest].
  - names H1; body ltac:(exact (ok_fixed k c _ _ _ fs more bs rest H2 H4)).
  - names H1; body ltac:(eapply ok_section_without; eauto; lia).
  - names H1; body ltac:(eapply ok_section_with; eauto; lia).
  - body ltac:(eapply ok_section_with; eauto; lia).
  - pose proof H1 as H1'. names H1; body ltac:(now apply ok_text).
  - pose proof H1 as H1'. names H1; body ltac:(eapply ok_td; eauto).
  - body ltac:(eapply ok_gelmnt1; eauto).
  - body ltac:(eapply ok_gelmnt2; eauto).
  - body ltac:(eapply ok_gelref1; eauto).
  - body ltac:(eapply ok_gsetmemb; eauto).
  - body ltac:(eapply ok_sconcept7; eauto).
  - body ltac:(eapply ok_sconcept2; eauto).
  - body ltac:(eapply ok_sconmesh; eauto).
  - body ltac:(eapply ok_bnbcd; eauto).
  - body ltac:(eapply ok_bldep; eauto).
  - body ltac:(eapply ok_beuslo; eauto).
  - body ltac:(eapply ok_brigac; eauto).
  - pose proof H1 as H1'. names H1; body ltac:(eapply ok_compdef; eauto).
  - body ltac:(eapply ok_rdpoints; eauto).
  - body ltac:(eapply ok_rdielcor; eauto).
  - body ltac:(eapply ok_rdresref; eauto).
  - pose proof H1 as H1'. names H1; body ltac:(eapply ok_combi; eauto).
  - pose proof H1 as H1'. names H1; body ltac:(eapply ok_nodres; eauto).
  - pose proof H1 as H1'. names H1; body ltac:(eapply ok_elmres; eauto).
  - let b := fresh "b" in let E := fresh "E" in intros b' E; injection E as <-. eapply ok_wdresref; eauto.
  - body ltac:(eapply ok_wglobdef; eauto).
  - body ltac:(eapply ok_wglobdef0; eauto).
  - body ltac:(eapply ok_wbody; eauto).
  - body ltac:(eapply ok_w1matrix; eauto).
  - pose proof H1 as H1'. names H1; body ltac:(eapply ok_six_real; eauto).
  - pose proof H1 as H1'. names H1; body ltac:(eapply ok_six_complex; eauto).
  - body ltac:(eapply ok_w1sforce_real; eauto).
  - body ltac:(eapply ok_w1sforce_complex; eauto).
  - body ltac:(apply (ok_drift k c "W2HDRIFT" 2); auto).
  - body ltac:(apply (ok_drift k c "W2MDRIFT" 5); auto).
  - body ltac:(eapply ok_wfkpoint; eauto).
  - body ltac:(eapply ok_wfluidkn_real; eauto).
  - body ltac:(eapply ok_wfluidkn_complex; eauto).
  - body ltac:(eapply ok_wsection; eauto).
  - body ltac:(eapply ok_wsurface; eauto).
  - body ltac:(eapply ok_winput; eauto).
  - body ltac:(eapply ok_w1panpre_real; eauto).
  - body ltac:(eapply ok_w1panpre_complex; eauto).
Qed.
