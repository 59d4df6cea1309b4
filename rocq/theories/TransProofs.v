(** * TransProofs: the transformation returned. *)
From Coq Require Import Ring_theory Ring.
From Verif Require Import Base Flt H5 Schema StoreSpec ParserSpec Data Struc Trans TransSpec ListFacts DataFacts StrucProofs.
Open Scope string_scope.
Open Scope Z_scope.
Open Scope list_scope.
Open Scope monad_scope.

Lemma getrow_the {A} (rel : A -> list cell -> Prop) t l p P x : Forall2 rel l (t_rows t) ->
  (forall y row, rel y row -> exists b, p row = Ok b /\ (b = true <-> P y)) -> the P l x ->
  exists row, getrow t p = Ok row /\ rel x row.
Proof.
  intros HF Hp (Hin & HPx & Hun). unfold getrow.
  assert (G : forall l rows, Forall2 rel l rows -> exists rs, rfilter p rows = Ok rs /\
     ((exists x, In x l /\ P x) -> rs <> []) /\ forall r, In r rs -> exists y, In y l /\ P y /\ rel y r).
  { clear - Hp. induction 1 as [|y row l rows Hr HF (rs & I1 & I2 & I3)]; [exists []; repeat split; [intros (x & [] & _)|intros r []]|].
    cbn [rfilter]. destruct (Hp _ _ Hr) as (b & -> & Hb). cbn [rbind]. rewrite I1. cbn [rbind]. eexists. split; [reflexivity|]. split.
    - intros (x & Hx & HPx). destruct b; [discriminate|]. apply I2. destruct Hx as [->|Hx]; [|eauto]. apply Hb in HPx. discriminate.
    - intros r Hin. assert (D : r = row /\ b = true \/ In r rs) by (destruct b; [destruct Hin; [left; auto|right; auto]|right; auto]).
      destruct D as [[-> ->]|D].
      + exists y. split; [now left|]. split; [now apply Hb|exact Hr].
      + destruct (I3 r D) as (z & Z1 & Z2 & Z3). exists z. split; [now right|]. tauto. }
  destruct (G _ _ HF) as (rs & -> & G2 & G3). cbn [rbind]. destruct rs as [|r rs]; [exfalso; apply G2; eauto|].
  exists r. split; [reflexivity|]. destruct (G3 r (or_introl eq_refl)) as (y & Y1 & Y2 & Y3). now rewrite <- (Hun y Y1 Y2).
Qed.

Section Hier.
  Context {A : Type}.
  Variables (zero one : A) (times : @mat A -> @mat A -> @mat A) (num : cell -> A).
  Variables (h : h5) (d : sdata) (ss : list super) (ts : list (Z * list (list cell))).
  Hypothesis Ho : d_open d = true.
  Hypothesis HH : hier_in h (d_group d) ss.
  Hypothesis HT : trans_in h (d_group d) ts.
  Notation get := (get_transformation_with zero one num times h d).
  (** ((m1 m2) m3) ... *)
  Definition product (m : mat) (ms : list mat) : mat := fold_left times ms m.

  Lemma hier_rec : exists rows arr, record1 h d "HIERARCH" = Ok (mkTab (descr_of "HIERARCH") rows, arr) /\ Forall2 super_row ss rows.
  Proof. destruct HH as (rows & arr & H & HF). exists rows, arr. split; [exact (holds_record1 _ _ _ _ _ Ho H)|exact HF]. Qed.
  Lemma trans_rec : exists rows, record0 h d "HSUPTRAN" = Ok (mkTab (descr_of "HSUPTRAN") rows) /\ Forall2 trans_row ts rows.
  Proof. destruct HT as (rows & H & HF). exists rows. split; [exact (holds_record0 _ _ _ _ _ Ho H)|exact HF]. Qed.

  Lemma matrix_ok rows : matrix num (CV (map CV rows)) = Ok (map (map num) rows).
  Proof. unfold matrix. rewrite rmap_map. apply rmap_ok. reflexivity. Qed.
  Lemma trans_no_ok rows s m : Forall2 trans_row ts rows -> moved num ts s m ->
    trans_no num (mkTab (descr_of "HSUPTRAN") rows) (s_trans s) = Ok m.
  Proof.
    intros HF (t & Ht & ->). unfold trans_no.
    edestruct (getrow_the trans_row (mkTab (descr_of "HSUPTRAN") rows) ts (int_is (mkTab (descr_of "HSUPTRAN") rows) "itref" (s_trans s))) as (row & -> & (a & ->)); [exact HF| |exact Ht|].
    - intros y row (a & ->). eexists. split; [reflexivity|]. apply Z.eqb_eq.
    - cbn [rbind]. cbn [field col_index t_descr]. change (matrix num (CV (map CV (snd t))) = Ok (map (map num) (snd t))). apply matrix_ok.
  Qed.
  Lemma hier_no_ok rows s p : Forall2 super_row ss rows -> parent ss s p ->
    exists row, hier_no (mkTab (descr_of "HIERARCH") rows) (s_parent s) = Ok row /\ super_row p row.
  Proof.
    intros HF Hp. unfold hier_no. eapply (getrow_the super_row (mkTab (descr_of "HIERARCH") rows) ss (int_is (mkTab (descr_of "HIERARCH") rows) "ihref" (s_parent s))); [exact HF| |exact Hp].
    intros y row (a & b & r1 & r2 & ->). eexists. split; [reflexivity|]. apply Z.eqb_eq.
  Qed.
  Lemma super_fields rows s row : super_row s row -> let t := mkTab (descr_of "HIERARCH") rows in
    ifield t "islevl" row = Ok (s_level s) /\ ifield t "itref" row = Ok (s_trans s) /\ ifield t "ihpref" row = Ok (s_parent s).
  Proof. intros (a & b & r1 & r2 & ->). repeat split. Qed.

  (** Levels rise towards the top. *)
  Definition rising := forall s p, In s ss -> parent ss s p -> s_parent s <> 0 -> s_level s < s_level p.
  Hypothesis HR : rising.

  Lemma climb_ok hrows trows lev p ms : Forall2 super_row ss hrows -> Forall2 trans_row ts trows ->
    up num ss ts lev p ms -> forall fuel t row, super_row p row -> s_level p < lev -> s_parent p <> 0 -> In p ss ->
    (Z.to_nat (lev - s_level p) < fuel)%nat ->
    climb num times fuel (mkTab (descr_of "HIERARCH") hrows) (mkTab (descr_of "HSUPTRAN") trows) lev row t = Ok (product t ms).
  Proof.
    intros HF1 HF2. induction 1 as [s p m Hm Hp Hl|s p m ms Hm Hp Hl Hne Hup IH]; intros fuel t row Hrow Hlt Hs0 Hin Hf.
    - destruct fuel as [|fuel]; [lia|]. cbn [climb]. destruct (super_fields hrows s row Hrow) as (-> & -> & ->). cbn [rbind].
      destruct (Z.ltb_spec (s_level s) lev); [|lia]. rewrite (trans_no_ok trows s m HF2 Hm). cbn [rbind].
      destruct (Z.eqb_spec (s_parent s) 0); [lia|]. destruct (hier_no_ok hrows s p HF1 Hp) as (row' & -> & Hr'). cbn [rbind].
      destruct (super_fields hrows p row' Hr') as (E & _ & _). rewrite E. cbn [rbind]. destruct (Z.ltb_spec lev (s_level p)); [lia|].
      destruct fuel as [|fuel]; [lia|]. cbn [climb]. rewrite E. cbn [rbind]. destruct (Z.ltb_spec (s_level p) lev); [lia|]. reflexivity.
    - destruct fuel as [|fuel]; [lia|]. cbn [climb]. destruct (super_fields hrows s row Hrow) as (-> & -> & ->). cbn [rbind].
      destruct (Z.ltb_spec (s_level s) lev); [|lia]. rewrite (trans_no_ok trows s m HF2 Hm). cbn [rbind].
      destruct (Z.eqb_spec (s_parent s) 0); [lia|]. destruct (hier_no_ok hrows s p HF1 Hp) as (row' & -> & Hr'). cbn [rbind].
      destruct (super_fields hrows p row' Hr') as (E & _ & _). rewrite E. cbn [rbind]. destruct (Z.ltb_spec lev (s_level p)); [lia|].
      pose proof (HR s p Hin Hp Hs0). apply IH; [exact Hr'|lia|exact Hne|apply Hp|lia].
  Qed.
  Lemma climb_passes hrows trows lev p : Forall2 super_row ss hrows -> Forall2 trans_row ts trows ->
    (forall s, In s ss -> s_parent s <> 0 -> exists m, moved num ts s m) ->
    passes ss lev p -> forall fuel t row, super_row p row -> s_level p < lev -> s_parent p <> 0 -> In p ss ->
    (Z.to_nat (lev - s_level p) < fuel)%nat ->
    climb num times fuel (mkTab (descr_of "HIERARCH") hrows) (mkTab (descr_of "HSUPTRAN") trows) lev row t = Err HierarchyError.
  Proof.
    intros HF1 HF2 Hall. induction 1 as [s p Hp Hl|s p Hp Hl Hne Hup IH]; intros fuel t row Hrow Hlt Hs0 Hin Hf.
    - destruct fuel as [|fuel]; [lia|]. cbn [climb]. destruct (super_fields hrows s row Hrow) as (-> & -> & ->). cbn [rbind].
      destruct (Z.ltb_spec (s_level s) lev); [|lia]. destruct (Hall s Hin Hs0) as (m & Hm). rewrite (trans_no_ok trows s m HF2 Hm). cbn [rbind].
      destruct (Z.eqb_spec (s_parent s) 0); [lia|]. destruct (hier_no_ok hrows s p HF1 Hp) as (row' & -> & Hr'). cbn [rbind].
      destruct (super_fields hrows p row' Hr') as (E & _ & _). rewrite E. cbn [rbind]. destruct (Z.ltb_spec lev (s_level p)); [|lia]. reflexivity.
    - destruct fuel as [|fuel]; [lia|]. cbn [climb]. destruct (super_fields hrows s row Hrow) as (-> & -> & ->). cbn [rbind].
      destruct (Z.ltb_spec (s_level s) lev); [|lia]. destruct (Hall s Hin Hs0) as (m & Hm). rewrite (trans_no_ok trows s m HF2 Hm). cbn [rbind].
      destruct (Z.eqb_spec (s_parent s) 0); [lia|]. destruct (hier_no_ok hrows s p HF1 Hp) as (row' & -> & Hr'). cbn [rbind].
      destruct (super_fields hrows p row' Hr') as (E & _ & _). rewrite E. cbn [rbind]. destruct (Z.ltb_spec lev (s_level p)); [lia|].
      pose proof (HR s p Hin Hp Hs0). apply IH; [exact Hr'|lia|exact Hne|apply Hp|lia].
  Qed.

  Variable top : super.
  Hypothesis Htop : hd_error ss = Some top.
  Lemma first_row rows : Forall2 super_row ss rows -> exists row, pyget rows 0 = Ok row /\ super_row top row.
  Proof. intro HF. destruct ss as [|s ss']; [discriminate|]. injection Htop as ->. inversion HF; subst. eexists. split; [reflexivity|assumption]. Qed.
  Definition level_of (lv : level) : Z := match lv with Top => s_level top | Level z => z end.
  Definition within (lv : level) : Prop := match lv with Top => True | Level z => 1 < z <= s_level top end.

  Lemma enter seltyp index lv s : within lv -> the (fun x => s_type x = seltyp /\ s_index x = index) ss s ->
    exists hrows trows, Forall2 super_row ss hrows /\ Forall2 trans_row ts trows /\
    get seltyp index lv =
      let hierarch := mkTab (descr_of "HIERARCH") hrows in
      dor t <- trans_no num (mkTab (descr_of "HSUPTRAN") trows) (s_trans s);
      dor rp <- hier_no hierarch (s_parent s);
      dor l <- ifield hierarch "islevl" rp;
      if level_of lv <? l then Err HierarchyError
      else climb num times (S (Z.to_nat (level_of lv - l))) hierarch (mkTab (descr_of "HSUPTRAN") trows) (level_of lv) rp t.
  Proof.
    intros Hw Hs. destruct hier_rec as (hrows & arr & E1 & HF1). destruct trans_rec as (trows & E2 & HF2).
    exists hrows, trows. split; [exact HF1|]. split; [exact HF2|]. unfold get_transformation_with. rewrite E1. cbn [rbind]. rewrite E2. cbn [rbind].
    destruct (first_row hrows HF1) as (row0 & E3 & Hr0). cbn [t_rows]. rewrite E3. cbn [rbind].
    destruct (super_fields hrows top row0 Hr0) as (-> & _ & _). cbn [rbind].
    edestruct (getrow_the super_row (mkTab (descr_of "HIERARCH") hrows) ss
      (both (int_is (mkTab (descr_of "HIERARCH") hrows) "iselty" seltyp) (int_is (mkTab (descr_of "HIERARCH") hrows) "indsel" index))) as (row & -> & Hrow); [exact HF1| |exact Hs|].
    { intros y row (a & b & r1 & r2 & ->). eexists. split; [reflexivity|]. rewrite andb_true_iff, !Z.eqb_eq. tauto. }
    cbn [rbind]. destruct (super_fields hrows s row Hrow) as (_ & -> & ->). cbn [rbind].
    destruct lv as [|z]; cbn [level_of within] in *; [reflexivity|].
    destruct (Z.eqb_spec z 1); [lia|]. destruct (Z.ltb_spec (s_level top) z); [lia|]. destruct (Z.ltb_spec z 1); [lia|]. reflexivity.
  Qed.

  Lemma transformation_ok seltyp index lv s m ms : within lv -> the (fun x => s_type x = seltyp /\ s_index x = index) ss s ->
    up num ss ts (level_of lv) s (m :: ms) -> get seltyp index lv = Ok (product m ms).
  Proof.
    intros Hw Hs Hup. destruct (enter seltyp index lv s Hw Hs) as (hrows & trows & HF1 & HF2 & ->). cbv zeta.
    inversion Hup as [s0 p m0 Hm Hp Hl|s0 p m0 ms0 Hm Hp Hl Hne Hup']; subst.
    - rewrite (trans_no_ok trows s m HF2 Hm). cbn [rbind]. destruct (hier_no_ok hrows s p HF1 Hp) as (row' & -> & Hr'). cbn [rbind].
      destruct (super_fields hrows p row' Hr') as (E & _ & _). rewrite E. cbn [rbind]. destruct (Z.ltb_spec (level_of lv) (s_level p)); [lia|].
      cbn [climb]. rewrite E. cbn [rbind]. destruct (Z.ltb_spec (s_level p) (level_of lv)); [lia|]. reflexivity.
    - rewrite (trans_no_ok trows s m HF2 Hm). cbn [rbind]. destruct (hier_no_ok hrows s p HF1 Hp) as (row' & -> & Hr'). cbn [rbind].
      destruct (super_fields hrows p row' Hr') as (E & _ & _). rewrite E. cbn [rbind]. destruct (Z.ltb_spec (level_of lv) (s_level p)); [lia|].
      apply (climb_ok hrows trows _ p ms HF1 HF2 Hup' _ _ _ Hr' Hl Hne); [apply Hp|lia].
  Qed.
  Lemma transformation_passes seltyp index lv s : within lv -> the (fun x => s_type x = seltyp /\ s_index x = index) ss s ->
    (forall s, In s ss -> s_parent s <> 0 -> exists m, moved num ts s m) -> s_parent s <> 0 ->
    passes ss (level_of lv) s -> get seltyp index lv = Err HierarchyError.
  Proof.
    intros Hw Hs Hall H0 Hps. destruct (enter seltyp index lv s Hw Hs) as (hrows & trows & HF1 & HF2 & ->). cbv zeta.
    destruct (Hall s (proj1 Hs) H0) as (m & Hm). rewrite (trans_no_ok trows s m HF2 Hm). cbn [rbind].
    inversion Hps as [s0 p Hp Hl|s0 p Hp Hl Hne Hps']; subst.
    - destruct (hier_no_ok hrows s p HF1 Hp) as (row' & -> & Hr'). cbn [rbind].
      destruct (super_fields hrows p row' Hr') as (E & _ & _). rewrite E. cbn [rbind]. destruct (Z.ltb_spec (level_of lv) (s_level p)); [reflexivity|lia].
    - destruct (hier_no_ok hrows s p HF1 Hp) as (row' & -> & Hr'). cbn [rbind].
      destruct (super_fields hrows p row' Hr') as (E & _ & _). rewrite E. cbn [rbind]. destruct (Z.ltb_spec (level_of lv) (s_level p)); [lia|].
      apply (climb_passes hrows trows _ p HF1 HF2 Hall Hps' _ _ _ Hr' Hl Hne); [apply Hp|lia].
  Qed.
  Lemma transformation_level1 seltyp index : get seltyp index (Level 1) = Ok (identity zero one).
  Proof.
    destruct hier_rec as (hrows & arr & E1 & HF1). destruct trans_rec as (trows & E2 & HF2). unfold get_transformation_with. rewrite E1. cbn [rbind]. rewrite E2. cbn [rbind].
    destruct (first_row hrows HF1) as (row0 & E3 & Hr0). cbn [t_rows]. rewrite E3. cbn [rbind]. destruct (super_fields hrows top row0 Hr0) as (-> & _ & _). reflexivity.
  Qed.
  Lemma transformation_outside seltyp index z : z < 1 \/ (1 < z /\ s_level top < z) -> get seltyp index (Level z) = Err HierarchyError.
  Proof.
    intro Hz. destruct hier_rec as (hrows & arr & E1 & HF1). destruct trans_rec as (trows & E2 & HF2). unfold get_transformation_with. rewrite E1. cbn [rbind]. rewrite E2. cbn [rbind].
    destruct (first_row hrows HF1) as (row0 & E3 & Hr0). cbn [t_rows]. rewrite E3. cbn [rbind]. destruct (super_fields hrows top row0 Hr0) as (-> & _ & _). cbn [rbind].
    destruct (Z.eqb_spec z 1); [lia|]. destruct (Z.ltb_spec (s_level top) z); [reflexivity|]. destruct (Z.ltb_spec z 1); [reflexivity|lia].
  Qed.
End Hier.

(** In a hierarchy everything is there. *)
Lemma the_NoDup {A B} (f : A -> B) l x b : NoDup (map f l) -> In x l -> f x = b -> the (fun y => f y = b) l x.
Proof.
  intros HN Hin <-. split; [exact Hin|]. split; [reflexivity|]. intros y Hy E.
  induction l as [|z l IH]; [destruct Hin|]. cbn in HN. inversion HN as [|? ? H1 H2]; subst.
  destruct Hin as [->|Hin], Hy as [->|Hy]; [reflexivity| | |auto]; exfalso; apply H1; [rewrite <- E|rewrite E]; now apply in_map.
Qed.
Section WellFormed.
  Context {A : Type}.
  Variables (num : cell -> A) (ss : list super) (ts : list (Z * list (list cell))) (top : super).
  Hypothesis HW : hierarchy ss ts top.
  Lemma top_or s : In s ss -> s = top \/ s_parent s <> 0.
  Proof.
    intro Hin. destruct HW as (_ & _ & _ & _ & H0 & HC).
    destruct (Z.eq_dec (s_parent s) 0) as [E|E]; [left|now right].
    assert (D : {s = top} + {s <> top}) by (decide equality; apply Z.eq_dec). destruct D as [D|D]; [exact D|]. apply (HC s Hin) in D. lia.
  Qed.
  Lemma not_top s : s_parent s <> 0 -> s <> top.
  Proof. destruct HW as (_ & _ & _ & _ & H0 & _). intros H ->. auto. Qed.
  Lemma hier_rising : rising ss.
  Proof.
    intros s p Hin (Hp & E & Hun) H0. destruct HW as (HN & _ & _ & _ & _ & HC). destruct (HC s Hin (not_top s H0)) as (_ & _ & (q & Hq & Eq & Hl) & _).
    now rewrite (Hun q Hq Eq) in Hl.
  Qed.
  Lemma has_trans s : In s ss -> s_parent s <> 0 -> exists m, moved num ts s m.
  Proof.
    intros Hin H0. destruct HW as (_ & _ & HN & _ & _ & HC). destruct (HC s Hin (not_top s H0)) as (_ & _ & _ & t & Ht & E).
    exists (map (map num) (snd t)), t. split; [|reflexivity]. now apply the_NoDup.
  Qed.
  Lemma has_parent s : In s ss -> s_parent s <> 0 -> exists p, parent ss s p /\ s_level s < s_level p.
  Proof.
    intros Hin H0. destruct HW as (HN & _ & _ & _ & _ & HC). destruct (HC s Hin (not_top s H0)) as (_ & _ & (q & Hq & Eq & Hl) & _).
    exists q. split; [|exact Hl]. now apply (the_NoDup s_ref).
  Qed.
  Lemma up_or_passes lev s : In s ss -> s_parent s <> 0 -> lev <= s_level top ->
    (exists m ms, up num ss ts lev s (m :: ms)) \/ passes ss lev s.
  Proof.
    intros Hin H0 Hlev.
    remember (Z.to_nat (lev - s_level s)) as n eqn:En. revert s Hin H0 En. induction n as [n IH] using lt_wf_ind. intros s Hin H0 En.
    destruct (has_trans s Hin H0) as (m & Hm). destruct (has_parent s Hin H0) as (p & Hp & Hl).
    destruct (Ztrichotomy (s_level p) lev) as [C|[C|C]].
    - assert (Hpin : In p ss) by apply Hp. assert (Hp0 : s_parent p <> 0). { destruct (top_or p Hpin) as [->|]; [lia|assumption]. }
      destruct (IH (Z.to_nat (lev - s_level p)) ltac:(lia) p Hpin Hp0 eq_refl) as [(m' & ms & HU)|HPs].
      + left. exists m, (m' :: ms). eapply up_next; eassumption.
      + right. eapply pass_next; eassumption.
    - left. exists m, []. now apply (up_last _ _ _ _ _ p).
    - right. apply (pass_here _ _ _ p); [exact Hp|lia].
  Qed.
  Lemma to_top s : In s ss -> s_parent s <> 0 -> exists m ms, up num ss ts (s_level top) s (m :: ms).
  Proof.
    intros Hin H0. destruct (up_or_passes (s_level top) s Hin H0 ltac:(lia)) as [H|H]; [exact H|]. exfalso.
    assert (G : forall p, In p ss -> s_level p <= s_level top).
    { intros p Hp. destruct (top_or p Hp) as [->|E]; [lia|]. destruct HW as (_ & _ & _ & _ & _ & HC). destruct (HC p Hp (not_top p E)) as (_ & K & _). lia. }
    clear H0. induction H as [s p Hp Hl|s p Hp Hl Hne H IH]; [specialize (G p (proj1 Hp)); lia|]. apply IH. apply Hp.
  Qed.
  Lemma the_super s : In s ss -> the (fun x => s_type x = s_type s /\ s_index x = s_index s) ss s.
  Proof.
    intro Hin. destruct HW as (_ & HN & _). destruct (the_NoDup (fun s => (s_type s, s_index s)) ss s _ HN Hin eq_refl) as (H1 & H2 & H3).
    split; [exact H1|]. split; [tauto|]. intros y Hy [E1 E2]. apply H3; [exact Hy|congruence].
  Qed.
End WellFormed.

(** ** Step by step, in exact arithmetic *)
Section Exact.
  Context {A : Type}.
  Variables (zero one : A) (add mul sub : A -> A -> A) (opp : A -> A).
  Hypothesis Rth : ring_theory zero one add mul sub opp eq.
  Add Ring Aring : Rth.
  Notation dot := (dot zero add mul).
  Notation rowdot := (rowdot zero add mul).
  Definition square (m : list (list A)) : Prop :=
    exists a b c d e f g h i j k l w x y z, m = [[a; b; c; d]; [e; f; g; h]; [i; j; k; l]; [w; x; y; z]].
  Lemma affine_square m : affine zero one m -> square m.
  Proof. intros (a & b & c & d & e & f & g & h & i & j & k & l & ->). now do 16 eexists. Qed.
  Lemma rowdot_dot v m n : length v = 4%nat -> square m -> square n -> rowdot v (dot m n) = rowdot (rowdot v m) n.
  Proof.
    intros Hv (a & b & c & d & e & f & g & h & i & j & k & l & w & x & y & z & ->)
           (a' & b' & c' & d' & e' & f' & g' & h' & i' & j' & k' & l' & w' & x' & y' & z' & ->).
    do 4 (destruct v as [|? v]; [discriminate|]). destruct v; [|discriminate].
    unfold Trans.rowdot, Trans.dot, Trans.rowdot, column. cbn [map nth dots]. repeat (f_equal; try ring).
  Qed.
  Lemma dot_square m n : square m -> square n -> square (dot m n).
  Proof.
    intros (a & b & c & d & e & f & g & h & i & j & k & l & w & x & y & z & ->) _.
    unfold Trans.dot, Trans.rowdot. cbn [map]. now do 16 eexists.
  Qed.
  Lemma rowdot_length v m : length (rowdot v m) = 4%nat.
  Proof. reflexivity. Qed.
  Lemma product_steps ms : forall m v, length v = 4%nat -> square m -> Forall square ms ->
    rowdot v (product (Trans.dot zero add mul) m ms) = fold_left rowdot ms (rowdot v m).
  Proof.
    unfold product. induction ms as [|n ms IH]; intros m v Hv Hm HF; [reflexivity|]. inversion HF; subst. cbn [fold_left].
    rewrite IH; [|exact Hv|now apply dot_square|assumption]. f_equal. now apply rowdot_dot.
  Qed.
  Lemma affine_move p m : length p = 3%nat -> affine zero one m -> rowdot (p ++ [one]) m = move add mul p m ++ [one].
  Proof.
    intros Hp (a & b & c & d & e & f & g & h & i & j & k & l & ->).
    do 3 (destruct p as [|? p]; [discriminate|]). destruct p; [|discriminate].
    unfold Trans.rowdot, column. cbn [map nth dots app move]. repeat (f_equal; try ring).
  Qed.
  Lemma move_length p m : length p = 3%nat -> affine zero one m -> length (move add mul p m) = 3%nat.
  Proof.
    intros Hp (a & b & c & d & e & f & g & h & i & j & k & l & ->).
    do 3 (destruct p as [|? p]; [discriminate|]). destruct p; [|discriminate]. reflexivity.
  Qed.
  Lemma affine_steps ms : forall p, length p = 3%nat -> Forall (affine zero one) ms ->
    fold_left rowdot ms (p ++ [one]) = fold_left (move add mul) ms p ++ [one].
  Proof.
    induction ms as [|m ms IH]; intros p Hp HF; [reflexivity|]. inversion HF; subst. cbn [fold_left].
    rewrite affine_move by assumption. apply IH; [now apply move_length|assumption].
  Qed.
  Lemma moves_length ms : forall p, length p = 3%nat -> Forall (affine zero one) ms -> length (fold_left (move add mul) ms p) = 3%nat.
  Proof. induction ms as [|m ms IH]; intros p Hp HF; [exact Hp|]. inversion HF; subst. cbn [fold_left]. apply IH; [now apply move_length|assumption]. Qed.
  (** A point moved by the product: moved by one after the other. *)
  Lemma step_by_step m ms p : length p = 3%nat -> Forall (affine zero one) (m :: ms) ->
    firstn 3 (rowdot (p ++ [one]) (product (Trans.dot zero add mul) m ms)) = fold_left (move add mul) (m :: ms) p.
  Proof.
    intros Hp HF. inversion HF as [|? ? H1 H2]; subst.
    rewrite product_steps; [|rewrite app_length, Hp; reflexivity|now apply affine_square|eapply Forall_impl; [|exact H2]; apply affine_square].
    change (fold_left rowdot ms (rowdot (p ++ [one]) m)) with (fold_left rowdot (m :: ms) (p ++ [one])).
    rewrite affine_steps by assumption. rewrite firstn_app, (moves_length (m :: ms) p Hp HF), Nat.sub_diag. rewrite app_nil_r.
    apply firstn_all2. now rewrite moves_length.
  Qed.
End Exact.

(** ** Coordinates *)
Section Coords.
  Context {A : Type}.
  Variables (zero one : A) (add mul : A -> A -> A) (num : cell -> A).
  Notation nodes := (get_nodes zero one add mul num).
  (** With a top level reference, 'top' and levels mean the transformation of the hierarchy. *)
  Lemma nodes_moved h d tops sets kind dis index st p t pts m : get_coords h d sets kind dis = Ok pts ->
    d_filetype d <> "R" -> d_seltyp d = Some st -> d_top d = Some p ->
    get_transformation zero one add mul num h (tops p) st index t = Ok m ->
    nodes h d tops sets kind dis (Some (match t with Top => TText "top" | Level z => TInt z end)) index =
      Ok (map (fun q => firstn 3 (rowdot zero add mul (map num q ++ [one]) m)) pts).
  Proof.
    intros HC Hf Hs Ht HG. unfold get_nodes, get_nodes_with. rewrite HC. cbn [rbind].
    destruct (String.eqb_spec (d_filetype d) "R"); [congruence|]. cbn [rbind]. rewrite Ht, Hs.
    destruct t; cbn [String.eqb Ascii.eqb Bool.eqb]; rewrite HG; cbn [rbind]; unfold dot; now rewrite !map_map.
  Qed.
  Lemma nodes_given h d tops sets kind dis index m pts : get_coords h d sets kind dis = Ok pts ->
    nodes h d tops sets kind dis (Some (TArr m)) index =
      if is44 m then Ok (map (fun q => firstn 3 (rowdot zero add mul (map num q ++ [one]) m)) pts) else Err ValueError.
  Proof.
    intros HC. unfold get_nodes, get_nodes_with. rewrite HC. cbn [rbind].
    destruct (is44 m); [|reflexivity]. cbn [rbind]. unfold dot. now rewrite !map_map.
  Qed.
  Lemma nodes_plain h d tops sets kind dis index pts : get_coords h d sets kind dis = Ok pts -> Forall (fun p => length p = 3%nat) pts ->
    nodes h d tops sets kind dis None index = Ok (map (map num) pts).
  Proof.
    intros HC HF. unfold get_nodes, get_nodes_with. rewrite HC. cbn [rbind]. f_equal. rewrite map_map. apply map_ext_in. intros p Hp.
    rewrite Forall_forall in HF. specialize (HF p Hp). rewrite firstn_app, map_length, HF, Nat.sub_diag. rewrite app_nil_r. apply firstn_all2. rewrite map_length. lia.
  Qed.
  (** Without, a level never works, and 'top' only for results data. *)
  Lemma nodes_no_top h d tops sets kind dis index t pts : get_coords h d sets kind dis = Ok pts ->
    d_top d = None ->
    (match t with TArr _ => False | TInt _ => True | TText s => s <> "top" \/ has_record_name d "RSUPTRAN" = false end) ->
    nodes h d tops sets kind dis (Some t) index = Err HierarchyError.
  Proof.
    intros HC Ht Hc. unfold get_nodes, get_nodes_with. rewrite HC. cbn [rbind].
    rewrite Ht. destruct t as [m|z|s]; [destruct Hc|reflexivity|].
    destruct Hc as [Hc| ->]; [|reflexivity]. destruct (String.eqb_spec s "top"); [congruence|]. now rewrite andb_false_r.
  Qed.
End Coords.
