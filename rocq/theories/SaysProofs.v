(** * SaysProofs: what the records say is found in the data set. *)
From Verif Require Import Base Flt SeqFile H5 Schema SeqSpec StoreSpec ParserSpec LayoutSpec FileSpec DataSpec RecordSpec StrucSpec ElemResSpec SaysSpec
  ListFacts StoreProofs DataProofs RecordProofs ParserRun.
Open Scope string_scope.
Open Scope Z_scope.
Open Scope list_scope.

(** ** Rows *)
Lemma stored_int v c z : stored TI v c -> (exists f, v = PF f /\ trunc_is f z) -> c = CI z.
Proof. intros S (f & -> & T). destruct c; try contradiction. destruct S as [S _]. f_equal. eapply trunc_unique; eauto. Qed.
Lemma stored_TI v c : stored TI v c -> exists z, c = CI z.
Proof. destruct v, c; cbn; try contradiction; eauto. Qed.
Lemma stored_real v c d : stored TF v c -> (exists f, v = PF f /\ d = CF (round32 f)) -> c = d.
Proof. intros S (f & -> & ->). destruct c; try contradiction. cbn in S. now subst. Qed.
Lemma text_of_fun n s x y : text_of n s x -> text_of n s y -> x = y.
Proof.
  assert (Q : forall (x y : list ascii) a b, (x = [] \/ last x blank <> nul) -> (y = [] \/ last y blank <> nul) ->
    x ++ repeat nul a = y ++ repeat nul b -> (length x <= length y)%nat -> x = y).
  { intros p q a b Hp Hq E L. assert (Eq : q = p ++ repeat nul (length q - length p)).
    { pose proof (f_equal (firstn (length q)) E) as F. rewrite (firstn_app _ q), Nat.sub_diag, firstn_all, firstn_O, app_nil_r in F.
      rewrite firstn_app, firstn_all2 in F by exact L. rewrite <- F at 1. f_equal.
      assert (La : (length q - length p <= a)%nat).
      { pose proof (f_equal (@length _) E) as G. rewrite !app_length, !repeat_length in G. lia. }
      remember (length q - length p)%nat as m. clear - La. revert a La. induction m as [|m IH]; intros [|a] La; cbn; try reflexivity; [lia|]. f_equal. apply IH. lia. }
    destruct (length q - length p)%nat as [|m] eqn:M; [cbn in Eq; now rewrite app_nil_r in Eq|].
    exfalso. destruct Hq as [Hq|Hq]; [rewrite Hq in M; cbn in M; lia|]. apply Hq. rewrite Eq. clear.
    replace (repeat nul (S m)) with (repeat nul m ++ [nul]) by (clear; induction m as [|m IH]; [reflexivity|cbn in *; now rewrite IH]).
    rewrite app_assoc. apply last_last. }
  intros (a & Ea & Ha) (b & Eb & Hb). rewrite Ea in Eb. destruct (Nat.le_ge_cases (length x) (length y)) as [L|L]; [eapply Q; eauto|].
  symmetry. eapply Q; eauto.
Qed.
Lemma stored_text v c x : stored (TS 64) v c -> (exists s, v = PS s /\ text_of 64 s x) -> c = CS x.
Proof. intros S (s & -> & T). destruct c; try contradiction. destruct S as [_ S]. f_equal. eapply text_of_fun; eauto. Qed.

(** The table of [n] after reading: rows and arrays. *)
Lemma tables_listed {A} n h w segs (says : nat -> entry -> A -> Prop) xs : tables h w segs -> In n stored_types -> listed n segs says xs ->
  exists con, holds h w n con /\ laid_out n (entries_of n segs) con.
Proof.
  intros T Hn (N & _). specialize (T n Hn). destruct (entries_of n segs) as [|e es]; [congruence|].
  destruct T as (con & P & H). exists con. split; [exact H|]. now apply put_laid_out.
Qed.
(** Rows one by one *)
Lemma listed_rows {A} n segs (says : nat -> entry -> A -> Prop) xs con (R : nat -> A -> list cell -> Prop) :
  listed n segs says xs -> laid_out n (entries_of n segs) con ->
  (forall j e x cs, nth_error (entries_of n segs) j = Some e -> nth_error xs j = Some x -> says j e x -> own_cells n e cs ->
     R j x (cs ++ range_cells (map (fun m => range_at (entries_of n segs) j m e) (seq 0 (length (elts_of n)))))) ->
  length (c_rows con) = length xs /\ forall j x, nth_error xs j = Some x -> exists row, nth_error (c_rows con) j = Some row /\ R j x row.
Proof.
  intros (N & L & S) (L1 & L2 & HR & HA) HX. split; [congruence|]. intros j x Hj.
  destruct (nth_error (entries_of n segs) j) as [e|] eqn:He.
  - destruct (HR j e He) as (_ & cs & O & Hrow). exists (cs ++ range_cells (map (fun m => range_at (entries_of n segs) j m e) (seq 0 (length (elts_of n))))).
    split; [exact Hrow|]. eapply HX; eauto.
  - exfalso. apply nth_error_None in He. assert (j < length xs)%nat by (apply nth_error_Some; congruence). lia.
Qed.
Lemma Forall2_of_nth {A B} (R : A -> B -> Prop) : forall l l', length l' = length l ->
  (forall j x, nth_error l j = Some x -> exists y, nth_error l' j = Some y /\ R x y) -> Forall2 R l l'.
Proof.
  induction l as [|a l IH]; intros [|b l'] L H; try discriminate; constructor.
  - destruct (H 0%nat a eq_refl) as (y & Hy & K). now injection Hy as ->.
  - apply IH; [now injection L|]. intros j x Hj. exact (H (S j) x Hj).
Qed.

(** Columns of a record, one by one *)
Lemma own_nth n e cs i t nm v : own_cells n e cs -> nth_error (columns n) i = Some (nm, t) -> nth_error (e_row e) i = Some v ->
  exists c, nth_error cs i = Some c /\ stored t v c.
Proof.
  intros [L F] Hc Hv. assert (X : nth_error (combine (map snd (columns n)) (e_row e)) i = Some (t, v)).
  { clear - Hc Hv. revert Hc Hv. generalize (columns n) as l, (e_row e) as r. revert i.
    induction i as [|i IH]; intros [|[a b] l] [|x r]; cbn; try discriminate; intros H1 H2; [now injection H1 as -> ->; injection H2 as ->|]. now apply IH. }
  destruct (DataProofs.Forall2_nth _ _ _ F _ _ X) as (c & Hn & S). now exists c.
Qed.
Lemma own_length n e cs : own_cells n e cs -> length cs = length (columns n).
Proof. intros [L F]. apply Forall2_length in F. rewrite combine_length, map_length in F. lia. Qed.
Lemma own_int n e cs i nm z : own_cells n e cs -> nth_error (columns n) i = Some (nm, TI) -> int_at e i z -> nth_error cs i = Some (CI z).
Proof.
  intros O Hc (f & Hf & T). destruct (own_nth _ _ _ _ _ _ _ O Hc Hf) as (c & Hn & S). rewrite Hn. f_equal. eapply stored_int; eauto.
Qed.
Lemma own_real n e cs i nm c : own_cells n e cs -> nth_error (columns n) i = Some (nm, TF) -> real_at e i c -> nth_error cs i = Some c.
Proof.
  intros O Hc (f & Hf & T). destruct (own_nth _ _ _ _ _ _ _ O Hc Hf) as (d & Hn & S). rewrite Hn. f_equal. eapply stored_real; eauto.
Qed.
Lemma own_text n e cs i nm x : own_cells n e cs -> nth_error (columns n) i = Some (nm, TS 64) -> text_at e i x -> nth_error cs i = Some (CS x).
Proof.
  intros O Hc (f & Hf & T). destruct (own_nth _ _ _ _ _ _ _ O Hc Hf) as (d & Hn & S). rewrite Hn. f_equal. eapply stored_text; eauto.
Qed.
Lemma own_any n e cs i nm : own_cells n e cs -> nth_error (columns n) i = Some (nm, TI) -> exists z, nth_error cs i = Some (CI z).
Proof.
  intros O Hc. destruct (nth_error (e_row e) i) as [v|] eqn:E.
  - destruct (own_nth _ _ _ _ _ _ _ O Hc E) as (c & Hn & S). apply stored_TI in S as (z & ->). now exists z.
  - exfalso. apply nth_error_None in E. destruct O as [L _]. assert (i < length (columns n))%nat by (apply nth_error_Some; congruence). lia.
Qed.

Ltac stored_ := apply str_in_spec; vm_compute; reflexivity.
(** [cs] spelled out, given its length *)
Ltac cells_ O cs := let L := fresh "L" in pose proof (own_length _ _ _ O) as L; vm_compute (length (columns _)) in L;
  do 20 (try (destruct cs as [|? cs]; cbn [length] in L; [try discriminate L|try discriminate L])); try discriminate L; clear L.
(** a whole number in column [i], whatever it is *)
Ltac any_ O i z := let H := fresh "A" in destruct (own_any _ _ _ i _ O eq_refl) as (z & H); cbn [nth_error] in H; injection H as ->.
Ltac int_ O H := let K := fresh "K" in match type of H with int_at _ ?i _ => pose proof (own_int _ _ _ i _ _ O eq_refl H) as K end; cbn [nth_error] in K; injection K as ->.
Ltac real_ O H := let K := fresh "K" in match type of H with real_at _ ?i _ => pose proof (own_real _ _ _ i _ _ O eq_refl H) as K end; cbn [nth_error] in K; injection K as ->.
Ltac text_ O H := let K := fresh "K" in match type of H with text_at _ ?i _ => pose proof (own_text _ _ _ i _ _ O eq_refl H) as K end; cbn [nth_error] in K; injection K as ->.

(** ** Nodes, coordinates, elements *)
Lemma nodes_found h w segs ns : tables h w segs -> listed "GNODE" segs node_says ns -> nodes_in h w ns.
Proof.
  intros T HL. destruct (tables_listed "GNODE" _ _ _ _ _ T ltac:(stored_) HL) as ([rows arrs] & H & LO).
  pose proof LO as (_ & L2 & _). destruct arrs; [|discriminate L2].
  destruct (listed_rows "GNODE" segs node_says ns _ (fun j n row => exists a b, row = [CI (n_ext n); CI (no_of j); CI a; CI b]) HL LO) as (L & R).
  { intros j e x cs _ _ (I0 & I1) O. change (seq 0 (length (elts_of "GNODE"))) with (@nil nat). cbn [map range_cells flat_map]. rewrite app_nil_r.
    cells_ O cs. int_ O I0. int_ O I1. any_ O 2%nat z2. any_ O 3%nat z3. now exists z2, z3. }
  exists rows. split; [exact H|]. split; [exact L|]. intros j n Hj. destruct (R j n Hj) as (row & Hr & a & b & ->). now exists a, b.
Qed.
Lemma coords_found h w segs ns : tables h w segs -> listed "GCOORD" segs coord_says ns -> coords_in h w ns.
Proof.
  intros T HL. destruct (tables_listed "GCOORD" _ _ _ _ _ T ltac:(stored_) HL) as ([rows arrs] & H & LO).
  pose proof LO as (_ & L2 & _). destruct arrs; [|discriminate L2].
  destruct (listed_rows "GCOORD" segs coord_says ns _ (fun j n row => length (n_xyz n) = 3%nat /\ row = CI (no_of j) :: n_xyz n) HL LO) as (L & R).
  { intros j e n cs _ _ (I0 & x & y & z & R1 & R2 & R3 & E) O. change (seq 0 (length (elts_of "GCOORD"))) with (@nil nat).
    cbn [map range_cells flat_map]. rewrite app_nil_r, E. cells_ O cs. int_ O I0. real_ O R1. real_ O R2. real_ O R3. now split. }
  exists rows. split; [exact H|]. split; [exact L|]. intros j n Hj. destruct (R j n Hj) as (row & Hr & L3 & ->). now split.
Qed.

(** lists of numbers *)
Lemma int_list_data e zs : int_list e zs -> exists fs, data 0 e = nums fs /\ Forall2 trunc_is fs zs.
Proof. intros (fs & E & F). exists fs. unfold data. now rewrite E. Qed.
Lemma int_list_len e zs : int_list e zs -> Zlen (data 0 e) = Zlen zs.
Proof. intros H. apply int_list_data in H as (fs & -> & F). apply Forall2_length in F. unfold Zlen, nums. now rewrite map_length, F. Qed.
Lemma stored_ints fs zs cs : Forall2 trunc_is fs zs -> Forall2 (stored TI) (nums fs) cs -> cs = map CI zs.
Proof.
  intros F. revert cs. induction F as [|f z fs zs T F IH]; intros cs S; inversion S; subst; [reflexivity|]. cbn [map]. f_equal.
  - eapply stored_int; [eassumption|eauto].
  - now apply IH.
Qed.
Lemma stored_reals fs cs : Forall2 (stored TF) (nums fs) cs -> cs = reals_ fs.
Proof.
  revert cs. induction fs as [|f fs IH]; intros cs S; inversion S; subst; [reflexivity|]. cbn [reals_ map]. f_equal.
  - eapply stored_real; [eassumption|eauto].
  - now apply IH.
Qed.
(** how much data comes before the [j]-th record *)
Lemma offset_before {A} (es : list entry) (xs : list A) (g : A -> Z) : length es = length xs ->
  (forall j e x, nth_error es j = Some e -> nth_error xs j = Some x -> Zlen (data 0 e) = g x) ->
  forall j, offset es j 0 = fold_right Z.add 0 (map g (firstn j xs)).
Proof.
  unfold offset. revert xs. induction es as [|e es IH]; intros [|x xs] L H j; try discriminate; [now rewrite !firstn_nil|].
  destruct j as [|j]; [reflexivity|]. cbn [firstn flat_map map fold_right]. rewrite Zlen_app.
  rewrite (H 0%nat e x eq_refl eq_refl). f_equal. apply IH; [now injection L|]. intros i a b Ha Hb. exact (H (S i) a b Ha Hb).
Qed.
Lemma before_sum es : forall j, before es j = fold_right Z.add 0 (map (fun e => Zlen (el_nodes e)) (firstn j es)).
Proof.
  unfold before. induction es as [|e es IH]; intros j; [now rewrite firstn_nil|]. destruct j as [|j]; [reflexivity|].
  cbn [firstn flat_map map fold_right]. rewrite Zlen_app. f_equal. apply IH.
Qed.
Lemma before_S es j e : nth_error es j = Some e -> before es (S j) = before es j + Zlen (el_nodes e).
Proof.
  unfold before. revert j. induction es as [|a es IH]; intros [|j] H; try discriminate.
  - injection H as ->. cbn. rewrite app_nil_r. reflexivity.
  - cbn [nth_error] in H. apply IH in H. cbn [firstn flat_map] in *. rewrite !Zlen_app in *. lia.
Qed.
Lemma all_ints es (xs : list (list Z)) arr : Forall2 (fun e zs => exists fs, data 0 e = nums fs /\ Forall2 trunc_is fs zs) es xs ->
  Forall2 (stored TI) (flat_map (data 0) es) arr -> arr = map CI (concat xs).
Proof.
  intros F. revert arr. induction F as [|e zs es xs (fs & E & T) F IH]; intros arr S; [now inversion S|].
  cbn [flat_map] in S. apply Forall2_app_inv_l in S as (a & b & Sa & Sb & ->). cbn [concat]. rewrite map_app. f_equal; [|now apply IH].
  rewrite E in Sa. now apply (stored_ints fs).
Qed.

Lemma elems_found h w segs es : tables h w segs -> listed "GELMNT1" segs elem_says es -> Forall (fun e => el_nodes e <> []) es -> elems_in h w es.
Proof.
  intros T HL NE. destruct (tables_listed "GELMNT1" _ _ _ _ _ T ltac:(stored_) HL) as ([rows arrs] & H & LO).
  pose proof LO as (_ & L2 & _ & LA). destruct arrs as [|arr [|]]; [discriminate L2| |discriminate L2].
  pose proof HL as (_ & LL & HS).
  assert (EO : forall j, offset (entries_of "GELMNT1" segs) j 0 = before es j).
  { intros j. rewrite before_sum. apply offset_before; [exact LL|]. intros i e x He Hx. destruct (HS i e x He Hx) as (_ & _ & _ & I). now apply int_list_len. }
  destruct (listed_rows "GELMNT1" segs elem_says es _ (fun j e row => exists a, row = [CI (el_ext e); CI (no_of j); CI (el_typ e); CI a; CI (before es j); CI (before es (S j))]) HL LO) as (L & R).
  { intros j e el cs He Hel (I0 & I1 & I2 & I3) O. change (seq 0 (length (elts_of "GELMNT1"))) with [0%nat]. cbn [map range_cells flat_map].
    assert (ER : range_at (entries_of "GELMNT1" segs) j 0 e = (before es j, before es (S j))).
    { unfold range_at. rewrite EO, (before_S _ _ _ Hel). pose proof (int_list_len _ _ I3) as LZ. destruct (data 0 e) eqn:D; [|now rewrite LZ].
      exfalso. rewrite Forall_forall in NE. apply (NE el (nth_error_In _ _ Hel)). unfold Zlen in LZ. cbn in LZ. destruct (el_nodes el); [reflexivity|cbn in LZ; lia]. }
    rewrite ER. cbn [fst snd app]. cells_ O cs. int_ O I0. int_ O I1. int_ O I2. any_ O 3%nat z. now exists z. }
  exists rows. split.
  - assert (EA : arr = map CI (flat_map el_nodes es)).
    { rewrite flat_map_concat_map. apply (all_ints (entries_of "GELMNT1" segs)); [|exact (LA 0%nat TI arr eq_refl eq_refl)].
      apply Forall2_of_nth; [rewrite map_length; congruence|]. intros j e He.
      destruct (nth_error es j) as [el|] eqn:Hel; [|exfalso; apply nth_error_None in Hel; assert (j < length (entries_of "GELMNT1" segs))%nat by (apply nth_error_Some; congruence); lia].
      exists (el_nodes el). split; [now rewrite nth_error_map, Hel|]. destruct (HS j e el He Hel) as (_ & _ & _ & I). now apply int_list_data. }
    now rewrite <- EA.
  - split; [exact L|]. intros j e He. destruct (R j e He) as (row & Hr & a & ->). now exists a.
Qed.
Theorem mesh_found h w segs ns es : tables h w segs -> mesh_on segs ns es -> mesh_in h w ns es.
Proof.
  intros T (N & C & E & F). split; [now apply (nodes_found _ _ segs)|]. split; [now apply (coords_found _ _ segs)|].
  split; [|exact F]. apply (elems_found _ _ segs); try assumption. eapply Forall_impl; [|exact F]. intros e [H _]. exact H.
Qed.

(** ** Lists by their ranges *)
Lemma slice_at n es con j e t arr : laid_out n es con -> nth_error es j = Some e -> elts_of n = [t] -> c_arrs con = [arr] ->
  let r := range_at es j 0 e in
  0 <= fst r <= snd r /\ snd r <= Zlen arr /\ Forall2 (stored t) (data 0 e) (firstn (Z.to_nat (snd r - fst r)) (skipn (Z.to_nat (fst r)) arr)).
Proof.
  intros (L1 & L2 & R & A) Hj Et Ea. specialize (A 0%nat t arr). rewrite Et, Ea in A. specialize (A eq_refl eq_refl). pose proof (stored_len _ _ _ A) as LA.
  rewrite (nth_split_at _ _ _ Hj) in A, LA. rewrite flat_map_app in A, LA. cbn [flat_map] in A, LA. rewrite !Zlen_app in LA.
  unfold range_at. destruct (data 0 e) as [|d0 d] eqn:Ed.
  - cbn [fst snd Z.sub Z.to_nat firstn]. repeat split; try lia; [unfold Zlen; lia|constructor].
  - cbn [fst snd] in *. unfold offset. unfold Zlen in LA. cbn [length] in LA.
    repeat split; try (unfold Zlen; cbn [length]; lia).
    rewrite <- Ed in *. apply Forall2_slice in A. unfold Zlen.
    rewrite Nat2Z.id. replace (Z.to_nat _) with (length (data 0 e)) by lia. exact A.
Qed.
Lemma slice_ints n es con j e arr zs : laid_out n es con -> nth_error es j = Some e -> elts_of n = [TI] -> c_arrs con = [arr] -> int_list e zs ->
  let r := range_at es j 0 e in
  0 <= fst r <= snd r /\ snd r <= Zlen arr /\ firstn (Z.to_nat (snd r - fst r)) (skipn (Z.to_nat (fst r)) arr) = map CI zs.
Proof.
  intros LO Hj Et Ea I. destruct (slice_at _ _ _ _ _ _ _ LO Hj Et Ea) as (A & B & C). split; [exact A|]. split; [exact B|].
  apply int_list_data in I as (fs & E & F). rewrite E in C. exact (stored_ints _ _ _ F C).
Qed.
Lemma slice_reals n es con j e arr cs : laid_out n es con -> nth_error es j = Some e -> elts_of n = [TF] -> c_arrs con = [arr] -> real_list e cs ->
  let r := range_at es j 0 e in
  0 <= fst r <= snd r /\ snd r <= Zlen arr /\ firstn (Z.to_nat (snd r - fst r)) (skipn (Z.to_nat (fst r)) arr) = cs.
Proof.
  intros LO Hj Et Ea (fs & E & ->). destruct (slice_at _ _ _ _ _ _ _ LO Hj Et Ea) as (A & B & C). split; [exact A|]. split; [exact B|].
  unfold data in C. rewrite E in C. cbn [nth] in C. exact (stored_reals _ _ C).
Qed.
(** Rows in order *)
Lemma listed_Forall2 {A} n segs (says : nat -> entry -> A -> Prop) xs con (R : A -> list cell -> Prop) :
  listed n segs says xs -> laid_out n (entries_of n segs) con ->
  (forall j e x cs, nth_error (entries_of n segs) j = Some e -> says j e x -> own_cells n e cs ->
     R x (cs ++ range_cells (map (fun m => range_at (entries_of n segs) j m e) (seq 0 (length (elts_of n)))))) ->
  Forall2 R xs (c_rows con).
Proof.
  intros HL LO H. destruct (listed_rows n segs says xs con (fun _ x row => R x row) HL LO) as (L & K).
  - intros j e x cs He _ S O. exact (H j e x cs He S O).
  - apply Forall2_of_nth; assumption.
Qed.
Ltac table_ n T HL rows arr H LO := let L2 := fresh in
  destruct (tables_listed n _ _ _ _ _ T ltac:(stored_) HL) as ([rows [|arr [|]]] & H & LO); pose proof LO as (_ & L2 & _); try discriminate L2; clear L2.
Ltac table0_ n T HL rows H LO := let L2 := fresh in
  destruct (tables_listed n _ _ _ _ _ T ltac:(stored_) HL) as ([rows [|]] & H & LO); pose proof LO as (_ & L2 & _); try discriminate L2; clear L2.
Ltac one_range_ n := change (seq 0 (length (elts_of n))) with [0%nat]; cbn [map range_cells flat_map app].

Lemma setnames_found h w segs nms : tables h w segs -> listed "TDSETNAM" segs setname_says nms -> setnames_in h w nms.
Proof.
  intros T HL. table_ "TDSETNAM" T HL rows arr H LO. exists rows, arr. split; [exact H|].
  apply (listed_Forall2 "TDSETNAM" segs setname_says nms _ _ HL LO). intros j e nm cs He (I1 & I4) O. one_range_ "TDSETNAM".
  cells_ O cs. int_ O I1. text_ O I4. any_ O 0%nat z0. any_ O 2%nat z2. any_ O 3%nat z3. do 5 eexists. reflexivity.
Qed.
Lemma members_found h w segs ms : tables h w segs -> listed "GSETMEMB" segs member_says ms -> members_in h w ms.
Proof.
  intros T HL. table_ "GSETMEMB" T HL rows arr H LO. exists rows, arr. split; [exact H|].
  apply (listed_Forall2 "GSETMEMB" segs member_says ms _ _ HL LO). intros j e m cs He (I1 & I3 & I) O. one_range_ "GSETMEMB".
  destruct (slice_ints _ _ _ _ _ _ _ LO He eq_refl eq_refl I) as (A & B & C).
  cells_ O cs. int_ O I1. int_ O I3. any_ O 0%nat z0. any_ O 2%nat z2. any_ O 4%nat z4. do 5 eexists. split; [reflexivity|]. exact (conj A (conj B C)).
Qed.
Theorem proper_found h w segs es nms ms sets kind : tables h w segs -> proper_on segs es nms ms sets kind -> proper h w es nms ms sets kind.
Proof.
  intros T [P K]. split; [|exact K]. intros N. destruct (P N) as ((S1 & S2) & P1 & P2 & P3).
  split; [now apply (setnames_found _ _ segs)|]. split; [now apply (members_found _ _ segs)|]. exact (conj P1 (conj P2 P3)).
Qed.
Theorem refs_found h w segs rs : tables h w segs -> refs_on segs rs -> refs_in h w rs.
Proof.
  intros T HL. table_ "RDRESREF" T HL rows arr H LO. exists rows, arr. split; [exact H|].
  apply (listed_Forall2 "RDRESREF" segs ref_says rs _ _ HL LO). intros j e r cs He (I1 & I2 & I3 & I5) O. one_range_ "RDRESREF".
  cells_ O cs. int_ O I1. int_ O I2. int_ O I3. int_ O I5. any_ O 0%nat z0. any_ O 4%nat z4. any_ O 6%nat z6. do 5 eexists. reflexivity.
Qed.
Lemma noderes_case n : In n nodres_types -> In n stored_types /\ columns n = d_rvnodres /\ elts_of n = [TF].
Proof. intros [<-|[<-|[<-|[]]]]; (split; [stored_|split; reflexivity]). Qed.
Theorem noderes_found h w segs rn nn bs : In rn nodres_types -> tables h w segs -> noderes_on segs rn nn bs -> noderes_in h w rn nn bs.
Proof.
  intros Hrn T [HB HL]. destruct (noderes_case rn Hrn) as (Hs & Ec & Ee).
  destruct (tables_listed rn _ _ _ _ _ T Hs HL) as ([rows arrs] & H & LO). pose proof LO as (_ & L2 & _). cbn [c_arrs] in L2. rewrite Ee in L2.
  destruct arrs as [|arr [|]]; try discriminate L2. exists rows, arr. split; [exact H|]. split; [exact HB|].
  apply (listed_Forall2 rn segs noderes_says (flat bs) _ _ HL LO). intros j e x cs He (I1 & I2 & I) O. rewrite Ee. cbn [length seq map range_cells flat_map app].
  destruct (slice_reals _ _ _ _ _ _ _ LO He Ee eq_refl I) as (A & B & C).
  pose proof (own_length _ _ _ O) as L. rewrite Ec in L.
  do 5 (destruct cs as [|? cs]; [discriminate L|]). destruct cs; [|discriminate L]. clear L.
  Ltac cel Ec O H := match type of H with int_at _ ?i _ => let K := fresh in
    epose proof (own_int _ _ _ i _ _ O ltac:(rewrite Ec; reflexivity) H) as K; cbn [nth_error] in K; injection K as -> end.
  Ltac anyc Ec O i z := let K := fresh in edestruct (own_any _ _ _ i _ O ltac:(rewrite Ec; reflexivity)) as (z & K); cbn [nth_error] in K; injection K as ->.
  cel Ec O I1. cel Ec O I2. anyc Ec O 0%nat z0. anyc Ec O 3%nat z3. anyc Ec O 4%nat z4. do 5 eexists. split; [reflexivity|]. exact (conj A (conj B C)).
Qed.
Lemma elemres_case n : In n elmres_types -> In n stored_types /\ columns n = d_rvelmres /\ elts_of n = [TF].
Proof. intros [<-|[<-|[<-|[]]]]; (split; [stored_|split; reflexivity]). Qed.
Theorem elemres_found h w segs rn es bs : In rn elmres_types -> tables h w segs -> elemres_on segs rn es bs -> elemres_in h w rn es bs.
Proof.
  intros Hrn T HL. destruct (elemres_case rn Hrn) as (Hs & Ec & Ee).
  destruct (tables_listed rn _ _ _ _ _ T Hs HL) as ([rows arrs] & H & LO). pose proof LO as (_ & L2 & _). cbn [c_arrs] in L2. rewrite Ee in L2.
  destruct arrs as [|arr [|]]; try discriminate L2. exists rows, arr. split; [exact H|].
  apply (listed_Forall2 rn segs (elemres_says es) (eflat bs) _ _ HL LO). intros j e x cs He (el & Hel & I1 & I2 & I4 & I) O. rewrite Ee. cbn [length seq map range_cells flat_map app].
  destruct (slice_reals _ _ _ _ _ _ _ LO He Ee eq_refl I) as (A & B & C).
  pose proof (own_length _ _ _ O) as L. rewrite Ec in L.
  do 5 (destruct cs as [|? cs]; [discriminate L|]). destruct cs; [|discriminate L]. clear L.
  cel Ec O I1. cel Ec O I2. cel Ec O I4. anyc Ec O 0%nat z0. anyc Ec O 3%nat z3. do 2 eexists. exists el. do 2 eexists. split; [exact Hel|]. split; [reflexivity|]. exact (conj A (conj B C)).
Qed.
Theorem loads_found h w segs ls : tables h w segs -> loads_on segs ls -> loads_in h w ls.
Proof.
  intros T HL. table_ "TDLOAD" T HL rows arr H LO. exists rows, arr. split; [exact H|].
  apply (listed_Forall2 "TDLOAD" segs load_says ls _ _ HL LO). intros j e nm cs He (I1 & I4) O. one_range_ "TDLOAD".
  cells_ O cs. int_ O I1. text_ O I4. any_ O 0%nat z0. any_ O 2%nat z2. any_ O 3%nat z3. do 5 eexists. reflexivity.
Qed.

(** ** Properties of elements *)
Lemma nth_error_ext_ {A} n : forall l m : list A, length l = n -> length m = n -> (forall i, (i < n)%nat -> nth_error l i = nth_error m i) -> l = m.
Proof.
  induction n as [|n IH]; intros [|a l] [|b m] L1 L2 H; try discriminate; [reflexivity|].
  pose proof (H 0%nat ltac:(lia)) as H0. injection H0 as ->. f_equal. apply IH; [now injection L1|now injection L2|].
  intros i Hi. exact (H (S i) ltac:(lia)).
Qed.
Theorem geo_found h w segs gs : tables h w segs -> geo_on segs gs -> geo_in h w gs.
Proof.
  intros T HL. destruct (tables_listed "GELREF1" _ _ _ _ _ T ltac:(stored_) HL) as ([rows arrs] & H & LO). exists rows, arrs. split; [exact H|].
  destruct (listed_rows "GELREF1" segs geo_says gs _ (fun j g r => exists a b, length a = 7%nat /\ r = CI (no_of j) :: a ++ CI g :: b) HL LO) as (L & R).
  { intros j e g cs _ _ (I0 & I8) O. generalize (range_cells (map (fun m => range_at (entries_of "GELREF1" segs) j m e) (seq 0 (length (elts_of "GELREF1"))))) as rc. intros rc.
    cells_ O cs. int_ O I0. int_ O I8. match goal with |- exists a b, _ /\ _ :: ?x1 :: ?x2 :: ?x3 :: ?x4 :: ?x5 :: ?x6 :: ?x7 :: _ :: ?r ++ rc = _ => idtac | _ => idtac end.
    cbn [app]. do 2 eexists. split; [|match goal with |- _ :: ?x1 :: ?x2 :: ?x3 :: ?x4 :: ?x5 :: ?x6 :: ?x7 :: ?g :: ?r = _ => instantiate (2 := [x1; x2; x3; x4; x5; x6; x7]); reflexivity end]. reflexivity. }
  apply Forall2_of_nth; [rewrite combine_length, seq_length; cbn [c_rows] in L; lia|].
  intros j [i g] Hj. assert (Hi : i = j /\ nth_error gs j = Some g).
  { clear - Hj. assert (Q : forall l s j, nth_error (combine (seq s (length l)) l) j = Some (i, g) -> i = (s + j)%nat /\ nth_error l j = Some g).
    { induction l as [|a l IH]; intros s [|k] Hk; cbn in Hk; try discriminate; [injection Hk as <- <-; split; [lia|reflexivity]|].
      destruct (IH (S s) k Hk) as [-> K]. split; [lia|exact K]. }
    destruct (Q gs 0%nat j Hj) as [-> K]. now split. }
  destruct Hi as [-> Hg]. destruct (R j g Hg) as (row & Hr & a & b & La & ->). cbn [fst snd]. eexists. split; [exact Hr|]. now exists a, b.
Qed.
Theorem sections_found h w segs ps : tables h w segs -> sections_on segs ps -> sections_in h w ps.
Proof.
  intros T HL. table0_ "GBEAMG" T HL rows H LO. exists rows. split; [exact H|].
  apply (listed_Forall2 "GBEAMG" segs section_says ps _ _ HL LO). intros j e [z l] cs He (I0 & L & R) O. change (seq 0 (length (elts_of "GBEAMG"))) with (@nil nat). cbn [map range_cells flat_map fst snd] in *. rewrite app_nil_r.
  pose proof (own_length _ _ _ O) as LC. change (length (columns "GBEAMG")) with 16%nat in LC. destruct cs as [|c cs]; [discriminate LC|]. int_ O I0. f_equal.
  apply nth_error_ext_ with (n := 15%nat); [now injection LC|exact L|].
  intros i Hi. destruct (nth_error l i) as [d|] eqn:Ed; [|apply nth_error_None in Ed; lia]. specialize (R i d Ed).
  assert (Hc : exists nm, nth_error (columns "GBEAMG") (S i) = Some (nm, TF)).
  { clear - Hi. do 15 (destruct i as [|i]; [eexists; reflexivity|]). lia. }
  destruct Hc as (nm & Hc). pose proof (own_real _ _ _ _ _ _ O Hc R) as K. exact K.
Qed.
Theorem thicknesses_found h w segs ps : tables h w segs -> thicknesses_on segs ps -> thicknesses_in h w ps.
Proof.
  intros T HL. table0_ "GELTH" T HL rows H LO. exists rows. split; [exact H|].
  apply (listed_Forall2 "GELTH" segs thickness_says ps _ _ HL LO). intros j e p cs He (I0 & R1) O. change (seq 0 (length (elts_of "GELTH"))) with (@nil nat). cbn [map range_cells flat_map]. rewrite app_nil_r.
  cells_ O cs. int_ O I0. real_ O R1. eexists. reflexivity.
Qed.
