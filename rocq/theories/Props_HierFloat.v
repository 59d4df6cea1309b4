(** * Accuracy of the transformations of superelements: C83 *)
From Verif Require Import Base ListFacts Flt SeqFile H5 Schema Parsers Data Struc StoreSpec FileSpec SaysSpec SaysProofs SifNameSpec SifName Convert ConvertSpec AssemblySpec AssemblyOpen Files Trans TransSpec TransProofs CoordsProofs HierFile
  IeeeSpec IeeeFacts IeeeExists DotSpec DotProofs ElemFloat ElemFloatNum CoordsFloat Props_CoordsFloat HierNum ConvertSample TransSample FltValue Props_ElemFloat Props_Hier.
From Coq Require Import Reals Lra Lia.
Open Scope string_scope.
Open Scope Z_scope.
Open Scope list_scope.

(** The product of two matrices, the sizes of the entries *)
Definition product4 (a b : list (list R)) : list (list R) :=
  map (fun i => map (fun j => (el a i 0 * el b 0 j + el a i 1 * el b 1 j + el a i 2 * el b 2 j + el a i 3 * el b 3 j)%R) [0; 1; 2; 3]%nat) [0; 1; 2; 3]%nat.
Definition columns_within (c : R) (m : list (list R)) : Prop :=
  forall j, (j < 4)%nat -> (Rabs (el m 0 j) + Rabs (el m 1 j) + Rabs (el m 2 j) + Rabs (el m 3 j) <= c)%R.
(** The matrix found for a chain of matrices, against the product in exact
    arithmetic: entry by entry, relative to the product of the sizes; [n]
    multiplications, the sum of the sizes of each column at most [c].  The second
    term is there for results too small for full precision. *)
Definition near_product (m : list (list R)) (ms : list (list (list R))) (found : list (list R)) : Prop :=
  four found /\
  forall c, let n := length ms in
  (1 <= c)%R -> Forall (columns_within c) (m :: ms) -> (n <= 1000)%nat -> ((2 * c) ^ (n + 1) <= powerRZ 2 99)%R ->
  forall i j, (i < 4)%nat -> (j < 4)%nat ->
    (Rabs (el found i j - el (fold_left product4 ms m) i j) <=
       8.2 * INR n * powerRZ 2 (-24) * el (fold_left product4 (map mabs ms) (mabs m)) i j + 8 * INR n * powerRZ 2 (-149) * (2 * c) ^ n)%R.

Lemma dot_product4 a b : four a -> four b -> rdot a b = product4 a b.
Proof.
  intros [LA FA] [LB FB]. destruct a as [|a1 [|a2 [|a3 [|a4 [|]]]]]; try discriminate LA. destruct b as [|b1 [|b2 [|b3 [|b4 [|]]]]]; try discriminate LB.
  assert (R : forall x y : list R, length x = 4%nat -> length y = 4%nat -> rdots x y = (nth 0 x 0 * nth 0 y 0 + nth 1 x 0 * nth 1 y 0 + nth 2 x 0 * nth 2 y 0 + nth 3 x 0 * nth 3 y 0)%R) by exact dots4.
  assert (A : forall x, In x [a1; a2; a3; a4] -> length x = 4%nat) by (now apply Forall_forall).
  unfold Trans.dot, Trans.rowdot, Trans.column, product4, el. cbn [map nth].
  rewrite !R by (reflexivity || apply A; cbn; tauto). reflexivity.
Qed.
Lemma fold_product4 ms : forall m, four m -> Forall four ms -> fold_left rdot ms m = fold_left product4 ms m.
Proof.
  induction ms as [|b ms IH]; intros m M F; [reflexivity|]. inversion F; subst. cbn [fold_left]. rewrite <- dot_product4 by assumption. apply IH; [now apply four_dot|assumption].
Qed.
Lemma fold_four d ms : forall m, four m -> four (fold_left (times_fl d) ms m).
Proof. induction ms as [|b ms IH]; intros m M; [exact M|]. cbn [fold_left]. apply IH. now apply four_times. Qed.
Lemma near_product_ok rs dot m ms : rounds single rs -> (forall i j v w, computes rs (combine v w) (dot i j v w)) -> Forall four (m :: ms) -> near_product m ms (fold_left (times_fl dot) ms m).
Proof.
  intros RS HD F. inversion F as [|? ? F1 F2]; subst. split; [now apply fold_four|]. cbv zeta. intros c C N L B i j Hi Hj.
  assert (F3 : Forall four (map mabs ms)) by (rewrite Forall_map; eapply Forall_impl; [|exact F2]; intros; now apply four_mabs).
  rewrite <- (fold_product4 ms m F1 F2), <- (fold_product4 (map mabs ms) (mabs m) (four_mabs m F1) F3).
  apply (chain_near rs dot c RS HD C m ms L F); [|exact B|exact Hi|exact Hj]. eapply Forall_impl; [|exact N]. intros x X k K. exact (X k K).
Qed.

(** C83.  What get_transformation gives for a data object with the records [segs],
    with every operation rounded to single precision, whichever way the library
    sums products. *)
Definition gives_near_products (rs : R -> R) (h : h5) (o : sdata) (segs : list seg) : Prop :=
  forall (dot : nat -> nat -> list R -> list R -> R), (forall i j v w, computes rs (combine v w) (dot i j v w)) ->
  forall num ss ts top, supers_on segs ss -> shifts_on segs ts -> hierarchy ss ts top ->
  let get := get_transformation_fl dot num h o in
  (forall s, In s ss -> s <> top ->
    (exists m ms found, TransSpec.up num ss ts (s_level top) s (m :: ms) /\ get (s_type s) (s_index s) Trans.Top = Ok found /\ near_product m ms found) /\
    (forall lev, 1 < lev <= s_level top ->
       (exists m ms found, TransSpec.up num ss ts lev s (m :: ms) /\ get (s_type s) (s_index s) (Level lev) = Ok found /\ near_product m ms found) \/
       (passes ss lev s /\ get (s_type s) (s_index s) (Level lev) = Err HierarchyError))) /\
  (forall t i, get t i (Level 1) = Ok [[1; 0; 0; 0]; [0; 1; 0; 0]; [0; 0; 1; 0]; [0; 0; 0; 1]]%R).
Lemma gives_near_products_ok rs h o segs : rounds single rs -> gives_transformations h o segs -> gives_near_products rs h o segs.
Proof.
  intros RS G dot HD num ss ts top S1 S2 HR. cbv zeta. unfold get_transformation_fl. destruct (G R 0%R 1%R (times_fl dot) num ss ts top S1 S2 HR) as (G1 & G2 & _).
  pose proof (shifts_four segs ts num S2) as SF. split; [|exact G2]. intros s Hs Hn. destruct (G1 s Hs) as [T L]. split.
  - destruct (T Hn) as (m & ms & U & E). do 3 eexists. split; [exact U|]. split; [exact E|]. apply (near_product_ok rs dot m ms RS HD). exact (chain_four num ss ts _ s _ SF U).
  - intros lev Hl. destruct (L lev Hn Hl) as [(m & ms & U & E)|P]; [left|now right]. do 3 eexists. split; [exact U|]. split; [exact E|]. apply (near_product_ok rs dot m ms RS HD). exact (chain_four num ss ts _ s _ SF U).
Qed.
Theorem C83_file : forall rs, rounds single rs -> forall d top letter id segs g, sesam_file d top letter id segs -> top_level letter segs -> 0 < g_batch g ->
  exists g' h o, open_sif d top g = Ok (g', h, KTop, o) /\ gives_near_products rs h o segs.
Proof.
  intros rs RS d top letter id segs g HF HL Hb. destruct (C82_file d top letter id segs g HF HL Hb) as (g' & h & o & E & G). exists g', h, o. split; [exact E|]. now apply gives_near_products_ok.
Qed.
Print Assumptions C83_file.
Theorem C83_converted : forall rs, rounds single rs -> forall d top fp letter no ext (usefp : bool) prefix pre k id b segs ps g st out,
  sesam_name (s2l top) (s2l fp, s2l letter, no, s2l ext) -> no_extension (s2l fp) -> ~ sin_ext (s2l ext) -> In letter ["R"; "T"; "L"] -> out <> "" ->
  pre = (if usefp then prefix ++ fp else prefix)%string -> assembly d fp letter ext pre k id b segs ps -> file_in d top = Some b -> 0 < g_batch g -> top_level letter segs ->
  exists g' st' evs es o, sif2hdf5 d top (Some out) false usefp prefix [] g st = Ok (g', st', evs) /\ file_data (store_in st' out) = Ok es /\
    get_data (nm_of pre letter id) es = Ok (KTop, o) /\ gives_near_products rs (store_in st' out) o segs.
Proof.
  intros rs RS d top fp letter no ext usefp prefix pre k id b segs ps g st out N X S L O P A F G TL.
  destruct (C82_converted d top fp letter no ext usefp prefix pre k id b segs ps g st out N X S L O P A F G TL) as (g' & st' & evs & es & o & H1 & H2 & H3 & H4).
  exists g', st', evs, es, o. split; [exact H1|]. split; [exact H2|]. split; [exact H3|]. now apply gives_near_products_ok.
Qed.
Print Assumptions C83_converted.

(** The chain of a superelement is the only one *)
Lemma chain_unique {A} (num : cell -> A) ss ts lev s ms : TransSpec.up num ss ts lev s ms -> forall ms', TransSpec.up num ss ts lev s ms' -> ms' = ms.
Proof.
  assert (MU : forall s m m', moved num ts s m -> moved num ts s m' -> m' = m). { intros s0 m m' (t & T & ->) (t' & T' & ->). replace t' with t; [reflexivity|]. symmetry. apply T; apply T'. }
  assert (PU : forall s p p', parent ss s p -> parent ss s p' -> p' = p) by (intros s0 p p' T T'; apply T; apply T').
  induction 1 as [s p m Hm Hp Hl|s p m ms Hm Hp Hl Hn U IH]; intros ms' U'; inversion U' as [? p' m' Hm' Hp' Hl'|? p' m' ms0 Hm' Hp' Hl' Hn' U0]; subst;
    pose proof (PU _ _ _ Hp Hp'); pose proof (MU _ _ _ Hm Hm'); subst; try lia; [reflexivity|]. f_equal. now apply IH.
Qed.
Lemma t_chain : TransSpec.up v_num y_ss y_ts 3 y_low [map (map v_num) y_m2; map (map v_num) y_m1].
Proof.
  assert (Un : forall s p, In p y_ss -> s_ref p = s_parent s -> parent y_ss s p).
  { intros s p Hp E. split; [exact Hp|]. split; [exact E|]. intros q Hq Eq.
    repeat (destruct Hp as [<-|Hp]; [repeat (destruct Hq as [<-|Hq]; [cbn in *; congruence|]); destruct Hq|]); destruct Hp. }
  eapply (up_next v_num y_ss y_ts 3 y_low y_mid).
  - exists (2, y_m2). split; [|reflexivity]. split; [cbn; tauto|]. split; [reflexivity|]. intros y [<-|[<-|[<-|[]]]]; cbn; congruence.
  - apply Un; [cbn; tauto|reflexivity].
  - reflexivity.
  - discriminate.
  - eapply (up_last v_num y_ss y_ts 3 y_mid y_top).
    + exists (1, y_m1). split; [|reflexivity]. split; [cbn; tauto|]. split; [reflexivity|]. intros y [<-|[<-|[<-|[]]]]; cbn; congruence.
    + apply Un; [cbn; tauto|reflexivity].
    + reflexivity.
Qed.
(** The file of three levels: one multiplication *)
Example C83_case : exists g' h o found, open_sif t_dir "shipT3.FEM" glob0 = Ok (g', h, KTop, o) /\
  get_transformation_fl v_dot v_num h o 1 1 Trans.Top = Ok found /\
  (Rabs (el found 0 1 - 1) <= 0.001 /\ Rabs (el found 3 0 - 5) <= 0.001 /\ Rabs (el found 3 2 - 2) <= 0.001 /\ Rabs (el found 0 0) <= 0.001)%R.
Proof.
  destruct C82_case as (F & L & S1 & S2 & H & _).
  destruct (C83_file (ieee single) (ieee_rounds single eq_refl eq_refl) t_dir "shipT3.FEM" "T" 3 t_segs glob0 F L eq_refl) as (g' & h & o & E & G).
  destruct (G v_dot (fun i j v w => from_right_computes _ _) v_num y_ss y_ts y_top S1 S2 H) as [G1 _]. destruct (G1 y_low ltac:(cbn; tauto) ltac:(discriminate)) as [(m & ms & found & U & Q & _ & N) _].
  pose proof (chain_unique _ _ _ _ _ _ t_chain _ U) as X. assert (m = map (map v_num) y_m2) as -> by congruence. assert (ms = [map (map v_num) y_m1]) as -> by congruence. exists g', h, o, found. split; [exact E|]. split; [exact Q|].
  assert (E1 : map (map v_num) y_m1 = [[1; 0; 0; 0]; [0; 1; 0; 0]; [0; 0; 1; 0]; [5; 0; 0; 1]]%R) by reflexivity.
  assert (E2 : map (map v_num) y_m2 = [[0; 1; 0; 0]; [1; 0; 0; 0]; [0; 0; 1; 0]; [0; 0; 2; 1]]%R) by reflexivity.
  cbv zeta in N. rewrite E1, E2 in N. specialize (N 6%R ltac:(lra)).
  assert (A0 : Rabs 0 = 0%R) by exact Rabs_R0. assert (A1 : Rabs 1 = 1%R) by (apply Rabs_right; lra). assert (A2 : Rabs 2 = 2%R) by (apply Rabs_right; lra). assert (A5 : Rabs 5 = 5%R) by (apply Rabs_right; lra).
  assert (B : (144 <= powerRZ 2 99)%R). { apply Rle_trans with (p2 10); [rewrite p2_nat by lia; apply IZR_le; vm_compute; discriminate|apply p2_le; lia]. }
  match type of N with ?P -> _ => assert (W : P) end.
  { apply Forall_cons; [|apply Forall_cons; [|apply Forall_nil]]; intros [|[|[|[|j]]]] J; try lia; unfold el; cbn [nth]; rewrite ?A0, ?A1, ?A2, ?A5; lra. }
  specialize (N W ltac:(cbn; lia)). match type of N with ?P -> _ => assert (W' : P) by (cbn [length Nat.add pow]; lra) end. pose proof (N W') as N'. clear N W W'.
  cbn [length INR fold_left map] in N'. unfold mabs in N'. cbn [map] in N'. rewrite ?A0, ?A1, ?A2, ?A5 in N'. fold u1 low1 in N'. pose proof u1_size. pose proof low2_small. pose proof u2_u1.
  assert (Y : product4 [[0; 1; 0; 0]; [1; 0; 0; 0]; [0; 0; 1; 0]; [0; 0; 2; 1]]%R [[1; 0; 0; 0]; [0; 1; 0; 0]; [0; 0; 1; 0]; [5; 0; 0; 1]]%R = [[0; 1; 0; 0]; [1; 0; 0; 0]; [0; 0; 1; 0]; [5; 0; 2; 1]]%R).
  { unfold product4, el. cbn [map nth]. repeat match goal with |- @cons _ _ _ = @cons _ _ _ => apply f_equal2 end; try reflexivity; lra. }
  rewrite Y in N'. set (z := el found) in *.
  pose proof (N' 0%nat 1%nat ltac:(lia) ltac:(lia)) as N1. pose proof (N' 3%nat 0%nat ltac:(lia) ltac:(lia)) as N2. pose proof (N' 3%nat 2%nat ltac:(lia) ltac:(lia)) as N3. pose proof (N' 0%nat 0%nat ltac:(lia) ltac:(lia)) as N4. clear N'.
  unfold el in N1, N2, N3, N4. cbn [nth pow] in N1, N2, N3, N4. rewrite Rminus_0_r in N4. split; [|split; [|split]]; lra.
Qed.
