(** * SurveyProofs: what [Survey] works out is so *)
From Verif Require Import Base Flt SeqFile H5 Schema Files SeqSpec StoreSpec ParserSpec LayoutSpec FileSpec DataSpec RecordSpec StrucSpec ElemResSpec
  SifNameSpec Convert ConvertSpec AssemblySpec SaysSpec ListFacts Describe DescribeProofs DescribeTypes DescribeFile Survey.
Open Scope string_scope.
Open Scope Z_scope.
Open Scope list_scope.

Lemma Forall2_imp {A B} (P Q : A -> B -> Prop) l m : (forall a b, P a b -> Q a b) -> Forall2 P l m -> Forall2 Q l m.
Proof. intros I. induction 1; constructor; auto. Qed.

(** ** Files *)
Lemma lf_ok b : unified b (lf b).
Proof.
  remember (length b) as n eqn:N. assert (L : (length b <= n)%nat) by lia. clear N. revert b L.
  induction n as [|n IH]; intros b L; [destruct b; [constructor|cbn in L; lia]|].
  destruct b as [|c r]; [constructor|]. cbn [length] in L. cbn [lf]. destruct (Ascii.eqb_spec c "013") as [->|C].
  - destruct r as [|x r]; [apply un_cr; [discriminate|constructor]|]. cbn [length] in L. destruct (Ascii.eqb_spec x "010") as [->|X].
    + apply un_crlf. apply IH. lia.
    + apply un_cr; [cbn; congruence|]. apply IH. cbn [length]. lia.
  - apply un_other; [exact C|]. apply IH. lia.
Qed.
Lemma content_ok b k bs : content_of b = (k, bs) -> contents k b bs.
Proof.
  unfold content_of. destruct b as [|c r]; [intros H; injection H as <- <-; constructor; [discriminate|constructor]|].
  destruct (Ascii.eqb_spec c "K") as [->|C]; intros H.
  - injection H as <- <-. constructor.
  - assert (k = Fmt /\ bs = lf (c :: r)) as [-> ->] by (split; congruence). constructor; [cbn; congruence|apply lf_ok].
Qed.
Lemma any_record_ok segs : any_record segs = true -> some_record segs.
Proof. unfold any_record. intros H. apply existsb_exists in H as ([n its|n|n fs r] & I & E); try discriminate. now exists n, its. Qed.
Lemma records_ok k id sub b segs : records_of k id sub b = Some segs -> some_record segs /\ exists bs, contents k b bs /\ file_of [] k id sub bs segs.
Proof.
  unfold records_of. destruct (content_of b) as [k' bs] eqn:C. intros H. ob H s E. gd H G. injection H as ->. apply content_ok in C.
  assert (k = k' /\ any_record segs = true) as [<- A] by (destruct k, k'; auto; discriminate).
  split; [now apply any_record_ok|]. exists bs. split; [exact C|now apply describe_ok].
Qed.
Lemma all_of_ok {A B} (f : A -> option B) : forall l bs, all_of f l = Some bs -> Forall2 (fun a b => f a = Some b) l bs.
Proof.
  induction l as [|a l IH]; intros bs H; cbn [all_of] in H; [injection H as <-; constructor|]. ob H b E. ob H r E2. injection H as <-. constructor; [exact E|now apply IH].
Qed.
Lemma whole_at_ok e i z : whole_at e i = Some z -> int_at e i z.
Proof. unfold whole_at, int_at. destruct (nth_error (e_row e) i) as [[]|]; try discriminate. intros H. exists f. split; [reflexivity|now apply whole_ok]. Qed.
Lemma place_ok e p : place_of e = Some p -> says_place e p.
Proof.
  unfold place_of. intros H. ob H a E1. ob H b E2. ob H c E3. ob H d E4. injection H as <-. repeat split; cbn [pl_ref pl_type pl_rep pl_level]; now apply whole_at_ok.
Qed.
Lemma distinct_ok : forall l, distinct l = true -> NoDup l.
Proof.
  induction l as [|p l IH]; intros H; [constructor|]. cbn [distinct] in H. apply andb_prop in H as [A B]. constructor; [|now apply IH].
  intros I. apply negb_true_iff in A. assert (existsb (fun q => if list_eq_dec string_dec p q then true else false) l = true) as X; [|congruence].
  apply existsb_exists. exists p. split; [exact I|]. now destruct (list_eq_dec string_dec p p).
Qed.
Lemma numbered_ok : forall ps z, numbered_from z ps = true -> forall i p, nth_error ps i = Some p -> pl_ref p = Z.of_nat i + z.
Proof.
  induction ps as [|q ps IH]; intros z H i p E; [now destruct i|]. cbn [numbered_from] in H. apply andb_prop in H as [A B]. destruct i as [|i].
  - injection E as ->. lia.
  - cbn [nth_error] in E. rewrite (IH _ B _ _ E). lia.
Qed.
Theorem survey_ok d fp letter ext pre id b segs ps : survey d fp letter ext pre id b = Some (segs, ps) ->
  assembly d fp letter ext pre (fst (content_of b)) id b segs ps.
Proof.
  unfold survey. intros H. cbv zeta in H. ob H s E. ob H q E2. gd H G. injection H as -> ->. apply andb_prop in G as [G G4]. apply andb_prop in G as [G G3]. apply andb_prop in G as [G1 G2].
  apply records_ok in E as [E0 (bs & EC & EF)]. constructor.
  - lia.
  - now exists bs.
  - exact E0.
  - apply all_of_ok in E2. unfold hierarchy_of. eapply Forall2_imp; [|exact E2]. intros x p. apply place_ok.
  - intros i p I. exact (numbered_ok _ _ G2 _ _ I).
  - intros p c I F. rewrite forallb_forall in G3. specialize (G3 p I). unfold lower_good in G3. rewrite F in G3. apply andb_prop in G3 as [A B]. split; [lia|].
    destruct (records_of _ (pl_type p) true c) as [sg|] eqn:R; [|discriminate]. apply records_ok in R as [R0 (cs & RC & RF)]. now exists cs, sg.
  - now apply distinct_ok.
Qed.

(** ** Records *)
Lemma from_ok {A} (f : nat -> entry -> option A) : forall es j l, from f j es = Some l ->
  length es = length l /\ forall i e x, nth_error es i = Some e -> nth_error l i = Some x -> f (j + i)%nat e = Some x.
Proof.
  induction es as [|e es IH]; intros j l H; cbn [from] in H; [injection H as <-; split; [reflexivity|now intros [|]]|].
  ob H a E. ob H r E2. injection H as <-. destruct (IH _ _ E2) as [L N]. split; [cbn; now rewrite L|]. intros [|i] e' x H1 H2; cbn [nth_error] in *.
  - injection H1 as <-. injection H2 as <-. now rewrite Nat.add_0_r.
  - rewrite Nat.add_succ_r. exact (N i e' x H1 H2).
Qed.
Lemma list_of_ok {A} n segs (f : nat -> entry -> option A) (says : nat -> entry -> A -> Prop) l :
  (forall j e x, f j e = Some x -> says j e x) -> list_of n segs f = Some l -> listed n segs says l.
Proof.
  intros S H. unfold list_of in H. cbv zeta in H. gd H G. apply from_ok in H as [L N]. split; [now apply some_in_ok|]. split; [exact L|].
  intros j e x H1 H2. apply S. exact (N j e x H1 H2).
Qed.
Lemma real_of_ok e i c : real_of e i = Some c -> real_at e i c.
Proof. unfold real_of, real_at. destruct (nth_error (e_row e) i) as [[]|]; try discriminate. intros H. injection H as <-. now exists f. Qed.
Lemma flts_of_ok e fs : flts_of e = Some fs -> e_data e = [nums fs].
Proof.
  unfold flts_of. destruct (e_data e) as [|l [|]]; try discriminate. intros H. f_equal. revert fs H. induction l as [|v l IH]; intros fs H; cbn [all_of] in H; [injection H as <-; reflexivity|].
  ob H f E. ob H r E2. injection H as <-. destruct v; try discriminate. injection E as ->. cbn [nums map]. f_equal. now apply IH.
Qed.
Lemma wholes_of_ok e zs : wholes_of e = Some zs -> int_list e zs.
Proof.
  unfold wholes_of, int_list. intros H. ob H fs E. apply flts_of_ok in E. exists fs. split; [exact E|]. apply all_of_ok in H. eapply Forall2_imp; [|exact H]. intros a b. apply whole_ok.
Qed.
Lemma reals_of_ok e cs : reals_of e = Some cs -> real_list e cs.
Proof. unfold reals_of, real_list. intros H. ob H fs E. apply flts_of_ok in E. injection H as <-. now exists fs. Qed.
Lemma trimmed_ok : forall l, exists z, l = trimmed l ++ repeat nul z /\ (trimmed l = [] \/ last (trimmed l) blank <> nul).
Proof.
  induction l as [|c l (z & E & T)]; [exists O; split; [reflexivity|now left]|]. cbn [trimmed]. destruct (trimmed l) as [|a t] eqn:TL.
  - cbn [app] in E. destruct (Ascii.eqb_spec c nul) as [->|C].
    + exists (S z). split; [now rewrite E|now left].
    + exists z. split; [now rewrite E|]. right. exact C.
  - exists z. split; [now rewrite E|]. right. destruct T as [T|T]; [discriminate|exact T].
Qed.
Lemma text_of_ok e i t : text_of_ e i = Some t -> text_at e i t.
Proof.
  unfold text_of_, text_at. destruct (nth_error (e_row e) i) as [[]|]; try discriminate. intros H. injection H as <-. eexists. split; [reflexivity|].
  destruct (trimmed_ok (firstn 64 s)) as (z & E & T). exists z. now split.
Qed.

(** ** Mesh, sets *)
Lemma combine_nth {A B} : forall (l : list A) (m : list B) i x, length l = length m -> nth_error (combine l m) i = Some x -> nth_error l i = Some (fst x) /\ nth_error m i = Some (snd x).
Proof.
  induction l as [|a l IH]; intros [|b m] i x L H; try discriminate; [now destruct i|]. destruct i as [|i]; cbn [combine nth_error] in *.
  - injection H as <-. now split.
  - apply IH; [cbn in L; lia|exact H].
Qed.
Lemma mesh_of_ok segs ns es : mesh_of segs = Some (ns, es) -> mesh_on segs ns es.
Proof.
  unfold mesh_of. intros H. ob H zs E1. ob H xs E2. ob H el E3. gd H G. apply some_pair in H as [<- <-]. apply andb_prop in G as [G1 G2]. apply Nat.eqb_eq in G1.
  apply (list_of_ok _ _ _ (fun j e z => int_at e 0 z /\ int_at e 1 (no_of j))) in E1 as (A1 & A2 & A3).
  2:{ unfold v_node. intros j e x H. ob H z W1. ob H i W2. gd H G. injection H as ->. apply Z.eqb_eq in G. subst i. split; now apply whole_at_ok. }
  apply (list_of_ok _ _ _ (fun j e c => int_at e 0 (no_of j) /\ exists x y z, real_at e 1 x /\ real_at e 2 y /\ real_at e 3 z /\ c = [x; y; z])) in E2 as (B1 & B2 & B3).
  2:{ unfold v_coord. intros j e x H. ob H i W1. gd H G. ob H a R1. ob H b R2. ob H c R3. injection H as <-. apply Z.eqb_eq in G. subst i. split; [now apply whole_at_ok|].
      exists a, b, c. repeat split; now apply real_of_ok. }
  apply (list_of_ok _ _ _ elem_says) in E3.
  2:{ unfold v_elem. intros j e x H. ob H a W1. ob H i W2. ob H t W3. gd H G. ob H l W4. injection H as <-. apply Z.eqb_eq in G. subst i.
      split; [now apply whole_at_ok|]. split; [now apply whole_at_ok|]. split; [now apply whole_at_ok|]. now apply wholes_of_ok. }
  assert (LN : forall i n, nth_error (map (fun p => mkNode (fst p) (snd p)) (combine zs xs)) i = Some n -> nth_error zs i = Some (n_ext n) /\ nth_error xs i = Some (n_xyz n)).
  { intros i n H. rewrite nth_error_map in H. destruct (nth_error (combine zs xs) i) as [x|] eqn:E; [|discriminate]. injection H as <-. exact (combine_nth zs xs i x G1 E). }
  split; [split; [exact A1|split]|split; [split; [exact B1|split]|split; [exact E3|]]].
  - rewrite map_length, combine_length. rewrite A2. lia.
  - intros j e n J1 J2. apply LN in J2 as [J2 _]. exact (A3 j e _ J1 J2).
  - rewrite map_length, combine_length. rewrite B2. lia.
  - intros j e n J1 J2. apply LN in J2 as [_ J2]. exact (B3 j e _ J1 J2).
  - apply Forall_forall. intros x X. rewrite forallb_forall in G2. specialize (G2 x X). apply andb_prop in G2 as [N1 N2]. split; [now apply some_in_ok|].
    apply Forall_forall. intros z Z. rewrite forallb_forall in N2. specialize (N2 z Z). unfold Zlen in *. rewrite map_length, combine_length. lia.
Qed.
Lemma sets_of_ok segs nms ms : sets_of segs = Some (nms, ms) -> sets_on segs nms ms.
Proof.
  unfold sets_of. intros H. ob H a E1. ob H b E2. apply some_pair in H as [<- <-]. split.
  - eapply list_of_ok; [|exact E1]. unfold v_setname. intros j e x H. ob H z W1. ob H t W2. injection H as <-. split; [now apply whole_at_ok|now apply text_of_ok].
  - eapply list_of_ok; [|exact E2]. unfold v_member. intros j e x H. ob H z W1. ob H t W2. ob H l W3. injection H as <-. split; [now apply whole_at_ok|]. split; [now apply whole_at_ok|now apply wholes_of_ok].
Qed.

(** ** Properties, results *)
Lemma geo_of_ok segs gs : geo_of segs = Some gs -> geo_on segs gs.
Proof.
  apply list_of_ok. intros j e x H. ob H z W1. ob H t W2. gd H G. injection H as <-. apply Z.eqb_eq in G. subst z. split; now apply whole_at_ok.
Qed.
Lemma sections_of_ok segs ps : sections_of segs = Some ps -> sections_on segs ps.
Proof.
  apply list_of_ok. intros j e x H. ob H z W1. ob H l W2. injection H as <-. split; [now apply whole_at_ok|]. apply all_of_ok in W2.
  split; [apply Forall2_len in W2; rewrite seq_length in W2; now symmetry|]. intros i c C. cbn [snd] in C.
  assert (X : forall m s l i c, Forall2 (fun a b => real_of e a = Some b) (seq s m) l -> nth_error l i = Some c -> real_of e (s + i) = Some c).
  { clear. induction m as [|m IH]; intros s l i c F C; cbn [seq] in F; inversion F; subst; [now destruct i|]. destruct i as [|i]; cbn [nth_error] in C.
    - injection C as <-. now rewrite Nat.add_0_r.
    - rewrite Nat.add_succ_r. eapply (IH (S s)); eauto. }
  apply real_of_ok. exact (X _ 1%nat _ _ _ W2 C).
Qed.
Lemma thicknesses_of_ok segs ps : thicknesses_of segs = Some ps -> thicknesses_on segs ps.
Proof. apply list_of_ok. intros j e x H. ob H z W1. ob H t W2. injection H as <-. split; [now apply whole_at_ok|now apply real_of_ok]. Qed.
Lemma refs_of_ok segs rs : refs_of segs = Some rs -> refs_on segs rs.
Proof. apply list_of_ok. intros j e x H. ob H a W1. ob H b W2. ob H c W3. ob H d W4. injection H as <-. repeat split; now apply whole_at_ok. Qed.
Lemma loads_of_ok segs ls : loads_of segs = Some ls -> loads_on segs ls.
Proof. apply list_of_ok. intros j e x H. ob H a W1. ob H t W2. injection H as <-. split; [now apply whole_at_ok|now apply text_of_ok]. Qed.
Definition same_result (x : Z * Z * list cell) (y : Z * nat * list cell) : Prop := fst (fst x) = fst (fst y) /\ snd (fst x) = no_of (snd (fst y)) /\ snd x = snd y.
Lemma block_ok z : forall (a : list (Z * Z * list cell)) s,
  forallb (fun jx => (fst (fst (snd jx)) =? z) && (snd (fst (snd jx)) =? no_of (fst jx))) (combine (seq s (length a)) a) = true ->
  Forall2 same_result a (map (fun jv => (z, fst jv, snd jv)) (combine (seq s (length (map snd a))) (map snd a))).
Proof.
  induction a as [|x a IH]; intros s H; [constructor|]. cbn [length seq combine map forallb fst snd] in *. apply andb_prop in H as [A B]. apply andb_prop in A as [A1 A2].
  constructor; [|now apply IH]. apply Z.eqb_eq in A1, A2. now repeat split.
Qed.
Lemma Forall2_app_ {A B} (P : A -> B -> Prop) l l' m m' : Forall2 P l m -> Forall2 P l' m' -> Forall2 P (l ++ l') (m ++ m').
Proof. intros H1 H2. induction H1; [exact H2|]. cbn [app]. now constructor. Qed.
Lemma blocks_ok nn : forall fuel l bs, blocks fuel nn l = Some bs -> Forall (fun b => length (snd b) = nn) bs /\ Forall2 same_result l (flat bs).
Proof.
  induction fuel as [|f IH]; intros [|[[z w] v] l] bs H; cbn [blocks] in H; try (injection H as <-; split; constructor); try discriminate.
  ob H ar E. destruct ar as [a r]. gd H G. ob H bs' E2. injection H as <-. apply take_ok in E as [-> L]. destruct (IH _ _ E2) as [I1 I2]. split.
  - constructor; [cbn [snd]; now rewrite map_length|exact I1].
  - apply Forall2_app_; [|exact I2]. cbn [fst snd]. apply block_ok. rewrite L. exact G.
Qed.
Lemma noderes_of_ok segs rn nn bs : noderes_of segs rn nn = Some bs -> noderes_on segs rn nn bs.
Proof.
  unfold noderes_of. intros H. ob H l E. apply blocks_ok in H as [F G].
  apply (list_of_ok _ _ _ (fun _ e x => int_at e 1 (fst (fst x)) /\ int_at e 2 (snd (fst x)) /\ real_list e (snd x))) in E as (A & B & C).
  2:{ unfold v_result. intros j e x H. ob H a W1. ob H b W2. ob H c W3. injection H as <-. split; [now apply whole_at_ok|]. split; [now apply whole_at_ok|now apply reals_of_ok]. }
  split; [exact F|]. split; [exact A|]. pose proof (Forall2_len _ _ _ G) as L. split; [congruence|]. intros j e x H1 H2.
  destruct (nth_error l j) as [y|] eqn:Y; [|apply nth_error_None in Y; assert (nth_error (flat bs) j <> None) as Q by congruence; apply nth_error_Some in Q; lia].
  assert (S : same_result y x).
  { clear -G Y H2. revert j Y H2. induction G as [|a b l m P G IH]; intros [|j] Y H2; try discriminate; cbn [nth_error] in *; [congruence|eauto]. }
  destruct S as (S1 & S2 & S3). destruct (C j e y H1 Y) as (C1 & C2 & C3). rewrite S1 in C1. rewrite S2 in C2. rewrite S3 in C3. now repeat split.
Qed.
Lemma eblocks_ok : forall l, eflat (eblocks l) = l.
Proof.
  induction l as [|[z x] l IH]; [reflexivity|]. cbn [eblocks]. destruct (eblocks l) as [|[z' xs] bs]; [cbn in IH; now subst l|].
  destruct (Z.eqb_spec z z') as [->|]; rewrite <- IH; reflexivity.
Qed.
Lemma elemres_of_ok segs rn es bs : elemres_of segs rn es = Some bs -> elemres_on segs rn es bs.
Proof.
  unfold elemres_of. intros H. ob H l E. injection H as <-. unfold elemres_on. rewrite eblocks_ok. eapply list_of_ok; [|exact E].
  unfold v_eres, v_result. intros j e x H. ob H y W. ob W a W1. ob W b W2. ob W c W3. injection W as <-. ob H el W4. ob H t W5. gd H G. injection H as <-. apply andb_prop in G as [G1 G2].
  apply Z.eqb_eq in G1, G2. exists el. cbn [fst snd]. rewrite G2, <- G1. split; [exact W4|]. split; [now apply whole_at_ok|]. split; [now apply whole_at_ok|]. split; [now apply whole_at_ok|now apply reals_of_ok].
Qed.
