(** * DescribeProofs: what [Describe] finds is there *)
From Verif Require Import Base Flt SeqFile H5 Schema SeqSpec StoreSpec ParserSpec LayoutSpec FileSpec Sample Describe
  ListFacts DecFacts SeqProofs NumeralProofs RoundProofs StoreProofs FltProofs.
From Coq Require Import Permutation.
Open Scope string_scope.
Open Scope Z_scope.
Open Scope list_scope.

Lemma obind_some {A B} (o : option A) (f : A -> option B) b : obind o f = Some b -> exists a, o = Some a /\ f a = Some b.
Proof. destruct o as [a|]; [|discriminate]. intros H. exists a. split; [reflexivity|exact H]. Qed.
Lemma guard_some b u : guard b = Some u -> b = true.
Proof. unfold guard. destruct b; [reflexivity|discriminate]. Qed.
Tactic Notation "ob" hyp(H) ident(a) ident(E) := apply obind_some in H as (a & E & H).
Tactic Notation "gd" hyp(H) ident(E) := let u := fresh in apply obind_some in H as (u & E & H); apply guard_some in E.

(** ** Physical records *)
Lemma line_ok : forall bs p r, line bs = Some (p, r) -> bs = p ++ nl :: r /\ ~ In nl p.
Proof.
  induction bs as [|c bs IH]; intros p r H; [discriminate|]. cbn [line] in H. destruct (Ascii.eqb_spec c nl) as [->|N].
  - injection H as <- <-. split; [reflexivity|intros []].
  - ob H pq E. destruct pq as [p' r']. injection H as <- <-. destruct (IH _ _ E) as [-> I]. split; [reflexivity|].
    intros [->|X]; [now apply N|now apply I].
Qed.
Definition fok (k : kind) (p : phys) : Prop := frame k (fst p) (snd p).
Lemma deframe_ok k bs p r : deframe k bs = Some (p, r) -> fok k p /\ bs = snd p ++ r.
Proof.
  destruct k; cbn [deframe]; intros H.
  - destruct bs as [|b q]; [discriminate|]. cbv zeta in H.
    set (n := if code b =? 129 then 128%nat else Z.to_nat (code b)) in *.
    destruct (Nat.eqb_spec (length (firstn n q)) n) as [L|]; [|discriminate]. destruct (skipn n q) as [|t q'] eqn:S; [discriminate|]. injection H as <- <-.
    unfold fok. cbn [fst snd]. split.
    + constructor. rewrite L. unfold n. destruct (code b =? 129) eqn:C; [right; split; [lia|reflexivity]|left]. pose proof (code_range b). rewrite Z2Nat.id by lia. split; lia.
    + rewrite <- (firstn_skipn n q) at 1. rewrite S. cbn [app]. now rewrite <- app_assoc.
  - ob H pr E. destruct pr as [p' r']. injection H as <- <-. apply line_ok in E as [-> N]. unfold fok. cbn [fst snd]. split; [now constructor|].
    now rewrite <- app_assoc.
Qed.
Lemma deframes_ok k : forall f bs ps e, deframes f k bs = (ps, e) -> Forall (fok k) ps /\ bs = bytes ps e.
Proof.
  induction f as [|f IH]; intros bs ps e H; cbn [deframes] in H; [injection H as <- <-; split; [constructor|reflexivity]|].
  destruct (deframe k bs) as [[p r]|] eqn:E; [|injection H as <- <-; split; [constructor|reflexivity]].
  destruct (deframes f k r) as [qs e'] eqn:E2. injection H as <- <-. apply deframe_ok in E as [F ->]. destruct (IH _ _ _ E2) as [G ->].
  split; [now constructor|]. unfold bytes. cbn [map concat]. now rewrite app_assoc.
Qed.

(** ** Numbers *)
Lemma is_blank_run l : forallb is_blank l = true -> l = repeat blank (length l).
Proof.
  induction l as [|c l IH]; [reflexivity|]. cbn [forallb length repeat]. intros H. apply andb_prop in H as [A B]. apply Ascii.eqb_eq in A. subst c. now rewrite <- IH.
Qed.
Lemma blank_prefix l : exists i, l = repeat blank i ++ dropwhile is_blank l.
Proof.
  destruct (dropwhile_split is_blank l) as (a & E & F & _). exists (length a). rewrite E at 1. f_equal. apply is_blank_run.
  apply forallb_forall. intros x X. rewrite Forall_forall in F. exact (F x X).
Qed.
Lemma dval_snoc l c : dval (l ++ [c]) = 10 * dval l + (code c - 48).
Proof. unfold dval. now rewrite fold_left_app. Qed.
Lemma dval_ok : forall l, forallb is_dig l = true -> digits l (dval l).
Proof.
  induction l as [|c l IH] using rev_ind; [intros _; constructor|]. rewrite forallb_app. cbn [forallb]. intros H. apply andb_prop in H as [A B].
  rewrite andb_true_r in B. unfold is_dig in B. rewrite dval_snoc. replace c with (chr (48 + (code c - 48))) at 1.
  - constructor; [now apply IH|lia].
  - replace (48 + (code c - 48)) with (code c) by lia. apply DecFacts.chr_code.
Qed.
Lemma digit_run_ok : forall l a b, digit_run l = (a, b) -> l = a ++ b /\ forallb is_dig a = true.
Proof.
  induction l as [|c l IH]; intros a b H; cbn [digit_run] in H; [injection H as <- <-; now split|].
  destruct (is_dig c) eqn:D; [|injection H as <- <-; now split]. destruct (digit_run l) as [a' b'] eqn:E. injection H as <- <-. destruct (IH _ _ eq_refl) as [-> F].
  split; [reflexivity|]. cbn [forallb]. now rewrite D, F.
Qed.
Lemma sgn_ok l s r : sgn l = (s, r) -> exists t, l = t ++ r /\ sign_txt t s.
Proof.
  unfold sgn. destruct l as [|c q]; [intros H; injection H as <- <-; exists []; split; [reflexivity|constructor]|].
  destruct (Ascii.eqb_spec c "-") as [->|]; [intros H; injection H as <- <-; exists ["-"%char]; split; [reflexivity|constructor]|].
  destruct (Ascii.eqb_spec c "+") as [->|]; intros H; injection H as <- <-; [exists ["+"%char]|exists []]; (split; [reflexivity|constructor]).
Qed.
Lemma some_in_ok {A} (l : list A) : some_in l = true -> l <> [].
Proof. destruct l; [discriminate|intros _; discriminate]. Qed.
Lemma exponent_of_ok l x : exponent_of l = Some x -> (exists j, l = repeat blank j /\ x = 0) \/
  exists e es exs ed ex j, l = [e] ++ es ++ ed ++ repeat blank j /\ (e = "e"%char \/ e = "E"%char) /\ sign_txt es exs /\ digits ed ex /\ ed <> [] /\ x = (if exs then - ex else ex).
Proof.
  unfold exponent_of. destruct (forallb is_blank l) eqn:B0; [intros H; injection H as <-; left; exists (length l); split; [now apply is_blank_run|reflexivity]|].
  destruct l as [|e l5]; [discriminate|]. intros H. right. destruct (sgn l5) as [xs l6] eqn:E4. apply sgn_ok in E4 as (es & A4 & S4).
  destruct (digit_run l6) as [ed l7] eqn:E5. apply digit_run_ok in E5 as [A5 D5]. destruct (_ && forallb is_blank l7) eqn:B; [|discriminate]. injection H as <-.
  apply andb_prop in B as [B BB]. apply andb_prop in B as [B2 B4]. apply is_blank_run in BB. exists e, es, xs, ed, (dval ed), (length l7).
  split; [rewrite A4, A5, BB at 1; reflexivity|]. repeat split; auto using dval_ok, some_in_ok.
  apply orb_prop in B2 as [B2|B2]; apply Ascii.eqb_eq in B2; tauto.
Qed.
Lemma field_ok l s m x : field l = Some (s, m, x) -> efield l s m x /\ 0 <= m.
Proof.
  unfold field. intros H. destruct (blank_prefix l) as (i & EL). destruct (sgn _) as [s' l1] eqn:E1. apply sgn_ok in E1 as (sg & A1 & S1).
  destruct (digit_run l1) as [ip l2] eqn:E2. apply digit_run_ok in E2 as [A2 D2]. destruct l2 as [|p l3]; [discriminate|].
  destruct (digit_run l3) as [fp l4] eqn:E3. apply digit_run_ok in E3 as [A3 D3]. ob H y EX. destruct (_ && some_in ip) eqn:B; [|discriminate]. injection H as <- <- <-.
  apply andb_prop in B as [B1 B3]. apply Ascii.eqb_eq in B1. subst p.
  assert (DM : digits (ip ++ fp) (dval (ip ++ fp))) by (apply dval_ok; now rewrite forallb_app, D2, D3).
  split; [|exact (digits_nonneg _ _ DM)]. rewrite EL, A1, A2, A3.
  apply exponent_of_ok in EX as [(j & -> & ->)|(e & es & exs & ed & ex & j & -> & He & Hes & Hed & Hn & ->)].
  - replace (0 - Z.of_nat (length fp)) with (- Z.of_nat (length fp)) by lia.
    apply (efield_plain i sg s' ip (dval ip)); auto using dval_ok, some_in_ok.
  - apply (efield_intro i sg s' ip (dval ip)); auto using dval_ok, some_in_ok.
Qed.
Lemma num_ok k l v : num k l = Some v -> enc_num k l v.
Proof.
  unfold num. intros H. gd H L. apply Nat.eqb_eq in L. destruct k; cbn [width] in L.
  - injection H as <-. destruct (single_bytes_total l L) as (v & S). rewrite (unpack_single _ _ S). now constructor.
  - ob H sx E. destruct sx as [[s m] x]. injection H as <-. apply field_ok in E as [E M]. constructor; [exact L|]. exists s, m, x. split; [exact E|].
    now apply dec_to_flt_rounded.
Qed.
Lemma numbers_of_ok k : forall f l vs, numbers_of f k l = Some vs -> enc_nums k vs l.
Proof.
  induction f as [|f IH]; intros l vs H; destruct l as [|c l]; cbn [numbers_of] in H; try discriminate; try (injection H as <-; constructor).
  ob H v E. ob H ws E2. injection H as <-. rewrite <- (firstn_skipn (width k) (c :: l)). constructor; [now apply num_ok|now apply IH].
Qed.
Lemma all_numbers_ok k l vs : all_numbers k l = Some vs -> enc_nums k vs l.
Proof. apply numbers_of_ok. Qed.

(** ** Headers, continuation records *)
Lemma header_ok k p n fs : fok k p -> header k p = Some (n, fs) -> enc_header k n fs (snd p).
Proof.
  unfold header. intros F H. cbv zeta in H. gd H G. ob H vs E. injection H as <- <-. apply andb_prop in G as [G G3]. apply andb_prop in G as [G1 G2].
  apply Nat.eqb_eq in G1. apply all_numbers_ok in E. apply (enc_header_intro k _ (firstn 8 (fst p)) _ (skipn 8 (fst p))); [|exact E|rewrite firstn_skipn; exact F].
  destruct (strip_split is_blank (firstn 8 (fst p))) as (a & b & S & A & B). set (n := strip is_blank (firstn 8 (fst p))) in *.
  assert (A' : a = repeat blank (length a)) by (apply is_blank_run, forallb_forall; intros x X; rewrite Forall_forall in A; exact (A x X)).
  assert (B' : b = repeat blank (length b)) by (apply is_blank_run, forallb_forall; intros x X; rewrite Forall_forall in B; exact (B x X)).
  change (name8 (l2s n) (firstn 8 (fst p))). clearbody n. rewrite S. rewrite A', B'. enough (N : name8 (l2s n) (repeat blank (length a) ++ s2l (l2s n) ++ repeat blank (length b))) by now rewrite ListFacts.s2l_l2s in N. constructor.
  - intros Z. apply some_in_ok in G2. apply G2. rewrite <- (ListFacts.s2l_l2s n), Z. reflexivity.
  - rewrite ListFacts.s2l_l2s. apply Forall_forall. intros x X. rewrite forallb_forall in G3. apply G3 in X. unfold is_graphic in X. unfold graphic. lia.
  - rewrite ListFacts.s2l_l2s. rewrite S, !app_length in G1. lia.
Qed.
Lemma cont_ok k ld p c : fok k p -> cont k ld p = Some c -> enc_cont k ld c (snd p).
Proof.
  unfold cont. intros F H. cbv zeta in H. gd H G. apply andb_prop in G as [G1 G2]. apply Nat.eqb_eq in G1. apply all_numbers_ok in H.
  econstructor; [exact H|]. apply is_blank_run in G2. rewrite G1 in G2. rewrite <- G2, firstn_skipn. exact F.
Qed.
Lemma next_ok k ps e n fs ps' e' : Forall (fok k) ps -> next k ps e = Some (n, fs, ps', e') -> enc_next k n fs (bytes ps e) (bytes ps' e') /\ Forall (fok k) ps'.
Proof.
  intros F H. destruct ps as [|p r]; cbn [next] in H.
  - destruct k, e as [|b [|b2 e]]; try discriminate; injection H as <- <- <- <-; (split; [|constructor]); constructor; constructor.
  - ob H nf E. destruct nf as [m ms]. injection H as <- <- <- <-. inversion F as [|? ? F1 F2]; subst. split; [|exact F2]. unfold bytes. cbn [map concat].
    rewrite <- app_assoc. constructor. now apply header_ok.
Qed.
Lemma attempt_ok {A} (build : list flt -> option A) all : forall pads a, attempt build all pads = Some a ->
  exists j, In j pads /\ build (firstn (length all - j) all) = Some a.
Proof.
  induction pads as [|j js IH]; intros a H; [discriminate|]. cbn [attempt] in H. destruct (build _) as [x|] eqn:E.
  - injection H as <-. exists j. split; [now left|exact E].
  - destruct (IH _ H) as (i & I & B). exists i. split; [now right|exact B].
Qed.
Lemma bytes_cons p r e : bytes (p :: r) e = snd p ++ bytes r e.
Proof. unfold bytes. cbn [map concat]. now rewrite app_assoc. Qed.
Lemma enc_conts_snoc k ld cs c b d : enc_conts k ld cs b -> enc_cont k ld c d -> enc_conts k ld (cs ++ [c]) (b ++ d).
Proof.
  induction 1 as [|c0 cs b0 bs H0 H IH]; intros H1; cbn [app].
  - rewrite <- (app_nil_r d). constructor; [exact H1|constructor].
  - rewrite <- app_assoc. constructor; [exact H0|now apply IH].
Qed.
Lemma legal_snoc k cs c : full_cut k cs = true -> last_cut k c = true -> legal_cut k (cs ++ [c]).
Proof.
  intros F L. induction cs as [|x cs IH]; cbn [app].
  - cbn [legal_cut]. destruct k; [exact I|]. cbn in L. now apply Nat.leb_le in L.
  - destruct k; cbn [full_cut] in F.
    + assert (forall l, legal_cut Unf l) as G by (induction l as [|? [|? ?] IL]; cbn [legal_cut]; [exact I|exact I|split; [exact I|exact IL]]). apply G.
    + cbn [forallb] in F. apply andb_prop in F as [F1 F2]. apply Nat.eqb_eq in F1. specialize (IH F2). cbn [legal_cut]. destruct (cs ++ [c]) as [|y l] eqn:Y; [now destruct cs|].
      split; [exact F1|exact IH].
Qed.
Section Gathered.
  Context {A : Type}.
  Variables (k : kind) (ld : lead) (padded : bool) (build : list flt -> option A).
  Lemma gather_ok : forall ps before used a used' ps', Forall (fok k) ps -> full_cut k before = true -> enc_conts k ld before used ->
    gather k ld padded build before used ps = Some (a, used', ps') ->
    exists d pad cs b, build d = Some a /\ cut_of k d pad cs /\ enc_conts k ld cs used' /\ used' = used ++ b /\ concat (map snd ps) = b ++ concat (map snd ps') /\
      Forall (fok k) ps' /\ (padded = false -> pad = []).
  Proof.
    induction ps as [|p r IH]; intros before used a used' ps' F FC EC H; [discriminate|]. cbn [gather] in H. ob H c E. inversion F as [|? ? F1 F2]; subst.
    pose proof (cont_ok _ _ _ _ F1 E) as EC1. pose proof (enc_conts_snoc _ _ _ _ _ _ EC EC1) as ECS.
    destruct (if last_cut k c then _ else None) as [x|] eqn:T.
    - injection H as <- <- <-. destruct (last_cut k c) eqn:LC; [|discriminate]. apply attempt_ok in T as (j & J & B).
      set (all := concat before ++ c) in *. exists (firstn (length all - j) all), (skipn (length all - j) all), (before ++ [c]), (snd p).
      assert (J2 : (j < length c)%nat /\ (padded = false -> j = O)).
      { destruct padded; [apply in_seq in J; split; [lia|discriminate]|]. destruct c; [destruct J|]. destruct J as [<-|[]]. split; [cbn; lia|reflexivity]. }
      destruct J2 as [J2 J3]. assert (LA : length all = (length (concat before) + length c)%nat) by (unfold all; now rewrite app_length).
      split; [exact B|]. split; [|split; [exact ECS|split; [reflexivity|split; [reflexivity|split; [exact F2|]]]]].
      + split; [now apply legal_snoc|]. split.
        * rewrite firstn_skipn, concat_app. cbn [concat]. now rewrite app_nil_r.
        * right. rewrite last_last, skipn_length. lia.
      + intros P. rewrite (J3 P), Nat.sub_0_r. apply skipn_all.
    - gd H FC1. assert (FC2 : full_cut k (before ++ [c]) = true).
      { destruct k; [reflexivity|]. cbn [full_cut] in *. rewrite forallb_app, FC, FC1. reflexivity. }
      destruct (IH _ _ _ _ _ F2 FC2 ECS H) as (d & pad & cs & b & G1 & G2 & G3 & G4 & G5 & G6 & G7). exists d, pad, cs, (snd p ++ b).
      split; [exact G1|]. split; [exact G2|]. split; [exact G3|]. split; [rewrite G4; now rewrite <- app_assoc|]. split; [cbn [map concat]; rewrite G5; now rewrite app_assoc|]. now split.
  Qed.
  Lemma data_cut ps a b ps' e : Forall (fok k) ps -> data k ld padded build ps = Some (a, b, ps') ->
    exists d pad cs, build d = Some a /\ cut_of k d pad cs /\ enc_conts k ld cs b /\ bytes ps e = b ++ bytes ps' e /\ Forall (fok k) ps' /\ (padded = false -> pad = []).
  Proof.
    intros F H. unfold data in H. destruct (build []) as [x|] eqn:B.
    - injection H as <- <- <-. exists [], [], []. repeat split; try assumption; try constructor; reflexivity.
    - assert (FC : full_cut k [] = true) by now destruct k.
      apply (gather_ok ps [] [] a b ps' F FC (enc_conts_nil k ld)) in H as (d & pad & cs & b' & G1 & G2 & G3 & G4 & G5 & G6 & G7). exists d, pad, cs.
      cbn [app] in G4. subst b'. split; [exact G1|]. split; [exact G2|]. split; [exact G3|]. split; [unfold bytes; now rewrite G5, app_assoc|]. now split.
  Qed.
  Lemma data_ok ps a b ps' e : Forall (fok k) ps -> data k ld padded build ps = Some (a, b, ps') ->
    exists d, build d = Some a /\ enc_data k ld d b /\ bytes ps e = b ++ bytes ps' e /\ Forall (fok k) ps'.
  Proof.
    intros F H. apply (data_cut ps a b ps' e F) in H as (d & pad & cs & G1 & G2 & G3 & G4 & G5 & _). exists d. split; [exact G1|]. split; [|now split].
    exists pad, cs. now split.
  Qed.
End Gathered.
Lemma lines_ok k : forall n ps ls b ps' e, Forall (fok k) ps -> lines n ps = Some (ls, b, ps') ->
  length ls = n /\ frames k ls b /\ bytes ps e = b ++ bytes ps' e /\ Forall (fok k) ps'.
Proof.
  induction n as [|n IH]; intros ps ls b ps' e F H; cbn [lines] in H; [injection H as <- <- <-; repeat split; [constructor|exact F]|].
  destruct ps as [|p r]; [discriminate|]. inversion F as [|? ? F1 F2]; subst. ob H lbq E. destruct lbq as [[ls0 b0] q]. injection H as <- <- <-.
  destruct (IH _ _ _ _ e F2 E) as (A & B & C & D). cbn [fst snd length] in *. split; [now rewrite A|]. split; [constructor; [exact F1|exact B]|].
  split; [|exact D]. now rewrite bytes_cons, C, app_assoc.
Qed.
Lemma conts_ok k ld : forall n ps cs b ps' e, Forall (fok k) ps -> conts k ld n ps = Some (cs, b, ps') ->
  length cs = n /\ enc_conts k ld cs b /\ bytes ps e = b ++ bytes ps' e /\ Forall (fok k) ps'.
Proof.
  induction n as [|n IH]; intros ps ls b ps' e F H; cbn [conts] in H; [injection H as <- <- <-; repeat split; [constructor|exact F]|].
  destruct ps as [|p r]; [discriminate|]. inversion F as [|? ? F1 F2]; subst. ob H c EC. ob H lbq E. destruct lbq as [[ls0 b0] q]. injection H as <- <- <-.
  destruct (IH _ _ _ _ e F2 E) as (A & B & C & D). cbn [fst snd length] in *. split; [now rewrite A|]. split; [constructor; [now apply cont_ok|exact B]|].
  split; [|exact D]. now rewrite bytes_cons, C, app_assoc.
Qed.

(** ** Whole numbers, matrices *)
Lemma whole_ok f z : whole f = Some z -> trunc_is f z.
Proof. unfold whole. destruct (int_of f) eqn:E; [|discriminate]. intros H. injection H as <-. now apply int_of_trunc. Qed.
Lemma howmany_ok f n : howmany f = Some n -> count f n.
Proof. unfold howmany. intros H. ob H z E. apply whole_ok in E. destruct (0 <=? z) eqn:P; [|discriminate]. injection H as <-. unfold count. now rewrite Z2Nat.id by lia. Qed.
Lemma is_count_ok f n : is_count f n = true -> count f n.
Proof. unfold is_count. destruct (howmany f) eqn:E; [|discriminate]. intros H. apply Nat.eqb_eq in H. subst. now apply howmany_ok. Qed.
Lemma has_len_ok {B} n (l : list B) : has_len n l = true -> length l = n.
Proof. apply Nat.eqb_eq. Qed.
Lemma in_rows_ok {B} n : forall m (l : list B), length l = (m * n)%nat -> concat (in_rows m n l) = l /\ length (in_rows m n l) = m /\ all_len n (in_rows m n l).
Proof.
  induction m as [|m IH]; intros l L; cbn [in_rows].
  - destruct l; [|discriminate]. repeat split. constructor.
  - cbn in L. destruct (IH (skipn n l)) as (A & C & D); [rewrite skipn_length; lia|]. cbn [concat length]. rewrite A, C, firstn_skipn. repeat split.
    constructor; [rewrite firstn_length; lia|exact D].
Qed.
Lemma to_matrix_ok m n (l : list flt) rows : to_matrix m n l = Some rows -> matrix m n rows /\ concat rows = l.
Proof. unfold to_matrix. intros H. gd H G. apply has_len_ok in G. injection H as <-. destruct (in_rows_ok n m l G) as (A & B & C). now repeat split. Qed.
