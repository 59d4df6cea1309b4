(** * DescribeFile: a file that [describe] takes apart is a file of the description *)
From Verif Require Import Base Flt SeqFile H5 Schema SeqSpec StoreSpec ParserSpec LayoutSpec FileSpec Sample ListFacts NumeralProofs Describe DescribeProofs DescribeTypes.
Open Scope string_scope.
Open Scope Z_scope.
Open Scope list_scope.

Lemma str_in_ok n l : str_in n l = true -> In n l.
Proof. unfold str_in. intros H. apply existsb_exists in H as (x & I & E). apply String.eqb_eq in E. now subst. Qed.
Lemma strip_blank l : exists i j, l = repeat blank i ++ strip is_blank l ++ repeat blank j.
Proof.
  destruct (strip_split is_blank l) as (a & b & S & A & B). exists (length a), (length b). rewrite S at 1.
  rewrite (is_blank_run a) at 1 by (apply forallb_forall; rewrite Forall_forall in A; exact A).
  rewrite (is_blank_run b) at 1 by (apply forallb_forall; rewrite Forall_forall in B; exact B). reflexivity.
Qed.
Lemma is_white_ok k c : is_white k c = false -> ~ white k c.
Proof. unfold is_white, white. intros H [W|[W|[W1 W2]]]; rewrite ?W1 in H; lia. Qed.
Lemma text_ok k l t : text k l = Some t -> text_line k t l.
Proof.
  unfold text. intros H. cbv zeta in H. gd H G. injection H as <-. destruct (strip_blank l) as (i & j & E). rewrite E at 2. constructor.
  unfold trim. destruct (strip is_blank l) as [|a t]; [exact I|]. apply andb_prop in G as [G1 G2]. split; apply is_white_ok; now apply negb_true_iff.
Qed.
Lemma texts_ok k : forall ls ts, texts k ls = Some ts -> Forall2 (text_line k) ts ls.
Proof.
  induction ls as [|l ls IH]; intros ts H; cbn [texts] in H; [injection H as <-; constructor|].
  ob H t E. ob H r E2. injection H as <-. constructor; [now apply text_ok|now apply IH].
Qed.

Lemma texts_len k : forall ls ts, texts k ls = Some ts -> length ts = length ls.
Proof.
  induction ls as [|l ls IH]; intros ts H; cbn [texts] in H; [injection H as <-; reflexivity|].
  ob H t E. ob H r E2. injection H as <-. cbn [length]. now rewrite (IH _ E2).
Qed.

(** ** Records *)
Definition layouts : Type := kind -> ctx -> string -> item -> list ascii -> ctx -> Prop.
Definition rsound (L : layouts) (rec : kind -> ctx -> string -> list flt -> list phys -> option found) : Prop :=
  forall k c n fs ps e en u c' q, Forall (fok k) ps -> rec k c n fs ps = Some (en, u, c', q) ->
    bytes ps e = u ++ bytes q e /\ Forall (fok k) q /\ L k c n (mkItem fs u en) (bytes q e) c'.
Lemma some_four {A B C D} (a a' : A) (b b' : B) (c c' : C) (d d' : D) : Some (a, b, c, d) = Some (a', b', c', d') -> a = a' /\ b = b' /\ c = c' /\ d = d'.
Proof. intros H. injection H as <- <- <- <-. auto. Qed.
Ltac fin4 H := apply some_four in H as (<- & <- & <- & <-).
Ltac four fs := destruct fs as [|?x1 [|?x2 [|?x3 [|?x4 [|? ?]]]]]; try discriminate.

Section Records.
  Variable kinds : list Z.
  Notation L := (layout kinds).
  Lemma k_text k c n fs ps e en u c' q : In n text_types -> Forall (fok k) ps -> r_text c fs ps = Some (en, u, c', q) ->
    bytes ps e = u ++ bytes q e /\ Forall (fok k) q /\ L k c n (mkItem fs u en) (bytes q e) c'.
  Proof.
    intros I F H. unfold r_text in H. four fs. ob H m E. ob H lbq E2. destruct lbq as [[ls b] q']. cbn [fst snd] in H. fin4 H.
    destruct (lines_ok k _ _ _ _ _ e F E2) as (A & B & C & D). split; [exact C|]. split; [exact D|]. apply lay_text; try assumption. rewrite A. now apply howmany_ok.
  Qed.
  Lemma k_name k c n fs ps e en u c' q : In n name_types -> Forall (fok k) ps -> r_name k c fs ps = Some (en, u, c', q) ->
    bytes ps e = u ++ bytes q e /\ Forall (fok k) q /\ L k c n (mkItem fs u en) (bytes q e) c'.
  Proof.
    intros I F H. unfold r_name in H. four fs. ob H n1 E1. ob H n2 E2. ob H lbq E3. destruct lbq as [[l1 b1] q1]. ob H lbq E4. destruct lbq as [[l2 b2] q2].
    cbn [fst snd] in *. ob H t1 E5. ob H t2 E6. gd H G. fin4 H.
    destruct (lines_ok k _ _ _ _ _ e F E3) as (A1 & B1 & C1 & D1). destruct (lines_ok k _ _ _ _ _ e D1 E4) as (A2 & B2 & C2 & D2).
    pose proof (texts_len _ _ _ E5) as L1. pose proof (texts_len _ _ _ E6) as L2. apply texts_ok in E5, E6.
    split; [rewrite C1, C2; now rewrite app_assoc|]. split; [exact D2|].
    apply (lay_name kinds k c n x1 x2 x3 x4 (Z.of_nat n1) (Z.of_nat n2) t1 l1 t2 l2); try assumption; try (now apply howmany_ok).
    - rewrite L1, A1, Z2Nat.id by (apply Z.div_pos; lia). pose proof (Z.div_mod (Z.of_nat n1) 100). pose proof (Z.mod_pos_bound (Z.of_nat n1) 100). lia.
    - rewrite L2, A2, Z2Nat.id by (apply Z.div_pos; lia). pose proof (Z.div_mod (Z.of_nat n2) 100). pose proof (Z.mod_pos_bound (Z.of_nat n2) 100). lia.
    - apply Forall_forall. intros t T. rewrite forallb_forall in G. specialize (G t T). apply Forall_forall. intros x X. rewrite forallb_forall in G. specialize (G x X). lia.
  Qed.
  Lemma refs_take_ok f n l a b : refs_take f n l = Some (a, b) -> l = a ++ b /\ ref_list f n a.
  Proof.
    unfold refs_take, ref_list. destruct (flt_eq f fm1).
    - intros H. apply take_ok in H as [-> H]. auto.
    - intros H. injection H as <- <-. auto.
  Qed.
  Lemma k_gelref1 k c fs ps e en u c' q : Forall (fok k) ps -> r_gelref1 k c fs ps = Some (en, u, c', q) ->
    bytes ps e = u ++ bytes q e /\ Forall (fok k) q /\ L k c "GELREF1" (mkItem fs u en) (bytes q e) c'.
  Proof.
    intros F H. unfold r_gelref1 in H. four fs. destruct ps as [|p1 [|p2 r]]; try discriminate.
    ob H z E1. ob H t E2. ob H m E3. ob H r2 E4. ob H r3 E5. gd H G. four r3. ob H lbq E6. destruct lbq as [[d b] q']. cbn [fst snd] in H. fin4 H.
    inversion F as [|? ? F1 F']; subst. inversion F' as [|? ? F2 F3]; subst.
    destruct (data_ok k _ _ _ _ _ _ _ e F3 E6) as (dd & B & D1 & D2 & D3).
    unfold b_refs in B. ob B ab T1. destruct ab as [geo d1]. ob B ab T2. destruct ab as [fix_ d2]. ob B ab T3. destruct ab as [ecc d3]. ob B ab T4. destruct ab as [trans d4].
    gd B G2. injection B as <-. apply refs_take_ok in T1 as [-> T1]. apply refs_take_ok in T2 as [-> T2]. apply refs_take_ok in T3 as [-> T3]. apply refs_take_ok in T4 as [-> T4].
    apply has_len_ok in G2. destruct d4; [|discriminate]. rewrite app_nil_r in D1.
    split; [rewrite !bytes_cons, D2; now rewrite <- !app_assoc|]. split; [exact D3|]. cbn [map].
    apply (lay_gelref1 kinds k c _ _ _ _ r2 _ _ _ _ z t m); auto using whole_ok, nodes_of_ok, has_len_ok, cont_ok.
  Qed.
  Lemma k_bldep k c fs ps e en u c' q : Forall (fok k) ps -> r_bldep k c fs ps = Some (en, u, c', q) ->
    bytes ps e = u ++ bytes q e /\ Forall (fok k) q /\ L k c "BLDEP" (mkItem fs u en) (bytes q e) c'.
  Proof.
    intros F H. unfold r_bldep in H. four fs. ob H m E. ob H lbq E2. destruct lbq as [[cs b] q']. cbn [fst snd] in *. gd H G. fin4 H.
    destruct (conts_ok k _ _ _ _ _ _ e F E2) as (A & B & C & D). split; [exact C|]. split; [exact D|].
    apply (lay_bldep kinds k c _ x1 x2 x3 x4 (map (firstn 3) cs) (map (skipn 3) cs) cs); auto; rewrite ?map_length; auto.
    - rewrite A. now apply howmany_ok.
    - apply Forall_forall. intros x X. apply in_map_iff in X as (y & <- & Y). rewrite forallb_forall in G. specialize (G y Y). apply Nat.leb_le in G. rewrite firstn_length. lia.
    - clear. induction cs as [|y cs IH]; [reflexivity|]. cbn [map combine fst snd]. rewrite firstn_skipn. now rewrite <- IH.
  Qed.
  Lemma k_beuslo k c fs ps e en u c' q : Forall (fok k) ps -> r_beuslo k c fs ps = Some (en, u, c', q) ->
    bytes ps e = u ++ bytes q e /\ Forall (fok k) q /\ L k c "BEUSLO" (mkItem fs u en) (bytes q e) c'.
  Proof.
    intros F H. unfold r_beuslo in H. four fs. destruct ps as [|p1 r]; try discriminate. ob H r1 E1. destruct r1 as [|r1a [|nd r1b]]; try discriminate.
    ob H m E2. gd H G. ob H lbq E6. destruct lbq as [[d b] q']. cbn [fst snd] in H. destruct d as [rl il]. fin4 H.
    inversion F as [|? ? F1 F2]; subst. destruct (data_ok k _ _ _ _ _ _ _ e F2 E6) as (dd & B & D1 & D2 & D3).
    ob B ab T1. destruct ab as [rl' il']. gd B G2. apply some_pair in B as [-> ->]. apply take_ok in T1 as [-> T1].
    split; [rewrite !bytes_cons, D2; now rewrite <- !app_assoc|]. split; [exact D3|].
    apply lay_beuslo; auto using has_len_ok, cont_ok.
    - rewrite T1. now apply howmany_ok.
    - destruct (flt_eq x3 f0); apply has_len_ok in G2; [left|right]; (split; [reflexivity|]); [now destruct il|congruence].
  Qed.
  Lemma exactly_ok n d a : exactly n d = Some a -> a = d /\ length d = n.
  Proof. unfold exactly. intros H. gd H G. injection H as <-. split; [reflexivity|now apply has_len_ok]. Qed.
  Lemma k_section k nc no c n fs ps e en u c' q : In (n, nc, no) section_types -> Forall (fok k) ps -> r_section k nc no c fs ps = Some (en, u, c', q) ->
    bytes ps e = u ++ bytes q e /\ Forall (fok k) q /\ L k c n (mkItem fs u en) (bytes q e) c'.
  Proof.
    intros T F H. unfold r_section in H. gd H G. apply has_len_ok in G. destruct (let* (du, q) := data k Lead8 true _ _ in _) as [x|] eqn:O.
    - injection H as ->. ob O lbq E. destruct lbq as [[d b] q']. cbn [fst snd] in O. fin4 O.
      destruct (data_ok k _ _ _ _ _ _ _ e F E) as (dd & B & D1 & D2 & D3). apply exactly_ok in B as [-> B]. split; [exact D2|]. split; [exact D3|].
      now apply (lay_section_with kinds k c n nc no).
    - ob H lbq E. destruct lbq as [[d b] q']. cbn [fst snd] in H. destruct q' as [|h q']; [discriminate|]. ob H mm E2. destruct mm as [m mfs]. gd H G2. fin4 H.
      destruct (data_cut k _ _ _ _ _ _ _ e F E) as (dd & pad & cs & B & D1 & D2 & D3 & D4 & D5). rewrite (D5 eq_refl) in D1. apply exactly_ok in B as [-> B].
      split; [exact D3|]. split; [exact D4|]. rewrite bytes_cons. inversion D4 as [|? ? FH FR]; subst.
      apply (lay_section_without kinds k c n nc no fs dd b cs m mfs); auto using str_in_ok, header_ok.
  Qed.
  Lemma k_regular : rsound L (r_regular kinds).
  Proof.
    intros k c n fs ps e en u c' q F H. unfold r_regular in H. ob H mb E. destruct mb as [[names ld] b]. ob H lbq E2. destruct lbq as [[ec u'] q']. fin4 H.
    apply find_some in E as [I N]. cbn [fst snd] in *. apply str_in_ok in N. pose proof (builders_ok kinds) as BO. rewrite Forall_forall in BO. specialize (BO _ I). cbn [fst snd] in BO.
    destruct (data_ok k _ _ _ _ _ _ _ e F E2) as (dd & B & D1 & D2 & D3). split; [exact D2|]. split; [exact D3|]. destruct ec as [en c']. cbn [fst snd]. eapply BO; eassumption.
  Qed.
  Theorem record_ok : rsound L (record kinds).
  Proof.
    intros k c n fs ps e en u c' q F H. unfold record in H.
    destruct (str_in n text_types) eqn:E1; [apply str_in_ok in E1; now apply k_text|].
    destruct (str_in n name_types) eqn:E2; [apply str_in_ok in E2; now apply k_name|].
    destruct (String.eqb_spec n "GELREF1") as [->|]; [now apply k_gelref1|].
    destruct (String.eqb_spec n "BLDEP") as [->|]; [now apply k_bldep|].
    destruct (String.eqb_spec n "BEUSLO") as [->|]; [now apply k_beuslo|].
    destruct (find _ section_types) as [[[n' nc] no]|] eqn:E3.
    - apply find_some in E3 as [I N]. cbn [fst] in N. apply String.eqb_eq in N. subst n'. now apply (k_section k nc no).
    - now apply k_regular.
  Qed.
End Records.
Lemma hier_ok_ : rsound hier_layout r_hier.
Proof.
  intros k c n fs ps e en u c' q F H. unfold r_hier in H. ob H lbq E. destruct lbq as [[d b] q']. cbn [fst snd] in H. fin4 H.
  destruct (data_ok k _ _ _ _ _ _ _ e F E) as (dd & B & D1 & D2 & D3). split; [exact D2|]. split; [exact D3|].
  destruct dd as [|x1 [|x2 [|x3 [|x4 ih]]]]; try discriminate. gd B G. apply andb_prop in G as [G G3]. apply andb_prop in G as [G1 G2]. injection B as <-. apply String.eqb_eq in G3. subst n.
  apply lay_hierarch; auto using has_len_ok, is_count_ok.
Qed.
Lemma tran_ok : rsound tran_layout r_tran.
Proof.
  intros k c n fs ps e en u c' q F H. unfold r_tran in H. four fs. ob H a E1. ob H b E2. ob H lbq E. destruct lbq as [[d bb] q']. cbn [fst snd] in H. gd H G. fin4 H.
  destruct (data_ok k _ _ _ _ _ _ _ e F E) as (dd & B & D1 & D2 & D3). split; [exact D2|]. split; [exact D3|]. ob B rows M. injection B as <-. apply to_matrix_ok in M as [M C].
  apply (lay_suptran k c n x1 x2 a b x3 x4 rows dd); auto using whole_ok, str_in_ok.
Qed.

(** ** Runs *)
Lemma next_inv k n fs bs tail : enc_next k n fs bs tail -> n <> "" -> exists hb, enc_header k n fs hb /\ bs = hb ++ tail.
Proof. intros [m ms hb tl H|b H] N; [exists hb; now split|congruence]. Qed.
Lemma run_ok L rec : rsound L rec -> forall fuel k n c fs ps e r, n <> "" -> Forall (fok k) ps -> run rec fuel k n c fs ps e = Some r ->
  enc_run L k n c (rf_item r) (rf_items r) (rf_ctx r) (rf_name r) (rf_fs r) (bytes ps e) (bytes (rf_ps r) (rf_end r)) /\ Forall (fok k) (rf_ps r) /\ i_fs (rf_item r) = fs.
Proof.
  intros RS. induction fuel as [|f IH]; intros k n c fs ps e r NE F H; cbn [run] in H;
    ob H x E; destruct x as [[[en u] c1] q]; destruct (RS _ _ _ _ _ e _ _ _ _ F E) as (B & FQ & LY);
    ob H y E2; destruct y as [[[m mfs] q1] e1]; destruct (next_ok _ _ _ _ _ _ _ FQ E2) as [NX FQ1];
    (destruct (String.eqb_spec m n) as [->|N]; [try discriminate|injection H as <-; cbn [rf_item rf_items rf_ctx rf_name rf_fs rf_ps rf_end i_fs];
      split; [rewrite B; apply (run_last L k n c (mkItem fs u en)); assumption|split; [exact FQ1|reflexivity]]]).
  ob H r' E3. injection H as <-. cbn [rf_item rf_items rf_ctx rf_name rf_fs rf_ps rf_end i_fs].
  destruct (IH _ _ _ _ _ _ _ NE FQ1 E3) as (ER & FR & FI). split; [|split; [exact FR|reflexivity]].
  rewrite B. destruct (next_inv _ _ _ _ _ NX NE) as (hb & HH & EQ). rewrite EQ in *.
  apply (run_more L k n c (mkItem fs u en)) with (c1 := c1); [assumption|rewrite FI; assumption|exact ER].
Qed.

(** ** Records passed over *)
Lemma blank_run_ok : forall ps a b, blank_run ps = (a, b) -> ps = a ++ b /\ forallb starts_blank a = true /\ match b with p :: _ => starts_blank p = false | [] => True end.
Proof.
  induction ps as [|p ps IH]; intros a b H; cbn [blank_run] in H; [injection H as <- <-; now split|].
  destruct (starts_blank p) eqn:S; [|injection H as <- <-; now repeat split]. destruct (blank_run ps) as [a' b'] eqn:E. injection H as <- <-.
  destruct (IH _ _ eq_refl) as (-> & G & K). split; [reflexivity|]. cbn [forallb]. now rewrite S, G.
Qed.
Lemma whole_int f z : whole f = Some z -> int_of f = Ok z.
Proof. unfold whole. destruct (int_of f); [|discriminate]. intros H. now injection H as ->. Qed.
Lemma frames_of k : forall ps, Forall (fok k) ps -> frames k (map fst ps) (concat (map snd ps)).
Proof. induction 1 as [|p ps F H IH]; cbn [map concat]; constructor; assumption. Qed.

Lemma restf_ok k n fs ps e u q m mfs q1 e1 : Forall (fok k) ps -> restf k n fs ps e = Some (u, q) -> next k q e = Some (m, mfs, q1, e1) ->
  rest_of_record k n fs m u /\ bytes ps e = u ++ bytes q e /\ Forall (fok k) q.
Proof.
  intros F H NX. unfold restf in H. destruct fs as [|f l]; [discriminate|]. destruct (flt_lt f f0) eqn:LT.
  - destruct (flt_eq f fm5) eqn:E5.
    + destruct ps as [|p r]; [discriminate|]. ob H c E. apply some_pair in H as [<- <-]. inversion F as [|? ? F1 F2]; subst.
      split; [|split; [apply bytes_cons|exact F2]]. apply rest_neg5 with (c := c); try assumption. now apply cont_ok.
    + apply some_pair in H as [<- <-]. split; [now apply rest_neg|]. now split.
  - destruct (prefix "TD" n) eqn:TD.
    + destruct l as [|g [|a [|b l]]]; try discriminate. ob H za E1. ob H zb E2. ob H lbq E3. destruct lbq as [[ls bb] q']. cbn [fst snd] in H. apply some_pair in H as [<- <-].
      destruct (lines_ok k _ _ _ _ _ e F E3) as (A & B & C & D). split; [|now split].
      apply whole_int in E1, E2. apply (rest_td k n f g a b l m za zb ls bb); assumption.
    + destruct (blank_run ps) as [bl r] eqn:BR. apply blank_run_ok in BR as (-> & BL & NB). apply Forall_app in F as [F1 F2].
      destruct (some_in bl) eqn:SB.
      * apply some_pair in H as [<- <-]. split; [|split; [unfold bytes; rewrite map_app, concat_app; now rewrite <- app_assoc|exact F2]].
        destruct bl as [|p bl]; [discriminate|]. apply (rest_blank k n f l m (fst p) (map fst bl)); try assumption; [|exact (frames_of k _ F1)].
        intros x X. change (In x (map fst (p :: bl))) in X. apply in_map_iff in X as (y & <- & Y). rewrite forallb_forall in BL. specialize (BL y Y).
        unfold starts_blank in BL. apply lascii_eqb_spec in BL. exists (skipn 8 (fst y)). rewrite <- BL. now rewrite firstn_skipn.
      * destruct bl; [|discriminate]. cbn [app] in *. destruct (match next k r e with Some _ => _ | None => _ end) eqn:AL.
        -- apply some_pair in H as [<- <-]. split; [|now split]. rewrite NX in AL. apply rest_plain; try assumption. now apply str_in_ok.
        -- ob H z E. destruct (z <=? 4) eqn:Z4.
           ++ apply some_pair in H as [<- <-]. split; [|now split]. apply rest_small with (z := z); try assumption; [now apply whole_int|lia].
           ++ destruct k; [|destruct r; discriminate]. destruct r as [|p r]; [discriminate|]. ob H lbq E2. destruct lbq as [[d b] q']. cbn [fst snd] in H. gd H G. apply some_pair in H as [<- <-].
              apply andb_prop in G as [G1 G2]. apply lascii_eqb_spec in G1. destruct (data_ok Unf _ _ _ _ _ _ _ e F2 E2) as (dd & B & D1 & D2 & D3). apply exactly_ok in B as [-> B].
              split; [|now split]. inversion F2 as [|? ? FP FR]; subst.
              apply (rest_nfield Unf n f l m dd b (fst p) (snd p) (skipn (length (snd p)) b)); try assumption; try reflexivity.
              ** rewrite B, Z2Nat.id by lia. apply whole_int in E. rewrite E. f_equal. lia.
              ** intros ->. cbn in B. lia.
              ** rewrite <- G1 at 1. now rewrite firstn_skipn.
              ** intros X. unfold starts_blank in NB. rewrite X in NB. discriminate NB.
              ** intros I. apply str_in_spec in I. rewrite I in G2. discriminate.
Qed.
Lemma pass_ok : forall fuel k n fs ps e m mfs q e1, n <> "" -> Forall (fok k) ps -> pass fuel k n fs ps e = Some (m, mfs, q, e1) ->
  enc_pass k n fs (bytes ps e) m mfs (bytes q e1) /\ Forall (fok k) q.
Proof.
  induction fuel as [|f IH]; intros k n fs ps e m mfs q e1 NE F H; cbn [pass] in H; ob H x E; destruct x as [u r];
    ob H y E2; destruct y as [[[m' mfs'] q1] e2]; destruct (restf_ok _ _ _ _ _ _ _ _ _ _ _ F E E2) as (RR & B & FR); destruct (next_ok _ _ _ _ _ _ _ FR E2) as [NX FQ];
    (destruct (String.eqb_spec m' n) as [->|N]; [try discriminate|apply some_four in H as (<- & <- & <- & <-); split; [rewrite B; now apply pass_last|exact FQ]]).
  destruct (IH _ _ _ _ _ _ _ _ _ NE FQ H) as [EP FE]. split; [|exact FE]. destruct (next_inv _ _ _ _ _ NX NE) as (hb & HH & EQ). rewrite B, EQ. eapply pass_more; eassumption.
Qed.

(** ** Files *)
Lemma is_asked_ok only n : is_asked only n = true -> asked only n.
Proof. unfold is_asked, asked. destruct only; [now left|]. intros H. right. now apply str_in_ok. Qed.
Lemma not_asked_ok only n : is_asked only n = false -> ~ asked only n.
Proof.
  unfold is_asked, asked. destruct only as [|x l]; [discriminate|]. intros H [A|A]; [discriminate|]. apply str_in_spec in A. congruence.
Qed.
Lemma first_of_ok {A B} (f : A -> option B) : forall l a b, first_of f l = Some (a, b) -> f a = Some b.
Proof. induction l as [|x l IH]; intros a b H; [discriminate|]. cbn [first_of] in H. destruct (f x) eqn:E; [injection H as <- <-; exact E|now apply IH]. Qed.
Section Reading.
  Variables (only : list string) (k : kind) (id : Z) (sub : bool).
  Theorem readf_ok : forall fuel st n fs ps e segs, Forall (fok k) ps -> readf only k id sub fuel st n fs ps e = Some segs ->
    exists st', reads only k id sub st segs n fs (bytes ps e) st'.
  Proof.
    induction fuel as [|fu IH]; intros st n fs ps e segs F H; [discriminate|]. cbn [readf] in H. cbv zeta in H.
    destruct (String.eqb_spec n "") as [->|NE]; [injection H as <-; exists st; apply reads_end|].
    destruct (is_asked only n) eqn:AS; cbn [negb] in H.
    2:{ apply not_asked_ok in AS. ob H x E. destruct x as [[[m mfs] q] e1]. ob H sg E2. injection H as <-.
        destruct (pass_ok _ _ _ _ _ _ _ _ _ _ NE F E) as [EP FQ]. destruct (IH _ _ _ _ _ _ FQ E2) as (st' & R). exists st'. eapply reads_pass; eauto. }
    apply is_asked_ok in AS. destruct fs as [|f l]; [discriminate|].
    destruct (String.eqb n "IEND" && flt_eq f f0) eqn:IE.
    { apply andb_prop in IE as [I1 I2]. apply String.eqb_eq in I1. subst n. injection H as <-. exists (saw st "IEND"). now apply reads_iend. }
    destruct (flt_lt f f0) eqn:LT.
    { ob H q E. ob H x E2. destruct x as [[[m mfs] q1] e1]. ob H sg E3. injection H as <-. destruct (flt_eq f fm5) eqn:E5.
      - destruct ps as [|p r]; [discriminate|]. ob E c EC. injection E as <-. inversion F as [|? ? F1 F2]; subst.
        destruct (next_ok _ _ _ _ _ _ _ F2 E2) as [NX FQ]. destruct (IH _ _ _ _ _ _ FQ E3) as (st' & R). exists st'. rewrite bytes_cons.
        eapply reads_void; eauto. right. split; [exact E5|]. exists c. now apply cont_ok.
      - injection E as <-. destruct (next_ok _ _ _ _ _ _ _ F E2) as [NX FQ]. destruct (IH _ _ _ _ _ _ FQ E3) as (st' & R). exists st'.
        apply (reads_void only k id sub st n f l [] (bytes ps e) m mfs (bytes q1 e1) sg st'); auto. }
    destruct (str_in n laid_types) eqn:LA.
    { apply str_in_ok in LA. gd H KN. ob H x E. destruct x as [kinds r]. ob H con E2. ob H sg E3. injection H as <-. apply first_of_ok in E.
      destruct (run_ok _ _ (record_ok kinds) _ _ _ _ _ _ _ _ NE F E) as (ER & FR & FI). destruct (IH _ _ _ _ _ _ FR E3) as (st' & R). exists st'.
      eapply reads_run; eauto using putf_ok. }
    destruct (str_in n tran_types) eqn:TR.
    { apply str_in_ok in TR. gd H KN. ob H r E. ob H con E2. ob H sg E3. injection H as <-.
      destruct (run_ok _ _ tran_ok _ _ _ _ _ _ _ _ NE F E) as (ER & FR & FI). destruct (IH _ _ _ _ _ _ FR E3) as (st' & R). exists st'.
      eapply reads_tran; eauto. apply putf_ok. exact E2. }
    destruct (String.eqb_spec n "HIERARCH") as [->|].
    { destruct l as [|g [|x l]]; try discriminate. ob H z E0. gd H G. apply andb_prop in G as [G1 G2]. apply Z.eqb_eq in G1. subst z. ob H r E. ob H con E2. ob H sg E3. injection H as <-.
      destruct (run_ok _ _ hier_ok_ _ _ _ _ _ _ _ _ NE F E) as (ER & FR & FI). destruct (IH _ _ _ _ _ _ FR E3) as (st' & R). exists st'.
      eapply reads_hierarch; eauto using whole_ok. - now destruct sub. - apply putf_ok. exact E2. }
    destruct (String.eqb_spec n "IDENT") as [->|].
    { destruct l as [|g [|x l]]; try discriminate. ob H a E1. ob H b E2. ob H d E3. gd H G. ob H con E4. ob H y E5. destruct y as [[[m mfs] q1] e1]. ob H sg E6. injection H as <-.
      destruct (next_ok _ _ _ _ _ _ _ F E5) as [NX FQ]. destruct (IH _ _ _ _ _ _ FQ E6) as (st' & R). exists st'.
      eapply reads_ident; eauto using whole_ok. - intros K. rewrite K in G. now apply Z.eqb_eq in G. - apply putf_ok. exact E4. }
    destruct (String.eqb_spec n "IRECSIZE") as [->|].
    { destruct l as [|g l]; try discriminate. ob H z E1. ob H y E5. destruct y as [[[m mfs] q1] e1]. ob H sg E6. injection H as <-.
      destruct (next_ok _ _ _ _ _ _ _ F E5) as [NX FQ]. destruct (IH _ _ _ _ _ _ FQ E6) as (st' & R). exists st'. eapply reads_irecsize; eauto using whole_ok. }
    destruct (String.eqb_spec n "IEND") as [->|].
    { ob H y E5. destruct y as [[[m mfs] q1] e1]. ob H sg E6. injection H as <-.
      destruct (next_ok _ _ _ _ _ _ _ F E5) as [NX FQ]. destruct (IH _ _ _ _ _ _ FQ E6) as (st' & R). exists st'. eapply reads_iend_more; eauto. }
    destruct (str_in n known_types) eqn:KT; [discriminate|].
    ob H x E. destruct x as [[[m mfs] q] e1]. ob H sg E2. injection H as <-.
    destruct (pass_ok _ _ _ _ _ _ _ _ _ _ NE F E) as [EP FQ]. destruct (IH _ _ _ _ _ _ FQ E2) as (st' & R). exists st'. eapply reads_pass; eauto.
    right. split; [intros I; apply str_in_spec in I; congruence|]. now exists f, l.
  Qed.
  Theorem describe_ok bs segs : describe only k id sub bs = Some segs -> file_of only k id sub bs segs.
  Proof.
    unfold describe. destruct (deframes (length bs) k bs) as [ps e] eqn:D. apply deframes_ok in D as [F ->]. intros H. ob H y E. destruct y as [[[m mfs] q1] e1].
    destruct (next_ok _ _ _ _ _ _ _ F E) as [NX FQ]. destruct (readf_ok _ _ _ _ _ _ _ FQ H) as (st' & R). exists m, mfs, (bytes q1 e1), st'. now split.
  Qed.
End Reading.
