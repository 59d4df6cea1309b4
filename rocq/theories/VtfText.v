(** * VtfText: words, numbers and lines of a VTF file *)
From Coq Require Import ZifyBool.
From Verif Require Import Base ListFacts Flt SeqFile SeqSpec SeqProofs RoundSpec RoundProofs NumProofs NumeralSpec NumeralProofs DecFacts Write WriteNum Vtf VtfSpec.
Open Scope string_scope.
Open Scope Z_scope.
Open Scope list_scope.

Definition solid (w : list ascii) : Prop := Forall (fun c => is_space_s c = false) w.
Definition word (w : list ascii) : Prop := w <> [] /\ solid w.

(** ** split *)
Lemma split_aux_word w : forall cur c r, solid w -> is_space_s c = true -> rev cur ++ w <> [] ->
  split_aux cur (w ++ c :: r) = (rev cur ++ w) :: split_aux [] r.
Proof.
  induction w as [|x w IH]; intros cur c r S H N; cbn [app split_aux].
  - rewrite H, app_nil_r in *. destruct cur; [now elim N|reflexivity].
  - inversion S as [|? ? Sx S']; subst. rewrite Sx, IH; [|exact S'|exact H|cbn [rev]; destruct (rev cur); discriminate].
    cbn [rev]. now rewrite <- app_assoc.
Qed.
Lemma split_word w c r : word w -> is_space_s c = true -> split (w ++ c :: r) = w :: split r.
Proof. intros [N S] H. unfold split. rewrite split_aux_word; [reflexivity|exact S|exact H|exact N]. Qed.
Lemma split_space c r : is_space_s c = true -> split (c :: r) = split r.
Proof. intro H. unfold split. cbn [split_aux]. now rewrite H. Qed.
Lemma split_blanks n r : split (repeat blank n ++ r) = split r.
Proof. induction n as [|n IH]; [reflexivity|]. cbn [repeat app]. now rewrite split_space. Qed.
Lemma split_end : split [nl] = []. Proof. reflexivity. Qed.
Lemma space_blank : is_space_s blank = true. Proof. reflexivity. Qed.
Lemma space_nl : is_space_s nl = true. Proof. reflexivity. Qed.
Lemma space_not_nl w : solid w -> ~ In nl w.
Proof. intros S H. unfold solid in S. rewrite Forall_forall in S. specialize (S _ H). discriminate. Qed.
Lemma solid_app a b : solid a -> solid b -> solid (a ++ b).
Proof. intros. apply Forall_app. now split. Qed.

(** ** lines *)
Definition is_line (l : text) : Prop := exists w, l = w ++ [nl] /\ ~ In nl w.
Lemma lines_aux_line w : forall cur r, ~ In nl w -> lines_aux cur (w ++ nl :: r) = (rev cur ++ w ++ [nl]) :: lines_aux [] r.
Proof.
  induction w as [|x w IH]; intros cur r N; cbn [app lines_aux].
  - rewrite Ascii.eqb_refl. reflexivity.
  - destruct (Ascii.eqb_spec x nl) as [->|D]; [elim N; now left|]. rewrite IH by (intro; apply N; now right). cbn [rev app]. now rewrite <- app_assoc.
Qed.
Lemma lines_concat (ls : list text) : Forall is_line ls -> lines (concat ls) = ls.
Proof.
  unfold lines. induction 1 as [|l ls (w & -> & N) H IH]; [reflexivity|]. cbn [concat]. rewrite <- app_assoc. cbn [app].
  rewrite lines_aux_line by exact N. cbn [rev app]. now rewrite IH.
Qed.

(** ** strip *)
Lemma strip_solid l w r : word w -> Forall (fun c => is_space_s c = true) l -> Forall (fun c => is_space_s c = true) r -> strip is_space_s (l ++ w ++ r) = w.
Proof. intros [_ S] L R. now apply strip_mid. Qed.
Lemma strip_word w : word w -> strip is_space_s w = w.
Proof. intro W. rewrite <- (app_nil_r w) at 1. now apply (strip_solid [] w []). Qed.
Lemma strip_nl w : word w -> strip is_space_s (w ++ [nl]) = w.
Proof. intro W. apply (strip_solid [] w [nl]); [exact W|constructor|repeat constructor]. Qed.
Lemma strip_nil_all l : strip is_space_s l = [] -> Forall (fun c => is_space_s c = true) l.
Proof. intro E. destruct (strip_split is_space_s l) as (a & b & -> & A & B). rewrite E. apply Forall_app. now split. Qed.
Lemma split_all_space l : Forall (fun c => is_space_s c = true) l -> split l = [].
Proof. induction 1 as [|c l H _ IH]; [reflexivity|]. now rewrite split_space. Qed.
Lemma not_blank_line l w ws : split l = w :: ws -> blank_line l = false.
Proof.
  intro E. unfold blank_line. destruct (strip is_space_s l) eqn:S; [|reflexivity]. rewrite (split_all_space l) in E by now apply strip_nil_all. discriminate.
Qed.
Lemma next_solid l w ws r : split l = w :: ws -> next_line (l :: r) = Some (l, r).
Proof. intro E. unfold next_line. cbn [dropwhile]. now rewrite (not_blank_line l w ws E). Qed.

(** ** Whole numbers *)
Lemma digits_of_list l : forallb DecFacts.is_digit l = true -> forall a, digits a 0 \/ True -> digits l (dec_value l).
Proof.
  intros D _ _. induction l as [|c l IH] using rev_ind; [constructor|]. rewrite forallb_app in D. apply andb_prop in D as [Dl Dc].
  cbn [forallb] in Dc. rewrite andb_true_r in Dc. unfold DecFacts.is_digit in Dc. unfold dec_value. rewrite fold_left_app. cbn [fold_left].
  rewrite <- (DecFacts.chr_code c) at 1. replace (code c) with (48 + (code c - 48)) at 1 by lia. apply digits_snoc; [now apply IH|lia].
Qed.
Lemma znum_digits n : 0 <= n -> digits (znum n) n /\ znum n <> [].
Proof.
  intro H. unfold znum. destruct (str_of_Z_facts n H) as (ds & -> & N & D & V & _). split; [|exact N].
  pose proof (digits_of_list ds D [] (or_intror I)) as X. now rewrite V in X.
Qed.
Lemma digits_solid l n : digits l n -> solid l.
Proof.
  intro D. apply digits_chars in D. eapply Forall_impl; [|exact D]. intros c Hc. cbn beta in Hc. unfold is_space_s. lia.
Qed.
Lemma znum_word n : 0 <= n -> word (znum n).
Proof. intro H. destruct (znum_digits n H) as [D N]. split; [exact N|now apply (digits_solid _ n)]. Qed.
Lemma digits_head l n : digits l n -> l <> [] -> sign_of l = (false, l).
Proof.
  intros D N. apply digits_chars in D. destruct l as [|c r]; [now elim N|]. inversion D; subst. unfold sign_of.
  destruct (Ascii.eqb_spec c "-") as [->|_]; [exfalso; apply (proj1 H1); reflexivity|]. destruct (Ascii.eqb_spec c "+") as [->|_]; [exfalso; apply (proj1 H1); reflexivity|reflexivity].
Qed.
Lemma digits_length_zlen l n : l <> [] -> digits l n -> 0 < Zlen l.
Proof. intros N _. unfold Zlen. destruct l; [now elim N|]. cbn [length]. lia. Qed.
Lemma int_digits w l n r : digits w n -> w <> [] -> Forall (fun c => is_space_s c = true) l -> Forall (fun c => is_space_s c = true) r -> int_text (l ++ w ++ r) = Ok n.
Proof.
  intros D N L R. unfold int_text. rewrite strip_solid; [|split; [exact N|now apply (digits_solid _ n)]|exact L|exact R].
  rewrite (digits_head w n D N). pose proof (digrun_app 0 0 w [] n D I) as E. rewrite app_nil_r in E. rewrite E.
  pose proof (digits_length_zlen w n N D). destruct (Z.eqb_spec (0 + Zlen w) 0); [lia|]. reflexivity.
Qed.
Lemma int_znum n : 0 <= n -> int_text (znum n) = Ok n.
Proof. intro H. destruct (znum_digits n H) as [D N]. pose proof (int_digits (znum n) [] n [] D N) as E. rewrite app_nil_r in E. apply E; constructor. Qed.
Lemma int32_znum n : 0 <= n < 10 ^ 9 -> to_int32 (znum n) = Ok n.
Proof.
  intro H. unfold to_int32. rewrite int_znum by lia. cbn [rbind]. change (10 ^ 9) with 1000000000 in H.
  destruct (Z.leb_spec (-2147483648) n); [|lia]. destruct (Z.leb_spec n 2147483647); [reflexivity|lia].
Qed.
(** The first of several digits is not 0. *)
Lemma digits_nonneg l n : digits l n -> 0 <= n.
Proof. induction 1; lia. Qed.
Lemma digits_big c r n : digits (c :: r) n -> code c <> 48 -> 10 ^ Zlen r <= n.
Proof.
  revert n. induction r as [|x r IH] using rev_ind; intros n D H.
  - change [c] with ([] ++ [c]) in D. apply digits_snoc_inv in D as (m & d & D & Hd & -> & ->). apply digits_nil_inv in D. subst m. rewrite DecFacts.code_chr in H by lia. unfold Zlen. cbn. lia.
  - change (c :: r ++ [x]) with ((c :: r) ++ [x]) in D. apply digits_snoc_inv in D as (m & d & D & Hd & -> & ->). specialize (IH _ D H). rewrite Zlen_app. change (Zlen [chr (48 + d)]) with 1.
    rewrite Z.pow_add_r by (apply Zlen_nonneg || lia). change (10 ^ 1) with 10. lia.
Qed.
Lemma znum_length n k : 0 <= n < 10 ^ Z.of_nat k -> (0 < k)%nat -> (length (znum n) <= k)%nat.
Proof.
  intros H K. unfold znum. destruct (str_of_Z_facts n (proj1 H)) as (ds & E & N & D & V & G). rewrite E.
  pose proof (digits_of_list ds D [] (or_intror I)) as X. rewrite V in X. destruct (Z.eq_dec n 0) as [->|Z0].
  - assert (ds = ["0"%char]) as -> by (rewrite <- E; reflexivity). exact K.
  - destruct (G ltac:(lia)) as (c & r & -> & Hc). pose proof (digits_big c r n X Hc) as B. cbn [length]. unfold Zlen in B.
    destruct (Nat.le_gt_cases (S (length r)) k) as [|L]; [assumption|]. assert (10 ^ Z.of_nat k <= 10 ^ Z.of_nat (length r)) by (apply Z.pow_le_mono_r; lia). lia.
Qed.

(** ** Columns *)
Lemma split_ljust n w r : word w -> (length w < n)%nat -> split (ljust n w ++ r) = w :: split r.
Proof.
  intros W L. unfold ljust. destruct (n - length w)%nat as [|k] eqn:E; [lia|]. rewrite <- app_assoc. cbn [repeat app].
  rewrite split_word by (exact W || reflexivity). now rewrite split_blanks.
Qed.
Lemma split_rjust n w c r : word w -> is_space_s c = true -> split (rjust n w ++ c :: r) = w :: split r.
Proof. intros W H. unfold rjust. rewrite <- app_assoc, split_blanks. now apply split_word. Qed.
Lemma rjust_space n w : (length w < n)%nat -> exists r, rjust n w = blank :: r.
Proof. intro L. unfold rjust. destruct (n - length w)%nat as [|k] eqn:E; [lia|]. cbn [repeat app]. eauto. Qed.

(** ** Five decimals *)
Definition finite (v : flt) : Prop := match v with FZero _ | FFin _ _ _ => True | _ => False end.
Lemma hundred_nearest v : finite v -> 0 <= hundred_thousandths v /\ nearest5 v (hundred_thousandths v).
Proof.
  destruct v as [|s|s|s m e]; intro F; try destruct F; cbn [hundred_thousandths nearest5].
  - split; lia.
  - destruct (Z.leb_spec 0 e) as [He|He].
    + rewrite Z.shiftl_mul_pow2 by exact He. pose proof (Z.pow_nonneg 2 e ltac:(lia)). split; [nia|]. intros k Hk Hek.
      rewrite Z.pow_add_r by lia. replace (Z.pos m * 10 ^ 5 * (2 ^ e * 2 ^ k) - Z.pos m * 2 ^ e * 10 ^ 5 * 2 ^ k) with 0 by ring. change (Z.abs 0) with 0. pose proof (Z.pow_nonneg 2 k). lia.
    + rewrite Z.shiftl_1_l, nearest_int_half. pose proof (Z.pow_pos_nonneg 2 (- e) ltac:(lia) ltac:(lia)) as HD.
      pose proof (half_even_near (Z.pos m * 10 ^ 5) (2 ^ (- e)) HD) as N. pose proof (half_even_bounds (Z.pos m * 10 ^ 5) (2 ^ (- e)) HD) as [B _].
      pose proof (Z.div_pos (Z.pos m * 10 ^ 5) (2 ^ (- e)) ltac:(lia) HD). split; [lia|]. intros k Hk Hek. set (n := half_even _ _) in *. clearbody n.
      replace (2 ^ k) with (2 ^ (- e) * 2 ^ (e + k)) by (rewrite <- Z.pow_add_r by lia; f_equal; lia). pose proof (Z.pow_pos_nonneg 2 (e + k) ltac:(lia) ltac:(lia)) as HP.
      set (D := 2 ^ (- e)) in *. set (P := 2 ^ (e + k)) in *. clearbody D P. replace (Z.pos m * 10 ^ 5 * P - n * (D * P)) with ((Z.pos m * 10 ^ 5 - n * D) * P) by ring.
      rewrite Z.abs_mul, (Z.abs_eq P) by lia. rewrite Z.mul_assoc. apply Z.mul_le_mono_nonneg_r; [lia|exact N].
Qed.
Lemma fits_hundred v : fits_column v -> hundred_thousandths v / 10 ^ 5 < 10 ^ (if flt_sign v then 4 else 5).
Proof.
  intro F. assert (Fin : finite v) by (destruct v; cbn in *; tauto). destruct (hundred_nearest v Fin) as [P N].
  destruct v as [|s|s|s m e]; try destruct Fin; cbn [flt_sign].
  - cbn [hundred_thousandths]. destruct s; reflexivity.
  - set (n := hundred_thousandths _) in *. clearbody n. cbn [nearest5 fits_column] in *. specialize (F (Z.max 0 (- e)) ltac:(lia) ltac:(lia)). specialize (N (Z.max 0 (- e)) ltac:(lia) ltac:(lia)).
    pose proof (Z.pow_pos_nonneg 2 (Z.max 0 (- e)) ltac:(lia) ltac:(lia)) as HP. set (K := 2 ^ Z.max 0 (- e)) in *. set (Q := 2 ^ (e + Z.max 0 (- e))) in *. clearbody K Q.
    replace (Z.pos m * 10 ^ 5 * Q) with (10 ^ 5 * (Z.pos m * Q)) in N by ring. set (X := Z.pos m * Q) in *. clearbody X. change (10 ^ 5) with 100000 in *.
    assert (n <= 100000 * (if s then 9999 else 99999)). { destruct s; nia. }
    apply Z.div_lt_upper_bound; [lia|]. destruct s; [change (10 ^ 4) with 10000|change (10 ^ 5) with 100000]; lia.
Qed.
Lemma decimal_mod k : forall n, 0 <= n -> digits (decimal k n) (n mod 10 ^ Z.of_nat k).
Proof.
  induction k as [|k IH]; intros n H; cbn [decimal].
  - change (10 ^ Z.of_nat 0) with 1. rewrite Z.mod_1_r. constructor.
  - rewrite Nat2Z.inj_succ, Z.pow_succ_r by lia. pose proof (Z.pow_pos_nonneg 10 (Z.of_nat k) ltac:(lia) ltac:(lia)). rewrite Z.rem_mul_r by lia. rewrite (Z.add_comm (n mod 10)).
    apply digits_snoc; [apply IH; apply Z.div_pos; lia|]. pose proof (Z.mod_pos_bound n 10 ltac:(lia)). lia.
Qed.
Definition sign_text (s : bool) : list ascii := if s then ["-"%char] else [].
Lemma fixed5_finite v : finite v -> fixed5 v = sign_text (flt_sign v) ++ znum (hundred_thousandths v / 10 ^ 5) ++ "."%char :: last_digits 5 (hundred_thousandths v).
Proof. destruct v; intro F; try destruct F; reflexivity. Qed.
Lemma fixed5_word v : finite v -> word (fixed5 v).
Proof.
  intro F. rewrite fixed5_finite by exact F. destruct (hundred_nearest v F) as [P _]. set (n := hundred_thousandths v) in *. clearbody n.
  pose proof (Z.div_pos n (10 ^ 5) P ltac:(lia)) as Q. destruct (znum_word _ Q) as [N S]. split.
  - intro E. apply app_eq_nil in E as [_ E]. apply app_eq_nil in E as [E _]. contradiction.
  - apply solid_app; [destruct (flt_sign v); repeat constructor|]. apply solid_app; [exact S|]. constructor; [reflexivity|]. rewrite last_digits_decimal. apply (digits_solid _ _ (decimal_mod 5 n P)).
Qed.
Lemma fixed5_length v : fits_column v -> (length (fixed5 v) < 12)%nat.
Proof.
  intro H. assert (F : finite v) by (destruct v; cbn in *; tauto). pose proof (fits_hundred v H) as B. destruct (hundred_nearest v F) as [P _]. rewrite fixed5_finite by exact F.
  set (n := hundred_thousandths v) in *. clearbody n. pose proof (Z.div_pos n (10 ^ 5) P ltac:(lia)) as Q. rewrite !app_length. cbn [length]. rewrite last_digits_decimal, decimal_length.
  destruct (flt_sign v); cbn [sign_text length].
  - pose proof (znum_length (n / 10 ^ 5) 4 (conj Q B)). lia.
  - pose proof (znum_length (n / 10 ^ 5) 5 (conj Q B)). lia.
Qed.
Lemma fixed5_reads v : finite v -> exists w, parse_float (fixed5 v) = Ok w /\ same_coord v w.
Proof.
  intro F. rewrite fixed5_finite by exact F. destruct (hundred_nearest v F) as [P N]. set (n := hundred_thousandths v) in *.
  pose proof (Z.div_pos n (10 ^ 5) P ltac:(lia)) as Q. destruct (znum_digits _ Q) as [D NE]. pose proof (decimal_mod 5 n P) as D5. pose proof (digits_app _ _ _ _ D D5) as DA.
  assert (E5 : Zlen (decimal 5 n) = 5) by (unfold Zlen; now rewrite decimal_length). rewrite E5 in DA. replace (n / 10 ^ 5 * 10 ^ 5 + n mod 10 ^ Z.of_nat 5) with n in DA.
  2:{ change (Z.of_nat 5) with 5. rewrite (Z.div_mod n (10 ^ 5)) at 1 by lia. ring. }
  exists (dec_to_flt (flt_sign v) n (-5)). split.
  - apply parse_float_reads. rewrite last_digits_decimal.
    assert (X : numeral (sign_text (flt_sign v) ++ (znum (n / 10 ^ 5) ++ "."%char :: decimal 5 n) ++ []) (dec_to_flt (flt_sign v) n (-5))).
    { apply (numeral_decimal _ (flt_sign v) _ (znum (n / 10 ^ 5)) (decimal 5 n) n [] 0); [destruct (flt_sign v); constructor|constructor|exact DA| |constructor|].
      - intro E. apply app_eq_nil in E as [E _]. contradiction.
      - rewrite decimal_length. change (0 - Z.of_nat 5) with (-5). now apply dec_to_flt_rounded. }
    rewrite app_nil_r in X. pose proof (reads_intro [] _ [] _ (Forall_nil _) (Forall_nil _) X) as R. rewrite app_nil_r in R. exact R.
  - exists n. split; [exact P|]. split; [exact N|]. replace (sign v) with (flt_sign v) by (destruct v; reflexivity). now apply dec_to_flt_rounded.
Qed.
Lemma split_coords x y z : fits_column x -> fits_column y -> fits_column z ->
  split (format_f5 x ++ format_f5 y ++ format_f5 z ++ [nl]) = [fixed5 x; fixed5 y; fixed5 z] /\ exists r, format_f5 x ++ format_f5 y ++ format_f5 z ++ [nl] = blank :: r.
Proof.
  assert (F : forall v, fits_column v -> finite v) by (intros v; destruct v; cbn; tauto). intros X Y Z. unfold format_f5. split.
  - destruct (rjust_space 12 (fixed5 y) (fixed5_length y Y)) as (ry & Ey). destruct (rjust_space 12 (fixed5 z) (fixed5_length z Z)) as (rz & Ez).
    rewrite Ey. cbn [app]. rewrite split_rjust by (now apply fixed5_word, F || reflexivity).
    rewrite <- (split_space blank) by reflexivity. change (blank :: ry ++ rjust 12 (fixed5 z) ++ [nl]) with ((blank :: ry) ++ rjust 12 (fixed5 z) ++ [nl]). rewrite <- Ey, Ez. cbn [app]. rewrite split_rjust by (now apply fixed5_word, F || reflexivity).
    rewrite <- (split_space blank) by reflexivity. change (blank :: rz ++ [nl]) with ((blank :: rz) ++ [nl]). rewrite <- Ez. rewrite split_rjust by (now apply fixed5_word, F || reflexivity). reflexivity.
  - destruct (rjust_space 12 (fixed5 x) (fixed5_length x X)) as (rx & ->). cbn [app]. eauto.
Qed.

(** ** Names *)
Lemma join_split u : forall cur, (forall c, In c u -> is_space_s c = true -> c = blank) -> (forall a b, u <> a ++ blank :: blank :: b) ->
  (u = [] \/ exists a c, u = a ++ [c] /\ is_space_s c = false) -> (cur = [] -> exists c r, u = c :: r /\ is_space_s c = false) ->
  join (split_aux cur (u ++ [nl])) = rev cur ++ u.
Proof.
  induction u as [|c u IH]; intros cur HS HD HL HC; cbn [app split_aux].
  - rewrite space_nl. destruct cur; [destruct (HC eq_refl) as (? & ? & ? & _); discriminate|]. cbn [join]. now rewrite app_nil_r.
  - assert (HS' : forall c, In c u -> is_space_s c = true -> c = blank) by (intros; apply HS; [now right|assumption]).
    assert (HD' : forall a b, u <> a ++ blank :: blank :: b) by (intros a b ->; now apply (HD (c :: a) b)).
    assert (HL' : u = [] \/ exists a c, u = a ++ [c] /\ is_space_s c = false).
    { destruct HL as [|(a & d & E & Hd)]; [discriminate|]. destruct a as [|a0 a]; injection E as -> ->; [now left|right; eauto]. }
    destruct (is_space_s c) eqn:Hc.
    + assert (c = blank) by (apply HS; [now left|exact Hc]). subst c. destruct cur as [|k cur]; [destruct (HC eq_refl) as (d & r & E & Hd); injection E as <- <-; rewrite Hc in Hd; discriminate|].
      assert (HU : exists d r, u = d :: r /\ is_space_s d = false).
      { destruct u as [|d r]; [destruct HL as [|(a & d & E & Hd)]; [discriminate|]; destruct a as [|a0 [|]]; try discriminate; injection E as <-; rewrite Hc in Hd; discriminate|].
        exists d, r. split; [reflexivity|]. destruct (is_space_s d) eqn:Hd; [|reflexivity]. rewrite (HS d (or_intror (or_introl eq_refl)) Hd) in HD. now elim (HD [] r). }
      specialize (IH [] HS' HD' HL' (fun _ => HU)). cbn [rev app] in IH. destruct (split_aux [] (u ++ [nl])) as [|w ws] eqn:E.
      * cbn [join] in IH. destruct HU as (d & r & -> & _). discriminate.
      * cbn [join] in IH |- *. rewrite IH. reflexivity.
    + rewrite (IH (c :: cur) HS' HD' HL'); [|discriminate]. cbn [rev]. now rewrite <- app_assoc.
Qed.
Lemma quoted_join t : one_line t -> join (split (quoted t ++ [nl])) = quoted t.
Proof.
  intros [HS HD]. unfold split. rewrite join_split; [reflexivity| | | |].
  - intros c [<-|H] Hc; [discriminate|]. apply in_app_or in H as [H|[<-|[]]]; [now apply HS|discriminate].
  - intros a b E. unfold quoted in E. destruct a as [|a0 a]; [discriminate|]. injection E as _ E.
    destruct b as [|x b _] using rev_ind; [|].
    + change (a ++ [blank; blank]) with (a ++ [blank] ++ [blank]) in E. rewrite app_assoc in E. apply app_inj_tail in E as [_ E]. discriminate.
    + change (a ++ blank :: blank :: b ++ [x]) with (a ++ (blank :: blank :: b) ++ [x]) in E. rewrite app_assoc in E. apply app_inj_tail in E as [E _]. now apply (HD a b).
  - right. exists (""""%char :: t), """"%char. now split.
  - intros _. exists """"%char, (t ++ [""""%char]). now split.
Qed.
Lemma inner_quoted t : inner (quoted t) = t.
Proof.
  unfold inner, quoted, slice, clamp. set (L := Zlen _). assert (E : L = Zlen t + 2) by (unfold L, Zlen; cbn [length]; rewrite app_length; cbn [length]; lia). rewrite E.
  pose proof (Zlen_nonneg t). destruct (Z.ltb_spec 1 0); [lia|]. destruct (Z.ltb_spec (-1) 0); [|lia].
  replace (Z.to_nat (Z.min 1 (Zlen t + 2))) with 1%nat by lia. cbn [skipn]. replace (Z.to_nat _) with (length t) by (unfold Zlen in *; lia).
  rewrite firstn_app, Nat.sub_diag, firstn_all, firstn_O. apply app_nil_r.
Qed.
Lemma directive_quoted w t : word w -> one_line t -> directive_text (split (w ++ blank :: quoted t ++ [nl])) = t.
Proof.
  intros W H. rewrite split_word by (exact W || reflexivity). pose proof (quoted_join t H) as J. unfold directive_text.
  destruct (split (quoted t ++ [nl])) as [|a [|b r]] eqn:E.
  - discriminate.
  - cbn [join] in J. rewrite J. apply inner_quoted.
  - rewrite J. apply inner_quoted.
Qed.
