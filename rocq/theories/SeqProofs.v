(** * SeqProofs: lemmas about the sequential file model. *)
From Verif Require Import Base Flt FltProofs RoundSpec RoundProofs SeqFile SeqSpec ListFacts.
From Coq Require Import ZifyBool ZifyNat.
Open Scope string_scope.
Open Scope Z_scope.
Open Scope list_scope.
Open Scope monad_scope.

(** ** Frames *)

Lemma readline_nl p tail : ~ In nl p -> readline (p ++ nl :: tail) = (p ++ [nl], tail).
Proof.
  induction p as [|c p IH]; intro H; cbn [app readline].
  - reflexivity.
  - replace (Ascii.eqb c nl) with false.
    2:{ symmetry. apply Ascii.eqb_neq. intros ->. apply H. now left. }
    rewrite IH; [reflexivity|]. intro Hin. apply H. now right.
Qed.

Lemma read_stringrec_frame k p b h fr tail :
  frame k p b ->
  read_stringrec (mkIn k (b ++ tail) h fr) = Ok (p, mkIn k tail false fr).
Proof.
  destruct 1 as [p b t H | p H]; unfold read_stringrec; cbn [f_kind f_rest f_floatrest].
  - cbn [app]. cbv zeta.
    replace (Z.to_nat (if code b =? 129 then 128 else code b)) with (length p).
    2:{ destruct H as [[H1 H2]|[H1 H2]].
        - replace (code b =? 129) with false by lia. lia.
        - replace (code b =? 129) with true by lia. lia. }
    rewrite <- app_assoc. rewrite firstn_app_exact, skipn_app_exact by reflexivity.
    reflexivity.
  - rewrite <- app_assoc. cbn [app]. rewrite readline_nl by exact H.
    rewrite removelast_app by discriminate. cbn. now rewrite app_nil_r.
Qed.

Lemma frame_nonempty k p b : frame k p b -> (1 <= length b)%nat.
Proof. destruct 1; cbn; rewrite ?app_length; cbn; lia. Qed.

(** Reading records one after the other. *)
Lemma read_stringrecs_frames k ps bs h fr tail :
  frames k ps bs ->
  exists h', read_stringrecs (length ps) (mkIn k (bs ++ tail) h fr) = Ok (ps, mkIn k tail h' fr)
             /\ (ps <> [] -> h' = false) /\ (h = false -> h' = false).
Proof.
  intro H. revert h. induction H as [|p ps b bs Hp Hps IH]; intro h.
  - exists h. cbn. repeat split; congruence.
  - cbn [length read_stringrecs]. unfold sbind.
    rewrite <- app_assoc. rewrite (read_stringrec_frame _ _ _ _ _ _ Hp).
    destruct (IH false) as (h' & E & _ & Hh). rewrite E.
    exists h'. cbn. auto.
Qed.

Lemma read_stringrec_eof h fr : read_stringrec (mkIn Unf [] h fr) = Err StructError.
Proof. reflexivity. Qed.

(** ** Numbers *)

Lemma flt_of_word_single s ex fr v :
  0 <= ex < 256 -> 0 <= fr < 8388608 -> single s ex fr v ->
  flt_of_word ((if s : bool then 2147483648 else 0) + ex * 8388608 + fr) = v.
Proof.
  intros Hex Hfr H. unfold flt_of_word.
  set (w := (if s then 2147483648 else 0) + ex * 8388608 + fr).
  assert (Hs : (2147483648 <=? w) = s) by (subst w; destruct s; lia).
  assert (Hf : w mod 8388608 = fr).
  { subst w. destruct s.
    - replace (2147483648 + ex * 8388608 + fr) with (fr + (256 + ex) * 8388608) by lia.
      rewrite Z.mod_add by lia. now apply Z.mod_small.
    - replace (0 + ex * 8388608 + fr) with (fr + ex * 8388608) by lia.
      rewrite Z.mod_add by lia. now apply Z.mod_small. }
  assert (He : (w / 8388608) mod 256 = ex).
  { subst w. destruct s.
    - replace (2147483648 + ex * 8388608 + fr) with (fr + (256 + ex) * 8388608) by lia.
      rewrite Z.div_add, Z.div_small by lia.
      replace (0 + (256 + ex)) with (ex + 1 * 256) by lia.
      rewrite Z.mod_add by lia. now apply Z.mod_small.
    - replace (0 + ex * 8388608 + fr) with (fr + ex * 8388608) by lia.
      rewrite Z.div_add, Z.div_small by lia. rewrite Z.add_0_l. now apply Z.mod_small. }
  rewrite Hs, He, Hf. clearbody w.
  clear Hs Hf He. clear w.
  destruct H as [s fr Hn | s | s | s fr m e Hn Ho Hge Hm | s ex fr m e Hr Ho Hge Hm]; try reflexivity.
  - replace (fr =? 0) with false by lia. reflexivity.
  - replace (0 =? 255) with false by lia. rewrite Z.eqb_refl. subst fr.
    assert (0 < 2 ^ (e + 149)) by (apply Z.pow_pos_nonneg; lia).
    destruct (Zpos m * 2 ^ (e + 149)) eqn:E; try nia.
    apply fmk_spec; auto.
  - replace (ex =? 255) with false by lia. replace (ex =? 0) with false by lia.
    destruct (fr + 8388608) eqn:E; try lia.
    apply fmk_spec; auto. lia.
Qed.

Lemma unpack_single bs v : single_bytes bs v -> unpack_f bs = v.
Proof.
  intros (b0 & b1 & b2 & b3 & s & ex & fr & -> & Hex & Hfr & Hw & Hv).
  cbn [unpack_f]. unfold word32.
  rewrite <- (flt_of_word_single s ex fr v Hex Hfr Hv). f_equal. lia.
Qed.

Lemma single_bytes_length bs v : single_bytes bs v -> length bs = 4%nat.
Proof. intros (b0 & b1 & b2 & b3 & s & ex & fr & -> & _). reflexivity. Qed.

(** Every four bytes encode exactly one value. *)
Lemma single_bytes_total bs : length bs = 4%nat -> exists v, single_bytes bs v.
Proof.
  destruct bs as [|b0 [|b1 [|b2 [|b3 [|? ?]]]]]; try discriminate. intros _.
  set (w := code b0 + code b1 * 256 + code b2 * 65536 + code b3 * 16777216).
  pose proof (code_range b0). pose proof (code_range b1).
  pose proof (code_range b2). pose proof (code_range b3).
  set (s := 2147483648 <=? w).
  set (u := if s then w - 2147483648 else w).
  set (ex := u / 8388608). set (fr := u mod 8388608).
  assert (Hu : 0 <= u < 2147483648).
  { unfold u, s, w. destruct (2147483648 <=? _) eqn:E; lia. }
  assert (Hex : 0 <= ex < 256).
  { unfold ex. split; [apply Z.div_pos; lia|apply Z.div_lt_upper_bound; lia]. }
  assert (Hfr : 0 <= fr < 8388608) by (apply Z.mod_pos_bound; lia).
  assert (Hw : (if s then 2147483648 else 0) + ex * 8388608 + fr = w).
  { assert (u = 8388608 * ex + fr) by (apply Z.div_mod; lia).
    unfold u in H3 at 1. destruct s; lia. }
  assert (Hmk : forall p e, exists m e', Z.odd (Zpos m) = true /\ e <= e' /\ Zpos m * 2 ^ (e' - e) = Zpos p).
  { intros p e. destruct (strip2 p e) as [m e'] eqn:E. apply strip2_odd in E as (A & B & C).
    exists m, e'. auto. }
  assert (Hv : exists v, single s ex fr v).
  { destruct (Z.eq_dec ex 255) as [E|E].
    - rewrite E. destruct (Z.eq_dec fr 0) as [F|F].
      + rewrite F. eexists. apply single_inf.
      + eexists. now apply single_nan.
    - destruct (Z.eq_dec ex 0) as [E0|E0].
      + rewrite E0. destruct (Z.eq_dec fr 0) as [F|F].
        * rewrite F. eexists. apply single_zero.
        * destruct fr as [|p|p] eqn:Ep; try lia.
          destruct (Hmk p (-149)) as (m & e & A & B & C).
          exists (FFin s m e). apply single_sub; auto; try lia.
      + destruct (8388608 + fr) as [|p|p] eqn:Ep; try lia.
        destruct (Hmk p (ex - 150)) as (m & e & A & B & C).
        exists (FFin s m e). apply single_norm; auto; try lia.
        }
  destruct Hv as [v Hv]. exists v.
  exists b0, b1, b2, b3, s, ex, fr. repeat split; auto; lia.
Qed.

(** ** Decimal fields *)

Definition all_digits (l : list ascii) : Prop := Forall (fun c => is_digit c = true) l.

Lemma digit_chr d : 0 <= d <= 9 -> is_digit (chr (48 + d)) = true /\ dig (chr (48 + d)) = d.
Proof. intro H. unfold is_digit, dig. rewrite code_chr by lia. lia. Qed.

(** No digit, at the head of the remaining text. *)
Definition head_nodigit (l : list ascii) : Prop :=
  match l with [] => True | c :: _ => is_digit c = false end.

Lemma digrun_app acc n l rest v :
  digits l v -> head_nodigit rest ->
  digrun acc n (l ++ rest) = (acc * 10 ^ Zlen l + v, n + Zlen l, rest).
Proof.
  intros H Hr. revert acc n rest Hr.
  assert (Gen : forall acc n rest, digrun acc n (l ++ rest) =
            digrun (acc * 10 ^ Zlen l + v) (n + Zlen l) rest).
  { induction H as [|l m d H IH Hd]; intros acc n rest.
    - cbn. f_equal; [|unfold Zlen; cbn; lia]. unfold Zlen. cbn [length]. cbn. lia.
    - rewrite <- app_assoc. rewrite IH. cbn [app digrun].
      destruct (digit_chr d Hd) as [-> ->]. f_equal.
      + rewrite Zlen_app. unfold Zlen at 3. cbn [length].
        rewrite Z.pow_add_r by (apply Zlen_nonneg || lia). lia.
      + rewrite Zlen_app. unfold Zlen at 3. cbn [length]. lia. }
  intros acc n rest Hr. rewrite Gen. destruct rest as [|c r]; cbn; [reflexivity|].
  cbn in Hr. now rewrite Hr.
Qed.

Lemma digits_chars l n : digits l n -> Forall (fun c => 48 <= code c <= 57) l.
Proof.
  induction 1; [constructor|]. apply Forall_app. split; [assumption|].
  constructor; [|constructor]. rewrite code_chr; lia.
Qed.

Lemma digits_snoc_inv l c m : digits (l ++ [c]) m ->
  exists n d, digits l n /\ 0 <= d <= 9 /\ c = chr (48 + d) /\ m = 10 * n + d.
Proof.
  intro H. remember (l ++ [c]) as x eqn:E. destruct H as [|l' n d Hl Hd].
  - destruct l; discriminate.
  - apply app_inj_tail in E as [-> <-]. eauto 6.
Qed.

Lemma digits_nil_inv m : digits [] m -> m = 0.
Proof.
  intro H. remember [] as x eqn:E. destruct H as [|l' n d Hl Hd]; [reflexivity|].
  destruct l'; discriminate.
Qed.

Lemma digits_unique l a b : digits l a -> digits l b -> a = b.
Proof.
  intros H. revert b. induction H as [|l a d H IH Hd]; intros b Hb.
  - symmetry. now apply digits_nil_inv.
  - apply digits_snoc_inv in Hb as (n' & d' & Hl' & Hd' & E & ->).
    rewrite (IH _ Hl'). apply (f_equal code) in E. rewrite !code_chr in E; lia.
Qed.

Lemma digits_prefix l1 l2 m : digits (l1 ++ l2) m -> exists a, digits l1 a.
Proof.
  revert m. induction l2 as [|c l2 IH] using rev_ind; intros m H.
  - rewrite app_nil_r in H. eauto.
  - rewrite app_assoc in H. apply digits_snoc_inv in H as (n & d & H & _). eauto.
Qed.

Lemma digrun_stop acc n r : head_nodigit r -> digrun acc n r = (acc, n, r).
Proof. destruct r; cbn; [reflexivity|]. now intros ->. Qed.

Lemma digrun_gen l1 a : digits l1 a -> forall l m, digits (l1 ++ l) m ->
  forall acc n r, digrun acc n (l ++ r) =
    digrun (acc * 10 ^ Zlen l + (m - a * 10 ^ Zlen l)) (n + Zlen l) r.
Proof.
  intros Ha l. induction l as [|x l IH] using rev_ind; intros m H acc n r.
  - rewrite app_nil_r in H. rewrite (digits_unique _ _ _ H Ha).
    unfold Zlen. cbn [length app]. change (10 ^ Z.of_nat 0) with 1. f_equal; lia.
  - rewrite app_assoc in H. apply digits_snoc_inv in H as (n' & d' & Hl' & Hd' & -> & ->).
    rewrite <- app_assoc, (IH _ Hl'). cbn [app digrun].
    destruct (digit_chr d' Hd') as [-> ->].
    rewrite Zlen_app. change (Zlen [chr (48 + d')]) with 1.
    rewrite Z.pow_add_r by (apply Zlen_nonneg || lia).
    f_equal; lia.
Qed.

Lemma digits_app_inv l1 l2 m : digits (l1 ++ l2) m ->
  exists a, digits l1 a /\ forall r acc n, head_nodigit r ->
     digrun acc n (l2 ++ r) = (acc * 10 ^ Zlen l2 + (m - a * 10 ^ Zlen l2), n + Zlen l2, r).
Proof.
  intro H. destruct (digits_prefix _ _ _ H) as [a Ha]. exists a. split; [exact Ha|].
  intros r acc n Hr. rewrite (digrun_gen l1 a Ha l2 m H). now apply digrun_stop.
Qed.

Lemma sign_of_txt sg s l :
  sign_txt sg s ->
  match l with [] => True | c :: _ => c <> "-"%char /\ c <> "+"%char end ->
  sign_of (sg ++ l) = (s, l).
Proof.
  destruct 1; cbn; auto. intro H. destruct l as [|c r]; cbn; [reflexivity|].
  destruct H as [H1 H2]. apply Ascii.eqb_neq in H1, H2. now rewrite H1, H2.
Qed.

Lemma digits_head l n r : digits l n -> l <> [] ->
  exists c l', l ++ r = c :: l' /\ 48 <= code c <= 57.
Proof.
  intros H Hne. apply digits_chars in H. destruct l as [|c l]; [congruence|].
  inversion H; subst. exists c, (l ++ r). auto.
Qed.

Lemma lower_digit c : 48 <= code c <= 57 -> lower c = c.
Proof. intro H. unfold lower. replace (65 <=? code c) with false by lia. reflexivity. Qed.

Lemma parse_float_plain i sg s ip n fp m j : sign_txt sg s -> digits ip n -> ip <> [] -> digits (ip ++ fp) m ->
  parse_float (repeat blank i ++ sg ++ ip ++ ["."%char] ++ fp ++ repeat blank j) = Ok (dec_to_flt s m (- Z.of_nat (length fp))).
Proof.
  intros Hsg Hip Hne Hm.
  unfold parse_float.
  set (body := sg ++ ip ++ ["."%char] ++ fp).
  assert (Hfp : exists a, digits ip a /\ forall r acc n, head_nodigit r ->
     digrun acc n (fp ++ r) = (acc * 10 ^ Zlen fp + (m - a * 10 ^ Zlen fp), n + Zlen fp, r))
    by now apply digits_app_inv.
  destruct Hfp as (a & Ha & Hfprun).
  assert (Hfpc : Forall (fun c => 48 <= code c <= 57) fp).
  { apply digits_chars in Hm. now apply Forall_app in Hm. }
  assert (Hstrip : strip is_space_s
     (repeat blank i ++ sg ++ ip ++ ["."%char] ++ fp ++ repeat blank j) = body).
  { replace (sg ++ ip ++ ["."%char] ++ fp ++ repeat blank j)
      with (body ++ repeat blank j).
    2:{ unfold body. rewrite <- !app_assoc. reflexivity. }
    apply strip_pad; [reflexivity|].
    assert (Hdc : forall l, Forall (fun c => 48 <= code c <= 57) l -> Forall (fun c => is_space_s c = false) l).
    { intros l Hl. eapply Forall_impl; [|exact Hl]. intros c Hc. cbn beta in Hc. unfold is_space_s. lia. }
    unfold body. rewrite !Forall_app. repeat match goal with |- _ /\ _ => split end.
    - destruct Hsg; repeat constructor.
    - apply Hdc. now apply digits_chars in Hip.
    - repeat constructor.
    - now apply Hdc. }
  rewrite Hstrip. unfold body.
  destruct (digits_head ip n (["."%char] ++ fp) Hip Hne) as (c & l' & El & Hc).
  rewrite (sign_of_txt sg s).
  2: exact Hsg.
  2:{ rewrite El. split; intros ->; vm_compute in Hc; destruct Hc; congruence. }
  set (rest := ["."%char] ++ fp) in *.
  (* not one of the words *)
  assert (Hw : forall w, (exists d t, w = String d t /\ (code d < 48 \/ 57 < code d)) ->
     String.eqb (l2s (map lower (ip ++ rest))) w = false).
  { intros w (d & t & -> & Hd). rewrite El. cbn [map l2s string_of_list_ascii].
    apply String.eqb_neq. intro E. injection E as E _. rewrite lower_digit in E by exact Hc.
    subst d. lia. }
  rewrite (Hw "inf"), (Hw "infinity"), (Hw "nan");
    try (eexists; eexists; split; [reflexivity|right; reflexivity]).
  cbn [orb].
  rewrite (digrun_app 0 0 ip rest n Hip) by reflexivity.
  unfold rest at 1. cbn [app]. rewrite Ascii.eqb_refl.
  rewrite <- (app_nil_r fp). rewrite Hfprun by exact I. rewrite app_nil_r.
  assert (n = a).
  { assert (E := digrun_app 0 0 ip [] n Hip I). rewrite (digrun_app 0 0 ip [] a Ha I) in E.
    injection E. lia. }
  subst a.
  replace (0 + Zlen ip + (0 + Zlen fp) =? 0) with false.
  2:{ destruct ip; [congruence|]. unfold Zlen. cbn [length]. lia. }
  f_equal. f_equal. ring.
Qed.

Lemma parse_float_field l s m x : efield l s m x -> parse_float l = Ok (dec_to_flt s m x).
Proof.
  destruct 1 as [i sg s ip n fp m e es exs ed ex j Hsg Hip Hne Hm He Hes Hed Hedne|i sg s ip n fp m j Hsg Hip Hne Hm]; [|now apply (parse_float_plain i sg s ip n)].
  unfold parse_float.
  set (body := sg ++ ip ++ ["."%char] ++ fp ++ [e] ++ es ++ ed).
  assert (Hfp : exists a, digits ip a /\ forall r acc n, head_nodigit r ->
     digrun acc n (fp ++ r) = (acc * 10 ^ Zlen fp + (m - a * 10 ^ Zlen fp), n + Zlen fp, r))
    by now apply digits_app_inv.
  destruct Hfp as (a & Ha & Hfprun).
  assert (Hfpc : Forall (fun c => 48 <= code c <= 57) fp).
  { apply digits_chars in Hm. now apply Forall_app in Hm. }
  assert (Hstrip : strip is_space_s
     (repeat blank i ++ sg ++ ip ++ ["."%char] ++ fp ++ [e] ++ es ++ ed ++ repeat blank j) = body).
  { replace (sg ++ ip ++ ["."%char] ++ fp ++ [e] ++ es ++ ed ++ repeat blank j)
      with (body ++ repeat blank j).
    2:{ unfold body. rewrite <- !app_assoc. reflexivity. }
    apply strip_pad; [reflexivity|].
    assert (Hdc : forall l, Forall (fun c => 48 <= code c <= 57) l -> Forall (fun c => is_space_s c = false) l).
    { intros l Hl. eapply Forall_impl; [|exact Hl]. intros c Hc. cbn beta in Hc. unfold is_space_s. lia. }
    unfold body. rewrite !Forall_app. repeat match goal with |- _ /\ _ => split end.
    - destruct Hsg; repeat constructor.
    - apply Hdc. now apply digits_chars in Hip.
    - repeat constructor.
    - now apply Hdc.
    - destruct He as [-> | ->]; repeat constructor.
    - destruct Hes; repeat constructor.
    - apply Hdc. now apply digits_chars in Hed. }
  rewrite Hstrip. unfold body.
  destruct (digits_head ip n (["."%char] ++ fp ++ [e] ++ es ++ ed) Hip Hne) as (c & l' & El & Hc).
  rewrite (sign_of_txt sg s).
  2: exact Hsg.
  2:{ rewrite El. split; intros ->; vm_compute in Hc; destruct Hc; congruence. }
  set (rest := ["."%char] ++ fp ++ [e] ++ es ++ ed) in *.
  (* not one of the words *)
  assert (Hw : forall w, (exists d t, w = String d t /\ (code d < 48 \/ 57 < code d)) ->
     String.eqb (l2s (map lower (ip ++ rest))) w = false).
  { intros w (d & t & -> & Hd). rewrite El. cbn [map l2s string_of_list_ascii].
    apply String.eqb_neq. intro E. injection E as E _. rewrite lower_digit in E by exact Hc.
    subst d. lia. }
  rewrite (Hw "inf"), (Hw "infinity"), (Hw "nan");
    try (eexists; eexists; split; [reflexivity|right; reflexivity]).
  cbn [orb].
  rewrite (digrun_app 0 0 ip rest n Hip) by reflexivity.
  unfold rest at 1. cbn [app]. rewrite Ascii.eqb_refl.
  assert (Hhead : head_nodigit ([e] ++ es ++ ed)) by (destruct He as [-> | ->]; reflexivity).
  change (fp ++ e :: es ++ ed) with (fp ++ [e] ++ es ++ ed).
  rewrite Hfprun by exact Hhead.
  assert (n = a).
  { assert (E := digrun_app 0 0 ip [] n Hip I). rewrite (digrun_app 0 0 ip [] a Ha I) in E.
    injection E. lia. }
  subst a.
  replace (0 + Zlen ip + (0 + Zlen fp) =? 0) with false.
  2:{ destruct ip; [congruence|]. unfold Zlen. cbn [length]. lia. }
  cbn [app].
  replace (Ascii.eqb (lower e) "e") with true by (destruct He as [-> | ->]; reflexivity).
  destruct (digits_head ed ex [] Hed Hedne) as (c2 & l2 & El2 & Hc2).
  rewrite app_nil_r in El2.
  rewrite (sign_of_txt es exs).
  2: exact Hes.
  2:{ rewrite El2. split; intros ->; vm_compute in Hc2; destruct Hc2; congruence. }
  rewrite <- (app_nil_r ed). rewrite (digrun_app 0 0 ed [] ex Hed I).
  replace (0 + Zlen ed =? 0) with false.
  2:{ rewrite El2. unfold Zlen. cbn [length]. lia. }
  f_equal. f_equal.
  ring.
Qed.

Lemma efield_nonneg l s m x : efield l s m x -> 0 <= m.
Proof. destruct 1 as [i sg s ip n fp m e es exs ed ex j _ _ _ Hm _ _ _ _|i sg s ip n fp m j _ _ _ Hm]; induction Hm; lia. Qed.
Lemma field_parsed l s m x v : efield l s m x -> rounded64 (dec_number m x) s v -> parse_float l = Ok v.
Proof.
  intros H R. rewrite (parse_float_field _ _ _ _ H). f_equal.
  exact (rounded_unique _ _ _ _ _ _ _ (dec_to_flt_rounded s m x (efield_nonneg _ _ _ _ H)) R).
Qed.

Lemma enc_nums_pieces k fs bs : enc_nums k fs bs ->
  exists ps, bs = concat ps /\ Forall2 (enc_num k) ps fs /\
    Forall (fun p => length p = match k with Unf => 4%nat | Fmt => 16%nat end) ps.
Proof.
  induction 1 as [|v vs b bs Hv _ (ps & -> & H1 & H2)].
  - exists []. repeat constructor.
  - exists (b :: ps). cbn. repeat split; auto. constructor; auto.
    destruct Hv as [? ? Hv|]; auto. now apply single_bytes_length in Hv.
Qed.

Lemma tofloatrec_enc k fs bs : enc_nums k fs bs -> tofloatrec k bs = Ok fs.
Proof.
  intro H. apply enc_nums_pieces in H as (ps & -> & H1 & H2). unfold tofloatrec.
  destruct k.
  - unfold Zlen. rewrite (concat_length 4) by exact H2.
    replace (Z.of_nat (4 * length ps) mod 4 =? 0) with true.
    2:{ rewrite Nat2Z.inj_mul, Z.mul_comm, Z.mod_mul by lia. reflexivity. }
    rewrite chunks_concat by (auto; lia). f_equal.
    induction H1 as [|p f ps fs Hp]; [reflexivity|]. inversion H2; subst. cbn [map].
    f_equal; auto. inversion Hp; subst. now apply unpack_single.
  - rewrite chunks_concat by (auto; lia).
    induction H1 as [|p f ps fs Hp]; [reflexivity|]. inversion H2; subst. cbn [rmap].
    inversion Hp as [|? ? ? (s & m & x & Hf & Hv)]; subst.
    rewrite (field_parsed _ _ _ _ _ Hf Hv). now rewrite IHForall2.
Qed.

Lemma enc_nums_length k fs bs : enc_nums k fs bs ->
  length bs = ((match k with Unf => 4 | Fmt => 16 end) * length fs)%nat.
Proof.
  intro H. apply enc_nums_pieces in H as (ps & -> & H1 & H2).
  rewrite (concat_length _ _ H2). now rewrite (Forall2_len _ _ _ H1).
Qed.

(** ** Headers *)

Lemma graphic_nospace c : graphic c -> is_space_s c = false /\ is_space_b c = false /\ code c < 128.
Proof. unfold graphic, is_space_s, is_space_b. lia. Qed.

Lemma name8_length n l : name8 n l -> length l = 8%nat.
Proof. destruct 1. rewrite !app_length, !repeat_length. lia. Qed.
Lemma name8_strip n l : name8 n l -> strip is_space_s l = s2l n /\ strip is_space_b l = s2l n.
Proof.
  destruct 1 as [n i j _ Hg _]. split; (apply strip_pad; [reflexivity|]);
  (eapply Forall_impl; [|exact Hg]); intros c Hc; apply graphic_nospace in Hc; tauto.
Qed.
Lemma name8_ascii n l : name8 n l -> forallb (fun c => code c <? 128) l = true.
Proof.
  destruct 1 as [n i j _ Hg _]. rewrite !forallb_app, !andb_true_iff.
  assert (R : forall i, forallb (fun c => code c <? 128) (repeat blank i) = true).
  { induction i0; cbn; auto. }
  rewrite !R. repeat split; auto. apply forallb_forall. intros c Hc.
  rewrite Forall_forall in Hg. apply Hg in Hc. unfold graphic in Hc. lia.
Qed.
Lemma name8_notblank n l : name8 n l -> l <> blanks8.
Proof.
  intros H E. pose proof (name8_strip _ _ H) as [S _]. rewrite E in S.
  unfold blanks8 in S. rewrite strip_blanks in S by reflexivity.
  destruct H as [n i j Hne _ _]. destruct n; [congruence|discriminate].
Qed.

Lemma strip_recname_enc k n nb : name8 n nb -> strip_recname k nb = Ok n.
Proof.
  intro H. unfold strip_recname, decode. rewrite (name8_ascii _ _ H).
  destruct (name8_strip _ _ H) as [-> _]. rewrite l2s_s2l. now destruct k.
Qed.

Lemma as_header_enc k n fs nb fb :
  name8 n nb -> enc_nums k fs fb -> as_header k (nb ++ fb) = Ok (n, fs).
Proof.
  intros Hn Hf. unfold as_header, rbind.
  rewrite firstn_app_exact, skipn_app_exact by now apply name8_length in Hn.
  rewrite (strip_recname_enc _ _ _ Hn), (tofloatrec_enc _ _ _ Hf). reflexivity.
Qed.

Lemma read_headerrec_enc k n fs hb tail h fr :
  enc_header k n fs hb ->
  read_headerrec (mkIn k (hb ++ tail) h fr) = Ok ((n, fs), mkIn k tail false fr).
Proof.
  destruct 1 as [n nb fs fb bs Hn Hf Hfr]. unfold read_headerrec, sbind.
  rewrite (read_stringrec_frame _ _ _ _ _ _ Hfr). cbn [f_kind].
  rewrite (as_header_enc _ _ _ _ _ Hn Hf). reflexivity.
Qed.

Lemma read_headerrec_end k bs h fr :
  at_end k bs -> read_headerrec (mkIn k bs h fr) = Ok (("", []), mkIn k [] false fr).
Proof.
  destruct 1 as [|b]; unfold read_headerrec, sbind; cbn [f_kind]; [reflexivity|].
  unfold read_stringrec. cbn [f_kind f_rest f_floatrest]. cbv zeta.
  rewrite firstn_nil, !skipn_nil. reflexivity.
Qed.

Lemma read_headerrec_next k n fs bs tail h fr :
  enc_next k n fs bs tail ->
  read_headerrec (mkIn k bs h fr) = Ok ((n, fs), mkIn k tail false fr).
Proof.
  destruct 1; [now apply read_headerrec_enc|now apply read_headerrec_end].
Qed.

(** ** Continuation records *)

Lemma read_floatrec_enc k ld fs bs tail h fr :
  enc_cont k ld fs bs ->
  read_floatrec (lead_n ld) (mkIn k (bs ++ tail) h fr) = Ok (fs, mkIn k tail false fr).
Proof.
  destruct 1 as [fs fb bs Hf Hfr]. unfold read_floatrec, sbind.
  rewrite (read_stringrec_frame _ _ _ _ _ _ Hfr). cbn [f_kind].
  pose proof (tofloatrec_enc _ _ _ Hf) as E.
  destruct k; cbn [lead_of] in *; rewrite skipn_app_exact by apply repeat_length;
    rewrite E; reflexivity.
Qed.

Lemma enc_conts_app_inv k ld c cs bs :
  enc_conts k ld (c :: cs) bs ->
  exists b bs', bs = b ++ bs' /\ enc_cont k ld c b /\ enc_conts k ld cs bs'.
Proof. inversion 1; subst. eauto 6. Qed.

Lemma enc_cont_nonempty k ld c b : enc_cont k ld c b -> (1 <= length b)%nat.
Proof. destruct 1. eapply frame_nonempty; eauto. Qed.

(** ** read_floats *)

Lemma read_until_enc ld cs : forall bs fuel need tail h fr,
  enc_conts Unf ld cs bs -> need <= Zlen (concat cs) -> (length cs < fuel)%nat ->
  exists cs1 cs2 bs2, cs = cs1 ++ cs2 /\ enc_conts Unf ld cs2 bs2 /\
    need <= Zlen (concat cs1) /\
    read_until fuel need (lead_n ld) (mkIn Unf (bs ++ tail) h fr)
      = Ok (concat cs1, mkIn Unf (bs2 ++ tail) (if need <=? 0 then h else false) fr).
Proof.
  induction cs as [|c cs IH]; intros bs fuel need tail h fr He Hn Hf.
  - exists [], [], bs. repeat split; auto. cbn [concat] in *.
    destruct fuel; cbn [read_until]; replace (need <=? 0) with true by (unfold Zlen in *; cbn in *; lia);
      reflexivity.
  - destruct fuel as [|fuel]; [cbn in Hf; lia|]. cbn [read_until].
    destruct (need <=? 0) eqn:E.
    + exists [], (c :: cs), bs. repeat split; auto. unfold Zlen; cbn; lia.
    + apply enc_conts_app_inv in He as (b & bs' & -> & Hb & Hbs').
      unfold sbind. rewrite <- app_assoc. rewrite (read_floatrec_enc _ _ _ _ _ _ _ Hb).
      cbn [concat] in Hn. rewrite Zlen_app in Hn.
      destruct (IH bs' fuel (need - Zlen c) tail false fr Hbs') as (cs1 & cs2 & bs2 & -> & He2 & Hle & Hrun).
      { lia. } { cbn in Hf; lia. }
      rewrite Hrun. exists (c :: cs1), cs2, bs2. repeat split; auto.
      * cbn [concat]. rewrite Zlen_app. lia.
      * cbn. now destruct (need - Zlen c <=? 0).
Qed.

Lemma legal_cut_cons k c cs : legal_cut k (c :: cs) -> legal_cut k cs.
Proof. destruct cs; cbn; tauto. Qed.
Lemma legal_cut_app k a b : legal_cut k (a ++ b) -> legal_cut k b.
Proof. induction a; cbn [app]; auto. intro H. apply IHa. eapply legal_cut_cons; eauto. Qed.

Lemma read_lines_enc ld cs : forall bs need tail h fr,
  enc_conts Fmt ld cs bs -> legal_cut Fmt cs -> need <= Zlen (concat cs) ->
  exists cs1 cs2 bs2, cs = cs1 ++ cs2 /\ enc_conts Fmt ld cs2 bs2 /\
    need <= Zlen (concat cs1) /\
    read_lines (Z.to_nat (ceil4 need)) (lead_n ld) (mkIn Fmt (bs ++ tail) h fr)
      = Ok (concat cs1, mkIn Fmt (bs2 ++ tail) (if need <=? 0 then h else false) fr).
Proof.
  induction cs as [|c cs IH]; intros bs need tail h fr He Hl Hn.
  - exists [], [], bs. repeat split; auto.
    unfold Zlen in Hn; cbn in Hn.
    replace (Z.to_nat (ceil4 need)) with 0%nat.
    2:{ unfold ceil4. assert ((need + 3) / 4 <= 0); [|lia].
        assert ((need + 3) / 4 < 1); [|lia]. apply Z.div_lt_upper_bound; lia. }
    cbn. replace (need <=? 0) with true by lia. reflexivity.
  - destruct (need <=? 0) eqn:E.
    + exists [], (c :: cs), bs. repeat split; auto. { unfold Zlen; cbn; lia. }
      replace (Z.to_nat (ceil4 need)) with 0%nat.
      2:{ unfold ceil4. assert ((need + 3) / 4 <= 0); [|lia].
          assert ((need + 3) / 4 < 1); [|lia]. apply Z.div_lt_upper_bound; lia. }
      reflexivity.
    + apply enc_conts_app_inv in He as (b & bs' & -> & Hb & Hbs').
      assert (Hc : ceil4 need = ceil4 (need - 4) + 1).
      { unfold ceil4. replace (need + 3) with (need - 4 + 3 + 1 * 4) by lia.
        rewrite Z.div_add by lia. lia. }
      assert (0 <= ceil4 (need - 4)).
      { unfold ceil4. apply Z.div_pos; lia. }
      rewrite Hc. replace (Z.to_nat (ceil4 (need - 4) + 1)) with (S (Z.to_nat (ceil4 (need - 4)))) by lia.
      cbn [read_lines]. unfold sbind. rewrite <- app_assoc.
      rewrite (read_floatrec_enc _ _ _ _ _ _ _ Hb).
      cbn [concat] in Hn. rewrite Zlen_app in Hn.
      pose proof (legal_cut_cons _ _ _ Hl) as Hl'.
      assert (Hlc : need - 4 <= Zlen (concat cs) /\ (need - 4 <= 0 \/ Zlen c = 4)).
      { destruct cs as [|c' cs'].
        - cbn in Hl. unfold Zlen in *. cbn in *. lia.
        - destruct Hl as [Hl _]. unfold Zlen in *. lia. }
      destruct (IH bs' (need - 4) tail false fr Hbs' Hl') as (cs1 & cs2 & bs2 & -> & He2 & Hle & Hrun).
      { lia. }
      rewrite Hrun.
      exists (c :: cs1), cs2, bs2. repeat split; auto.
      * cbn [concat]. rewrite Zlen_app.
        destruct Hlc as [_ [Hs|H4]]; [|lia].
        (* need <= 4: one line is enough *)
        destruct (cs1 ++ cs2) as [|c' cs'] eqn:Ecs.
        -- apply app_eq_nil in Ecs as [-> ->]. unfold Zlen in *; cbn in *; lia.
        -- destruct Hl as [Hl _]. pose proof (Zlen_nonneg (concat cs1)). unfold Zlen in *. lia.
      * cbn. now destruct (need - 4 <=? 0).
Qed.

(** The reading position inside the continuation part of a record: what is
    buffered and what is still on the file make up [data] and [pad]. *)
Definition reading (k : kind) (ld : lead) (s : infile) (data pad : list flt) (tail : list ascii) : Prop :=
  exists cs bs, f_kind s = k /\ f_rest s = bs ++ tail /\ enc_conts k ld cs bs /\ legal_cut k cs /\
    (if f_hasrest s then f_floatrest s else []) ++ concat cs = data ++ pad /\
    (cs = [] \/ (length pad < length (last cs []))%nat).

Lemma last_app_ne {A} (a b : list (list A)) : b <> [] -> last (a ++ b) [] = last b [].
Proof.
  intro H. induction a as [|x a IH]; [reflexivity|]. cbn [app].
  destruct (a ++ b) eqn:E; [apply app_eq_nil in E as [_ ->]; congruence|].
  cbn. now rewrite <- IH.
Qed.

Lemma app_split_le {A} (x y a b : list A) :
  x ++ y = a ++ b -> (length a <= length x)%nat -> exists m, x = a ++ m /\ b = m ++ y.
Proof.
  revert a. induction x as [|c x IH]; intros a H Hle.
  - destruct a; [|cbn in Hle; lia]. exists []. auto.
  - destruct a as [|d a].
    + exists (c :: x). auto.
    + cbn in H. injection H as -> H. destruct (IH a H) as (m & -> & ->); [cbn in Hle; lia|].
      exists m. auto.
Qed.

Lemma enc_conts_len k ld cs bs : enc_conts k ld cs bs -> (length cs <= length bs)%nat.
Proof.
  induction 1 as [|c cs b bs Hc _ IH]; [cbn; lia|].
  apply enc_cont_nonempty in Hc. rewrite app_length. cbn. lia.
Qed.

Lemma read_floats_reading k ld s d1 d2 pad tail :
  reading k ld s (d1 ++ d2) pad tail ->
  exists s', read_floats (Zlen d1) (lead_n ld) s = Ok (d1, s') /\ reading k ld s' d2 pad tail.
Proof.
  intros (cs & bs & Hk & Hr & He & Hl & Hd & Hp).
  unfold read_floats. cbv zeta.
  destruct (Zlen d1 =? 0) eqn:E0.
  { destruct d1; [|unfold Zlen in E0; cbn in E0; lia].
    exists s. split; [reflexivity|]. exists cs, bs. auto 10. }
  set (buf := if f_hasrest s then f_floatrest s else []) in *.
  rewrite <- app_assoc in Hd.
  destruct (0 <? Zlen d1 - Zlen buf) eqn:Et.
  - (* need to read *)
    assert (Hneed : Zlen d1 - Zlen buf <= Zlen (concat cs)).
    { apply (f_equal Zlen) in Hd. rewrite !Zlen_app in Hd.
      pose proof (Zlen_nonneg d2). pose proof (Zlen_nonneg pad). lia. }
    assert (Hrun : exists cs1 cs2 bs2, cs = cs1 ++ cs2 /\ enc_conts k ld cs2 bs2 /\
       Zlen d1 - Zlen buf <= Zlen (concat cs1) /\
       (match f_kind s return StM infile (list flt) with
        | Unf => read_until (S (length (f_rest s))) (Zlen d1 - Zlen buf) (lead_n ld)
        | Fmt => read_lines (Z.to_nat (ceil4 (Zlen d1 - Zlen buf))) (lead_n ld)
        end) s = Ok (concat cs1, mkIn k (bs2 ++ tail) false (f_floatrest s))).
    { destruct s as [k' r h fr]. cbn [f_kind f_rest f_hasrest f_floatrest] in *. subst k' r.
      destruct k.
      - destruct (read_until_enc ld cs bs (S (length (bs ++ tail))) (Zlen d1 - Zlen buf) tail h fr)
          as (cs1 & cs2 & bs2 & A & B & C & D); auto.
        { apply enc_conts_len in He. rewrite app_length. lia. }
        exists cs1, cs2, bs2. repeat split; auto. rewrite D.
        replace (Zlen d1 - Zlen buf <=? 0) with false by lia. reflexivity.
      - destruct (read_lines_enc ld cs bs (Zlen d1 - Zlen buf) tail h fr)
          as (cs1 & cs2 & bs2 & A & B & C & D); auto.
        exists cs1, cs2, bs2. repeat split; auto. rewrite D.
        replace (Zlen d1 - Zlen buf <=? 0) with false by lia. reflexivity. }
    destruct Hrun as (cs1 & cs2 & bs2 & -> & He2 & Hle & Hrun).
    unfold sbind. rewrite Hrun. unfold sret.
    rewrite concat_app, app_assoc in Hd.
    destruct (app_split_le _ _ _ _ Hd) as (m & Hm & Hm2).
    { rewrite app_length. unfold Zlen in Hle. lia. }
    rewrite Hm, slice_to_app, slice_from_app. cbn [f_kind f_rest f_hasrest f_floatrest].
    eexists. split; [reflexivity|].
    exists cs2, bs2. cbn [f_kind f_rest f_hasrest f_floatrest].
    repeat split; auto.
    + eapply legal_cut_app; eauto.
    + rewrite Hm2. now destruct m.
    + destruct cs2 as [|c2 cs2]; [now left|right].
      destruct Hp as [Hp|Hp]; [destruct cs1; discriminate|].
      rewrite last_app_ne in Hp by discriminate. exact Hp.
  - (* buffer suffices *)
    destruct (app_split_le _ _ _ _ Hd) as (m & Hm & Hm2).
    { unfold Zlen in Et. lia. }
    rewrite Hm, slice_to_app, slice_from_app.
    eexists. split; [reflexivity|].
    exists cs, bs. cbn [f_kind f_rest f_hasrest f_floatrest].
    repeat split; auto.
    rewrite Hm2. destruct m; [|reflexivity].
    now destruct (f_hasrest s).
Qed.

Lemma reading_done k ld s pad tail : reading k ld s [] pad tail -> f_kind s = k /\ f_rest s = tail.
Proof.
  intros (cs & bs & Hk & Hr & He & Hl & Hd & Hp). split; [exact Hk|].
  destruct Hp as [->|Hp].
  - inversion He; subst. exact Hr.
  - exfalso. apply (f_equal (@length _)) in Hd. cbn [app] in Hd. rewrite app_length in Hd.
    assert (length (last cs []) <= length (concat cs))%nat.
    { clear. induction cs as [|c cs IH]; [cbn; lia|].
      cbn [concat]. rewrite app_length. destruct cs; cbn in *; lia. }
    lia.
Qed.

Lemma reading_start k ld data bs tail fr :
  enc_data k ld data bs -> exists pad, reading k ld (mkIn k (bs ++ tail) false fr) data pad tail.
Proof.
  intros (pad & cs & (Hl & Hc & Hp) & He). exists pad, cs, bs. cbn. auto 10.
Qed.

(** Successive calls. *)
Fixpoint read_floats_seq (ns : list Z) (sk : nat) : F (list (list flt)) :=
  match ns with
  | [] => sret []
  | n :: r => do a <- read_floats n sk; do b <- read_floats_seq r sk; sret (a :: b)
  end.

Lemma read_floats_seq_reading k ld parts : forall s more pad tail,
  reading k ld s (concat parts ++ more) pad tail ->
  exists s', read_floats_seq (map Zlen parts) (lead_n ld) s = Ok (parts, s') /\ reading k ld s' more pad tail.
Proof.
  induction parts as [|p parts IH]; intros s more pad tail H.
  - exists s. auto.
  - cbn [concat] in H. rewrite <- app_assoc in H.
    destruct (read_floats_reading _ _ _ _ _ _ _ H) as (s1 & E1 & H1).
    destruct (IH _ _ _ _ H1) as (s2 & E2 & H2).
    exists s2. cbn [map read_floats_seq]. unfold sbind. rewrite E1, E2. auto.
Qed.

Lemma read_floats_all k ld data bs tail fr :
  enc_data k ld data bs ->
  exists s', read_floats (Zlen data) (lead_n ld) (mkIn k (bs ++ tail) false fr) = Ok (data, s')
    /\ f_kind s' = k /\ f_rest s' = tail.
Proof.
  intro H. destruct (reading_start _ _ _ _ tail fr H) as (pad & Hr).
  rewrite <- (app_nil_r data) in Hr.
  destruct (read_floats_reading _ _ _ _ _ _ _ Hr) as (s' & E & Hr').
  exists s'. apply reading_done in Hr'. tauto.
Qed.

(** ** Skipping *)

(** What a string record read next looks like when a header (or the end)
    follows. *)
Lemma read_stringrec_next k n fs bs tail h fr :
  enc_next k n fs bs tail ->
  exists p, read_stringrec (mkIn k bs h fr) = Ok (p, mkIn k tail false fr) /\
    as_header k p = Ok (n, fs) /\ firstn 8 p <> blanks8 /\
    l2s (strip is_space_s (firstn 8 p)) = n /\ l2s (strip is_space_b (firstn 8 p)) = n.
Proof.
  destruct 1 as [n fs hb tail H | bs H].
  - destruct H as [n nb fs fb hb Hn Hf Hfr]. exists (nb ++ fb).
    rewrite (read_stringrec_frame _ _ _ _ _ _ Hfr).
    rewrite firstn_app_exact by now apply name8_length in Hn.
    destruct (name8_strip _ _ Hn) as [E1 E2]. rewrite E1, E2, l2s_s2l.
    repeat split; auto. { now apply as_header_enc. } now apply name8_notblank in Hn.
  - exists []. destruct H as [|b].
    + repeat split; cbn; congruence.
    + unfold read_stringrec. cbn [f_kind f_rest f_floatrest]. cbv zeta.
      rewrite firstn_nil, !skipn_nil. repeat split; cbn; congruence.
Qed.

Lemma skip_contrecs_frames k ps : forall bs fuel p h fr n fs rest tail,
  frames k ps bs -> (forall q, In q (p :: ps) -> exists r, q = blanks8 ++ r) ->
  enc_next k n fs rest tail -> (length ps < fuel)%nat ->
  skip_contrecs fuel p (mkIn k (bs ++ rest) h fr) = Ok ((n, fs), mkIn k tail false fr).
Proof.
  induction ps as [|q ps IH]; intros bs fuel p h fr n fs rest tail Hfr Hall Hn Hf.
  - destruct fuel as [|fuel]; [lia|]. inversion Hfr; subst. cbn [app skip_contrecs].
    destruct (Hall p (or_introl eq_refl)) as [r ->].
    change (firstn 8 (blanks8 ++ r)) with blanks8.
    replace (lascii_eqb blanks8 blanks8) with true by reflexivity.
    unfold sbind. destruct (read_stringrec_next _ _ _ _ _ h fr Hn) as (p & E & Ha & Hb & _).
    rewrite E.
    assert (Hb' : lascii_eqb (firstn 8 p) blanks8 = false).
    { now apply lascii_eqb_neq. }
    destruct fuel as [|fuel]; cbn [skip_contrecs]; rewrite Hb'; cbn [f_kind]; rewrite Ha; reflexivity.
  - destruct fuel as [|fuel]; [lia|]. inversion Hfr as [|? ? b bs' Hq Hps]; subst.
    cbn [skip_contrecs].
    destruct (Hall p (or_introl eq_refl)) as [r ->].
    change (firstn 8 (blanks8 ++ r)) with blanks8.
    replace (lascii_eqb blanks8 blanks8) with true by reflexivity.
    unfold sbind. rewrite <- app_assoc, (read_stringrec_frame _ _ _ _ _ _ Hq).
    apply IH; auto.
    + intros x Hx. apply Hall. now right.
    + cbn in Hf. lia.
Qed.

Lemma frames_len k ps bs : frames k ps bs -> (length ps <= length bs)%nat.
Proof.
  induction 1 as [|p ps b bs Hp _ IH]; [cbn; lia|].
  apply frame_nonempty in Hp. rewrite app_length. cbn. lia.
Qed.

Lemma frames_app_inv k ps qs bs : frames k (ps ++ qs) bs ->
  exists b1 b2, bs = b1 ++ b2 /\ frames k ps b1 /\ frames k qs b2.
Proof.
  revert bs. induction ps as [|p ps IH]; intros bs H.
  - exists [], bs. repeat split; auto. constructor.
  - cbn in H. inversion H as [|? ? b bs' Hp Hps]; subst.
    destruct (IH _ Hps) as (b1 & b2 & -> & H1 & H2).
    exists (b ++ b1), b2. rewrite app_assoc. repeat split; auto. now constructor.
Qed.

Lemma read_stringrecs_n k ps bs n h fr tail :
  frames k ps bs -> length ps = n ->
  exists h', read_stringrecs n (mkIn k (bs ++ tail) h fr) = Ok (ps, mkIn k tail h' fr).
Proof. intros H <-. destruct (read_stringrecs_frames _ _ _ h fr tail H) as (h' & E & _). eauto. Qed.

Lemma prefix_TD n : prefix "TD" n = true <-> String.eqb (substring 0 2 n) "TD" = true.
Proof.
  destruct n as [|a [|b n]].
  - cbn. split; discriminate.
  - change (substring 0 2 (String a "")) with (String a "").
    split.
    + cbn [prefix]. destruct (ascii_dec "T" a); discriminate.
    + intro H. apply String.eqb_eq in H. discriminate.
  - assert (E : substring 0 2 (String a (String b n)) = String a (String b "")).
    { cbn. now destruct n. }
    rewrite E, String.eqb_eq. split.
    + cbn [prefix]. destruct (ascii_dec "T" a) as [<-|]; [|discriminate].
      destruct (ascii_dec "D" b) as [<-|]; [|discriminate]. reflexivity.
    + intro H. injection H as -> ->. cbn. now destruct n.
Qed.

Lemma name_allowed_next k n p :
  l2s (strip is_space_s (firstn 8 p)) = n -> l2s (strip is_space_b (firstn 8 p)) = n ->
  name_allowed k p = str_in n (allowed k).
Proof. intros H1 H2. unfold name_allowed. destruct k; congruence. Qed.

(** The three branches of skip_restofrecord, as equations. *)
Definition skip_tail (r0 : flt) : F (string * list flt) := fun s =>
  (do l <- read_stringrec;
   if lascii_eqb (firstn 8 l) blanks8 then
     skip_contrecs (S (length (f_rest s))) l
   else if name_allowed (f_kind s) l then
     slift (as_header (f_kind s) l)
   else
     do n0 <- slift (int_of r0);
     dos (fun s' => Ok (tt, mkIn (f_kind s') (f_rest s) (f_hasrest s') (f_floatrest s')));
     dos read_floats (n0 - 4) 0;
     read_headerrec) s.

Lemma skip_tail_eq n f fs : flt_lt f f0 = false -> prefix "TD" n = false ->
  skip_restofrecord n (f :: fs) = skip_tail f.
Proof.
  intros Hpos Htd. unfold skip_restofrecord. cbn [pyget nth_error]. unfold sbind at 1, slift at 1.
  rewrite Hpos. replace (String.eqb (substring 0 2 n) "TD") with false.
  2:{ symmetry. apply not_true_is_false. intro X. apply prefix_TD in X. congruence. }
  reflexivity.
Qed.

Lemma skip_plain k next nfs rest tail h fr f :
  In next (allowed k) -> enc_next k next nfs rest tail ->
  skip_tail f (mkIn k rest h fr) = Ok ((next, nfs), mkIn k tail false fr).
Proof.
  intros Hall Hn.
  destruct (read_stringrec_next _ _ _ _ _ h fr Hn) as (p & Ep & Ha & Hb & Hs1 & Hs2).
  unfold skip_tail, sbind at 1. rewrite Ep. rewrite lascii_eqb_neq by exact Hb.
  cbn [f_kind]. rewrite (name_allowed_next k next p Hs1 Hs2).
  apply str_in_spec in Hall. rewrite Hall.
  unfold slift. rewrite Ha. reflexivity.
Qed.

Lemma skip_small k next nfs rest tail h fr f z :
  int_of f = Ok z -> z <= 4 -> enc_next k next nfs rest tail ->
  exists fr', skip_tail f (mkIn k rest h fr) = Ok ((next, nfs), mkIn k tail false fr').
Proof.
  intros Hz Hle Hn.
  destruct (read_stringrec_next _ _ _ _ _ h fr Hn) as (p & Ep & Ha & Hb & Hs1 & Hs2).
  unfold skip_tail, sbind at 1. rewrite Ep. rewrite lascii_eqb_neq by exact Hb.
  cbn [f_kind]. destruct (name_allowed k p).
  - unfold slift. rewrite Ha. eauto.
  - unfold sbind, slift. rewrite Hz. cbn [f_kind f_rest f_hasrest f_floatrest].
    unfold read_floats. cbn [f_kind f_rest f_hasrest f_floatrest]. cbv zeta.
    destruct (z - 4 =? 0) eqn:E4.
    + rewrite (read_headerrec_next _ _ _ _ _ _ _ Hn). eauto.
    + replace (0 <? z - 4 - Zlen (@nil flt)) with false by (unfold Zlen; cbn [length]; lia).
      unfold slice_from. rewrite skipn_nil.
      cbn [f_kind f_rest f_hasrest f_floatrest].
      rewrite (read_headerrec_next _ _ _ _ _ _ _ Hn). eauto.
Qed.

Lemma skip_blank k next nfs rest tail h fr f q qs bs :
  (forall p, In p (q :: qs) -> exists r, p = blanks8 ++ r) -> frames k (q :: qs) bs ->
  enc_next k next nfs rest tail ->
  skip_tail f (mkIn k (bs ++ rest) h fr) = Ok ((next, nfs), mkIn k tail false fr).
Proof.
  intros Hqs Hfr Hn. inversion Hfr as [|? ? b bs' Hq Hps]; subst.
  unfold skip_tail, sbind at 1. rewrite <- app_assoc, (read_stringrec_frame _ _ _ _ _ _ Hq).
  assert (Hq8 : lascii_eqb (firstn 8 q) blanks8 = true).
  { destruct (Hqs q (or_introl eq_refl)) as [r ->]. apply lascii_eqb_spec. reflexivity. }
  rewrite Hq8. apply (skip_contrecs_frames k qs); auto.
  apply frames_len in Hps. cbn [f_rest]. rewrite !app_length. lia.
Qed.

Lemma allowed_sub k n : In n (allowed k) -> In n allowed_record_names_str.
Proof.
  destruct k; cbn [allowed]; [|intro H; exact H].
  unfold allowed_record_names_b. generalize allowed_record_names_str. intros l H.
  apply filter_In in H as [H _]. exact H.
Qed.

Lemma name_allowed_unf q :
  name_allowed Unf q = str_in (l2s (strip is_space_b (firstn 8 q))) (allowed Unf).
Proof. reflexivity. Qed.

Lemma skip_nfield next nfs rest tail h fr f data bs q b bs' :
  int_of f = Ok (4 + Z.of_nat (length data)) -> enc_data Unf Lead0 data bs ->
  bs = b ++ bs' -> frame Unf q b -> firstn 8 q <> blanks8 ->
  ~ In (l2s (strip is_space_b (firstn 8 q))) allowed_record_names_str ->
  enc_next Unf next nfs rest tail ->
  exists fr', skip_tail f (mkIn Unf (bs ++ rest) h fr) = Ok ((next, nfs), mkIn Unf tail false fr').
Proof.
  intros Hz Hd Hbs Hq Hq8 Hqn Hn.
  assert (Ers : read_stringrec (mkIn Unf (bs ++ rest) h fr) = Ok (q, mkIn Unf (bs' ++ rest) false fr)).
  { rewrite Hbs, <- app_assoc. now apply read_stringrec_frame. }
  unfold skip_tail, sbind at 1. rewrite Ers. rewrite lascii_eqb_neq by exact Hq8.
  cbn [f_kind].
  assert (Hna : name_allowed Unf q = false).
  { rewrite name_allowed_unf. apply not_true_is_false. intro X.
    apply str_in_spec, allowed_sub in X. exact (Hqn X). }
  rewrite Hna. unfold sbind, slift. rewrite Hz. cbn [f_kind f_rest f_hasrest f_floatrest].
  destruct (read_floats_all Unf Lead0 data bs rest fr Hd) as (s' & E & Hk & Hrs).
  replace (4 + Z.of_nat (length data) - 4) with (Zlen data) by (unfold Zlen; lia).
  cbn [lead_n] in E. rewrite E.
  destruct s' as [k' r' h' fr']. cbn in Hk, Hrs. subst k' r'.
  rewrite (read_headerrec_next _ _ _ _ _ _ _ Hn). eauto.
Qed.

Lemma skip_td k next nfs rest tail h fr n f g a b fs ma mb ps bs :
  flt_lt f f0 = false -> prefix "TD" n = true ->
  int_of a = Ok ma -> int_of b = Ok mb ->
  length ps = (Z.to_nat (ma / 100) + Z.to_nat (mb / 100))%nat ->
  frames k ps bs -> enc_next k next nfs rest tail ->
  skip_restofrecord n (f :: g :: a :: b :: fs) (mkIn k (bs ++ rest) h fr)
    = Ok ((next, nfs), mkIn k tail false fr).
Proof.
  intros Hpos Htd Hma Hmb Hlen Hfr Hn.
  unfold skip_restofrecord. cbn [pyget nth_error]. unfold sbind at 1, slift at 1.
  rewrite Hpos. apply prefix_TD in Htd. rewrite Htd.
  unfold sbind, slift. rewrite Hma.
  rewrite <- (firstn_skipn (Z.to_nat (ma / 100)) ps) in Hfr.
  apply frames_app_inv in Hfr as (b1 & b2 & -> & H1 & H2).
  rewrite <- app_assoc.
  destruct (read_stringrecs_n k _ b1 (Z.to_nat (ma / 100)) h fr (b2 ++ rest) H1) as (h1 & E1).
  { rewrite firstn_length. lia. }
  rewrite E1. rewrite Hmb.
  destruct (read_stringrecs_n k _ b2 (Z.to_nat (mb / 100)) h1 fr rest H2) as (h2 & E2).
  { rewrite skipn_length. lia. }
  rewrite E2. now apply read_headerrec_next.
Qed.

Lemma skip_neg k next nfs rest tail h fr n f fs :
  flt_lt f f0 = true -> flt_eq f fm5 = false -> enc_next k next nfs rest tail ->
  skip_restofrecord n (f :: fs) (mkIn k rest h fr) = Ok ((next, nfs), mkIn k tail false fr).
Proof.
  intros Hneg H5 Hn.
  unfold skip_restofrecord. cbn [pyget nth_error]. unfold sbind at 1, slift at 1.
  rewrite Hneg, H5. now apply read_headerrec_next.
Qed.

Lemma skip_neg5 k next nfs rest tail h fr n f fs c bs :
  flt_lt f f0 = true -> flt_eq f fm5 = true -> enc_cont k Lead0 c bs -> enc_next k next nfs rest tail ->
  skip_restofrecord n (f :: fs) (mkIn k (bs ++ rest) h fr) = Ok ((next, nfs), mkIn k tail false fr).
Proof.
  intros Hneg H5 Hc Hn.
  unfold skip_restofrecord. cbn [pyget nth_error]. unfold sbind at 1, slift at 1.
  rewrite Hneg, H5. unfold sbind.
  pose proof (read_floatrec_enc k Lead0 c bs rest h fr Hc) as E. cbn [lead_n] in E. rewrite E.
  now apply read_headerrec_next.
Qed.

Theorem skip_restofrecord_spec k n fs next nfs rb rest tail h fr :
  rest_of_record k n fs next rb -> enc_next k next nfs rest tail ->
  exists fr', skip_restofrecord n fs (mkIn k (rb ++ rest) h fr) = Ok ((next, nfs), mkIn k tail false fr').
Proof.
  intros Hr Hn.
  destruct Hr as
    [ n f fs next Hpos Htd Hall
    | n f fs next z Hpos Htd Hz Hle
    | n f fs next q qs bs Hpos Htd Hqs Hfr
    | n f fs next data bs q b bs' Hpos Htd -> Hz Hne Hd Hbs Hq Hq8 Hqn
    | n f g a b fs next ma mb ps bs Hpos Htd Hma Hmb Hlen Hfr
    | n f fs next Hneg H5
    | n f fs next c bs Hneg H5 Hc ].
  - rewrite skip_tail_eq by assumption. cbn [app]. exists fr. now apply skip_plain.
  - rewrite skip_tail_eq by assumption. cbn [app]. eapply skip_small; eauto.
  - rewrite skip_tail_eq by assumption. exists fr. eapply skip_blank; eauto.
  - rewrite skip_tail_eq by assumption. eapply skip_nfield; eauto.
  - exists fr. eapply skip_td; eauto.
  - cbn [app]. exists fr. now apply skip_neg.
  - exists fr. eapply skip_neg5; eauto.
Qed.

(** ** Counting *)

Lemma enc_records_next k rs bs : enc_records k rs bs ->
  (rs = [] /\ enc_next k "" [] bs []) \/
  (exists n fs rs' rb tail, rs = (n, fs) :: rs' /\ enc_next k n fs bs (rb ++ tail)
     /\ rest_of_record k n fs (next_name rs') rb /\ enc_records k rs' tail
     /\ (length (rb ++ tail) < length bs)%nat).
Proof.
  destruct 1 as [bs H|n fs rs hb rb tail Hh Hr Hrs].
  - left. split; auto. now constructor.
  - right. exists n, fs, rs, rb, tail. repeat split; auto.
    + now constructor.
    + destruct Hh as [n nb fs fb hb _ _ Hfr]. apply frame_nonempty in Hfr.
      rewrite (app_length hb). lia.
Qed.

Lemma header_name_ne k n fs hb : enc_header k n fs hb -> n <> "".
Proof. destruct 1 as [n nb fs fb hb Hn _ _]. now destruct Hn. Qed.

Lemma enc_records_len k rs bs : enc_records k rs bs -> (length rs <= length bs)%nat.
Proof.
  induction 1 as [|n fs rs hb rb tail Hh _ _ IH]; [cbn; lia|].
  destruct Hh as [n nb fs fb hb _ _ Hfr]. apply frame_nonempty in Hfr.
  rewrite !app_length. cbn. lia.
Qed.

Lemma enc_records_names k rs bs : enc_records k rs bs -> Forall (fun r => fst r <> "") rs.
Proof. induction 1; constructor; auto. cbn. eapply header_name_ne; eauto. Qed.

(** The state after a header whose record has [rb] left and [rs] follow. *)
Lemma count_loop_spec k : forall rs n fs rb tail fuel d h fr,
  n <> "" ->
  rest_of_record k n fs (next_name rs) rb -> enc_records k rs tail ->
  (length rs + 1 < fuel)%nat ->
  exists s', count_loop fuel n fs d (mkIn k (rb ++ tail) h fr)
    = Ok (fold_left (fun d nm => count_add nm d) (map fst rs ++ [""]) d, s').
Proof.
  induction rs as [|[n' fs'] rs IH]; intros n fs rb tail fuel d h fr Hne Hr Hrs Hf.
  - apply enc_records_next in Hrs as [[_ Hn]|(? & ? & ? & ? & ? & ? & _)]; [|discriminate].
    destruct (skip_restofrecord_spec _ _ _ _ _ _ _ _ h fr Hr Hn) as (fr' & E).
    destruct fuel as [|[|fuel]]; [cbn in Hf; lia|cbn in Hf; lia|].
    cbn [count_loop]. apply String.eqb_neq in Hne. rewrite Hne. unfold sbind. rewrite E.
    cbn [next_name]. rewrite String.eqb_refl. eexists. reflexivity.
  - pose proof (enc_records_names _ _ _ Hrs) as Hnames.
    apply enc_records_next in Hrs as [[? _]|(n1 & fs1 & rs1 & rb1 & tail1 & E1 & Hn & Hr1 & Hrs1 & Hlen)];
      [discriminate|].
    injection E1 as <- <- <-. cbn [next_name] in Hr.
    destruct (skip_restofrecord_spec _ _ _ _ _ _ _ _ h fr Hr Hn) as (fr' & E).
    destruct fuel as [|fuel]; [cbn in Hf; lia|].
    cbn [count_loop]. apply String.eqb_neq in Hne. rewrite Hne. unfold sbind. rewrite E.
    inversion Hnames; subst. cbn in Hf.
    destruct (IH n' fs' rb1 tail1 fuel (count_add n' d) false fr') as (s' & E'); auto; try lia.
    exists s'. rewrite E'. reflexivity.
Qed.

Definition lookup_count (n : string) (d : list (string * Z)) : Z :=
  match dget String.eqb n d with Some c => c | None => 0 end.

Lemma count_add_lookup n m d :
  lookup_count n (count_add m d) = lookup_count n d + (if String.eqb n m then 1 else 0).
Proof.
  unfold lookup_count. induction d as [|[x c] d IH]; cbn [count_add dget].
  - destruct (String.eqb n m); reflexivity.
  - destruct (String.eqb m x) eqn:E.
    + apply String.eqb_eq in E as <-. cbn [dget]. destruct (String.eqb n m); lia.
    + cbn [dget]. destruct (String.eqb n x) eqn:E2; [|exact IH].
      apply String.eqb_eq in E2 as <-.
      replace (String.eqb n m) with false by (rewrite String.eqb_sym; congruence). lia.
Qed.

Lemma fold_count_lookup n l : forall d,
  lookup_count n (fold_left (fun d nm => count_add nm d) l d)
  = lookup_count n d + Z.of_nat (count_occ string_dec l n).
Proof.
  induction l as [|m l IH]; intro d; cbn [fold_left count_occ].
  - lia.
  - rewrite IH, count_add_lookup.
    destruct (string_dec m n) as [->|Hne].
    + rewrite String.eqb_refl. lia.
    + replace (String.eqb n m) with false.
      2:{ symmetry. apply String.eqb_neq. congruence. }
      lia.
Qed.

Theorem get_recordcount_spec k rs bs h fr :
  rs <> [] -> enc_records k rs bs ->
  exists d s', get_recordcount (mkIn k bs h fr) = Ok (d, s') /\
    forall n, n <> "" -> lookup_count n d = Z.of_nat (count_occ string_dec (map fst rs) n).
Proof.
  intros Hne Hrs. pose proof (enc_records_names _ _ _ Hrs) as Hnames.
  pose proof (enc_records_len _ _ _ Hrs) as Hlen.
  unfold get_recordcount. cbn [f_rest].
  apply enc_records_next in Hrs as [[-> _]|(n & fs & rs' & rb & tail & -> & Hn & Hr & Hrs' & Hl)];
    [congruence|].
  inversion Hnames as [|? ? Hn0 _]; subst. cbn in Hn0.
  unfold sbind. rewrite (read_headerrec_next _ _ _ _ _ _ _ Hn).
  destruct (count_loop_spec k rs' n fs rb tail (S (length bs)) [(n, 1)] false fr) as (s' & E); auto.
  { cbn in Hlen. lia. }
  rewrite E. eexists. eexists. split; [reflexivity|].
  intros m Hm. rewrite fold_count_lookup, count_occ_app. cbn [map fst count_occ].
  destruct (string_dec "" m); [congruence|]. unfold lookup_count. cbn [dget].
  destruct (string_dec n m) as [->|Hnm].
  - rewrite String.eqb_refl. lia.
  - replace (String.eqb m n) with false by (symmetry; apply String.eqb_neq; congruence). lia.
Qed.
