(** * NumProofs: printed integers and encoded singles exist and read back. *)
From Verif Require Import Base Flt FltProofs RoundSpec RoundProofs SeqFile SeqSpec ListFacts SeqProofs.
From Coq Require Import ZifyBool ZifyNat.
Open Scope string_scope.
Open Scope Z_scope.
Open Scope list_scope.

Lemma decimal_length k n : length (decimal k n) = k.
Proof. revert n. induction k; intro n; cbn [decimal]; [reflexivity|]. rewrite app_length, IHk. cbn. lia. Qed.

Lemma decimal_digits k : forall n, 0 <= n < 10 ^ Z.of_nat k -> digits (decimal k n) n.
Proof.
  induction k; intros n H; cbn [decimal].
  - change (10 ^ Z.of_nat 0) with 1 in H. replace n with 0 by lia. constructor.
  - rewrite Nat2Z.inj_succ, Z.pow_succ_r in H by lia.
    replace n with (10 * (n / 10) + n mod 10) at 3 by (symmetry; apply Z.div_mod; lia).
    apply digits_snoc.
    + apply IHk. split; [apply Z.div_pos; lia|apply Z.div_lt_upper_bound; lia].
    + pose proof (Z.mod_pos_bound n 10). lia.
Qed.

Lemma decimal_snoc_head k n : exists c, firstn 1 (decimal (S k) n) = [c].
Proof.
  pose proof (decimal_length (S k) n). destruct (decimal (S k) n) as [|c l]; [discriminate|].
  exists c. reflexivity.
Qed.

Lemma digits_one d : 0 <= d <= 9 -> digits [chr (48 + d)] d.
Proof.
  intro H. replace d with (10 * 0 + d) at 2 by lia. apply (digits_snoc [] 0 d); [constructor|exact H].
Qed.

Lemma e16_field n l : e16 n l ->
  length l = 16%nat /\ exists x, efield l (n <? 0) (Z.abs n * 10 ^ (8 + - (x + 8))) x
     /\ -8 <= x <= 0 /\ dec_is (Z.abs n * 10 ^ (8 + - (x + 8))) x (Z.abs n).
Proof.
  destruct 1 as [n e He Hn].
  assert (Hp : 0 < 10 ^ (8 - e)) by (apply Z.pow_pos_nonneg; lia).
  assert (Hm : 0 <= Z.abs n * 10 ^ (8 - e) < 10 ^ Z.of_nat 9).
  { destruct Hn as [Hn|[-> ->]]; [|cbn; lia]. split; [nia|].
    change (Z.of_nat 9) with 9. replace 9 with ((e + 1) + (8 - e)) at 1 by lia.
    rewrite Z.pow_add_r by lia. nia. }
  set (m := Z.abs n * 10 ^ (8 - e)) in *.
  pose proof (decimal_digits 9 m Hm) as Hd. pose proof (decimal_length 9 m) as Hlen.
  split.
  { rewrite !app_length. rewrite firstn_length, skipn_length, Hlen. reflexivity. }
  exists (e - 8). replace (8 + - (e - 8 + 8)) with (8 - e) by lia. fold m.
  destruct (decimal 9 m) as [|c ds] eqn:Eds; [discriminate|].
  cbn [firstn skipn]. cbn [length] in Hlen.
  split; [|split; [lia|]].
  - assert (Hip : exists a, digits [c] a) by (apply (digits_prefix [c] ds m); exact Hd).
    destruct Hip as [a Ha].
    assert (E8 : e - 8 = e - Z.of_nat (length ds)) by lia. rewrite E8. clear E8.
    destruct (n <? 0) eqn:Esg.
    + apply (efield_intro 1 ["-"%char] true [c] a ds m "E"%char ["+"%char] false
               (s2l "0" ++ [chr (48 + e)]) e 0%nat); auto; try discriminate; try constructor.
      replace e with (10 * 0 + e) at 2 by lia. constructor; [|lia]. apply (digits_one 0). lia.
    + apply (efield_intro 2 [] false [c] a ds m "E"%char ["+"%char] false
               (s2l "0" ++ [chr (48 + e)]) e 0%nat); auto; try discriminate; try constructor.
      replace e with (10 * 0 + e) at 2 by lia. constructor; [|lia]. apply (digits_one 0). lia.
  - unfold dec_is. destruct (0 <=? e - 8) eqn:E.
    + assert (E8 : e = 8) by lia. subst m e. change (8 - 8) with 0. rewrite Z.pow_0_r. lia.
    + subst m. f_equal. f_equal. lia.
Qed.

Lemma e16_enc n l : Z.abs n < 10 ^ 9 -> e16 n l -> enc_num Fmt l (f_of_Z n).
Proof.
  intros Hn H. apply e16_field in H as (Hl & x & He & Hx & Hd).
  constructor; [exact Hl|]. eexists _, _, _. split; [exact He|].
  replace (f_of_Z n) with (dec_to_flt (n <? 0) (Z.abs n * 10 ^ (8 + - (x + 8))) x).
  { apply dec_to_flt_rounded. apply Z.mul_nonneg_nonneg; [lia|apply Z.pow_nonneg; lia]. }
  rewrite (dec_to_flt_int _ _ _ (Z.abs n)); [|nia| |].
  - destruct n as [|p|p]; reflexivity.
  - exact Hd.
  - split; [lia|]. change (10 ^ 9) with 1000000000 in Hn. change (2 ^ 53) with 9007199254740992. lia.
Qed.

Lemma e16_exists n : Z.abs n < 10 ^ 9 -> exists l, e16 n l.
Proof.
  intro H. destruct (Z.eq_dec n 0) as [->|Hne].
  - eexists. apply (e16_intro 0 0); [lia|now right].
  - assert (G : forall k : nat, Z.abs n < 10 ^ Z.of_nat k -> exists e, 0 <= e < Z.of_nat k /\ 10 ^ e <= Z.abs n < 10 ^ (e + 1)).
    { induction k; intro Hk.
      - change (10 ^ Z.of_nat 0) with 1 in Hk. lia.
      - destruct (Z_lt_le_dec (Z.abs n) (10 ^ Z.of_nat k)) as [L|L].
        + destruct (IHk L) as (e & He & B). exists e. split; [lia|exact B].
        + exists (Z.of_nat k). split; [lia|]. split; [exact L|].
          now replace (Z.of_nat k + 1) with (Z.of_nat (S k)) by lia. }
    destruct (G 9%nat H) as (e & He & B).
    eexists. apply (e16_intro n e); [lia|now left].
Qed.

(** ** Singles *)

Lemma single_word_bytes s ex fr v :
  0 <= ex < 256 -> 0 <= fr < 8388608 -> single s ex fr v -> exists bs, single_bytes bs v.
Proof.
  intros Hex Hfr Hv.
  set (w := (if s : bool then 2147483648 else 0) + ex * 8388608 + fr).
  assert (Hw : 0 <= w < 4294967296) by (unfold w; destruct s; lia).
  exists [chr (w mod 256); chr (w / 256 mod 256); chr (w / 65536 mod 256); chr (w / 16777216)].
  exists (chr (w mod 256)), (chr (w / 256 mod 256)), (chr (w / 65536 mod 256)), (chr (w / 16777216)), s, ex, fr.
  repeat split; auto; try lia. fold w.
  assert (A : 0 <= w mod 256 < 256) by (apply Z.mod_pos_bound; lia).
  assert (B : 0 <= w / 256 mod 256 < 256) by (apply Z.mod_pos_bound; lia).
  assert (C : 0 <= w / 65536 mod 256 < 256) by (apply Z.mod_pos_bound; lia).
  assert (D : 0 <= w / 16777216 < 256).
  { split; [apply Z.div_pos; lia|apply Z.div_lt_upper_bound; lia]. }
  rewrite !code_chr by lia.
  pose proof (Z.div_mod w 256 ltac:(lia)).
  pose proof (Z.div_mod (w / 256) 256 ltac:(lia)).
  pose proof (Z.div_mod (w / 65536) 256 ltac:(lia)).
  rewrite Z.div_div in * by lia. change (256 * 256) with 65536 in *.
  change (65536 * 256) with 16777216 in *. lia.
Qed.

Lemma is_single_bytes v : is_single v -> exists bs, single_bytes bs v.
Proof.
  destruct v as [|s|s|s m e]; cbn [is_single].
  - tauto.
  - intros _. apply (single_word_bytes s 255 0); try lia. constructor.
  - intros _. apply (single_word_bytes s 0 0); try lia. constructor.
  - intros (Ho & Hm & He & H3).
    pose proof (nbits_bound m) as Hb. pose proof (nbits_pos m) as Hnp.
    pose proof (nbits_le m 24 Hm) as Hn.
    assert (Hsplit : Zpos m * 2 ^ (24 - nbits m) < 16777216 /\ 8388608 <= Zpos m * 2 ^ (24 - nbits m)).
    { assert (0 < 2 ^ (24 - nbits m)) by (apply Z.pow_pos_nonneg; lia).
      split.
      - change 16777216 with (2 ^ 24). replace 24 with (nbits m + (24 - nbits m)) at 2 by lia.
        rewrite Z.pow_add_r by lia. nia.
      - change 8388608 with (2 ^ 23). replace 23 with ((nbits m - 1) + (24 - nbits m)) by lia.
        rewrite Z.pow_add_r by lia. nia. }
    destruct (Z_lt_le_dec (nbits m + e) (-125)) as [L|L].
    + (* subnormal *)
      assert (P : 0 < 2 ^ (e + 149)) by (apply Z.pow_pos_nonneg; lia).
      apply (single_word_bytes s 0 (Zpos m * 2 ^ (e + 149))); try lia.
      * split; [nia|]. change 8388608 with (2 ^ 23).
        apply Z.lt_le_trans with (2 ^ nbits m * 2 ^ (e + 149)); [nia|].
        rewrite <- Z.pow_add_r by lia. apply Z.pow_le_mono_r; lia.
      * apply single_sub; auto. nia.
    + assert (Hex : nbits m + e <= 128).
      { destruct (Z_lt_le_dec e 0); [lia|]. specialize (H3 l).
        destruct (Z_lt_le_dec 128 (nbits m + e)) as [X|]; [|assumption]. exfalso.
        assert (2 ^ 128 <= 2 ^ (nbits m - 1 + e)) by (apply Z.pow_le_mono_r; lia).
        rewrite Z.pow_add_r in H by lia.
        assert (0 < 2 ^ e) by (apply Z.pow_pos_nonneg; lia). nia. }
      apply (single_word_bytes s (nbits m + e + 126) (Zpos m * 2 ^ (24 - nbits m) - 8388608)); try lia.
      apply single_norm; auto; try lia.
      replace (e - (nbits m + e + 126 - 150)) with (24 - nbits m) by lia. lia.
Qed.

(** ** Lines *)
Lemma universal_newlines_lines ps bs : text_lines ps bs -> frames Fmt ps (universal_newlines bs).
Proof.
  assert (P : forall p r, ~ In "013"%char p -> universal_newlines (p ++ r) = p ++ universal_newlines r).
  { induction p as [|c p IH]; intros r H; cbn [app universal_newlines]; [reflexivity|].
    replace (Ascii.eqb c "013") with false.
    2:{ symmetry. apply Ascii.eqb_neq. intros ->. apply H. now left. }
    rewrite IH; [reflexivity|]. intro X. apply H. now right. }
  induction 1 as [|p ps bs H1 H2 _ IH|p ps bs H1 H2 _ IH].
  - constructor.
  - rewrite P by exact H2. change (universal_newlines ([nl] ++ bs)) with ([nl] ++ universal_newlines bs).
    rewrite app_assoc. constructor; [now constructor|exact IH].
  - rewrite P by exact H2. change (universal_newlines (["013"%char; nl] ++ bs)) with ([nl] ++ universal_newlines bs).
    rewrite app_assoc. constructor; [now constructor|exact IH].
Qed.

(** ** Encodings exist (used to show that hypotheses can be met) *)

Definition writable (k : kind) (v : flt) : Prop :=
  match k with
  | Unf => is_single v
  | Fmt => exists n, Z.abs n < 10 ^ 9 /\ v = f_of_Z n
  end.

Lemma enc_num_exists k v : writable k v -> exists b, enc_num k b v.
Proof.
  destruct k; cbn.
  - intro H. apply is_single_bytes in H as [b H]. exists b. now constructor.
  - intros (n & Hn & ->). destruct (e16_exists n Hn) as [l Hl]. exists l. now apply e16_enc.
Qed.

Lemma efield_graph l s m x : efield l s m x -> Forall (fun c => graphic c \/ c = blank) l.
Proof.
  assert (R : forall i, Forall (fun c => graphic c \/ c = blank) (repeat blank i)).
  { intro i. apply Forall_repeat. now right. }
  assert (D : forall l n, digits l n -> Forall (fun c => graphic c \/ c = blank) l).
  { intros l' n H. apply digits_chars in H. eapply Forall_impl; [|exact H]. cbn. unfold graphic. intros; left; lia. }
  destruct 1 as [i sg s ip n fp m e es exs ed ex j Hsg Hip Hne Hm He Hes Hed Hedne|i sg s ip n fp m j Hsg Hip Hne Hm];
  rewrite !Forall_app; repeat match goal with |- _ /\ _ => split end; auto.
  - destruct Hsg; repeat constructor; vm_compute; intuition discriminate.
  - eauto.
  - repeat constructor; vm_compute; intuition discriminate.
  - apply D in Hm. now apply Forall_app in Hm.
  - destruct He as [-> | ->]; repeat constructor; vm_compute; intuition discriminate.
  - destruct Hes; repeat constructor; vm_compute; intuition discriminate.
  - eauto.
  - destruct Hsg; repeat constructor; vm_compute; intuition discriminate.
  - eauto.
  - repeat constructor; vm_compute; intuition discriminate.
  - apply D in Hm. now apply Forall_app in Hm.
Qed.

Lemma enc_nums_nonl fs b : enc_nums Fmt fs b -> Forall (fun c => graphic c \/ c = blank) b.
Proof.
  induction 1 as [|v vs b bs Hv _ IH]; [constructor|]. apply Forall_app. split; [|exact IH].
  inversion Hv as [|? ? ? (s & m & x & He & _)]; subst. eapply efield_graph; eauto.
Qed.

Lemma graph_nonl l : Forall (fun c => graphic c \/ c = blank) l -> ~ In nl l.
Proof.
  intros H Hin. rewrite Forall_forall in H. apply H in Hin as [Hin|Hin].
  - unfold graphic in Hin. vm_compute in Hin. destruct Hin; congruence.
  - discriminate.
Qed.

Lemma enc_nums_exists k vs : Forall (writable k) vs -> exists b, enc_nums k vs b.
Proof.
  induction 1 as [|v vs Hv _ [b IH]].
  - exists []. constructor.
  - destruct (enc_num_exists _ _ Hv) as [c Hc]. exists (c ++ b). now constructor.
Qed.

Lemma frame_exists_unf p : (length p <= 128)%nat -> exists b, frame Unf p b.
Proof.
  intro H. exists (chr (Z.of_nat (length p)) :: p ++ [chr 0]). constructor. left.
  rewrite code_chr by lia. lia.
Qed.

Lemma name8_graph n l : name8 n l -> Forall (fun c => graphic c \/ c = blank) l.
Proof.
  destruct 1 as [n i j _ Hg _]. rewrite !Forall_app. repeat split.
  - apply Forall_repeat. now right.
  - eapply Forall_impl; [|exact Hg]. cbn. auto.
  - apply Forall_repeat. now right.
Qed.

Lemma name8_exists n : n <> "" -> Forall graphic (s2l n) -> (length (s2l n) <= 8)%nat -> exists l, name8 n l.
Proof.
  intros H1 H2 H3. exists (repeat blank 0 ++ s2l n ++ repeat blank (8 - length (s2l n))).
  constructor; auto. lia.
Qed.

Lemma enc_header_exists k n vs :
  n <> "" -> Forall graphic (s2l n) -> (length (s2l n) <= 8)%nat ->
  Forall (writable k) vs -> (length vs <= 30)%nat -> exists b, enc_header k n vs b.
Proof.
  intros H1 H2 H3 Hv Hl. destruct (name8_exists n H1 H2 H3) as [nb Hn].
  destruct (enc_nums_exists _ _ Hv) as [fb Hf].
  assert (Hfr : exists b, frame k (nb ++ fb) b).
  { destruct k.
    - apply frame_exists_unf. rewrite app_length, (name8_length _ _ Hn), (enc_nums_length _ _ _ Hf). lia.
    - exists ((nb ++ fb) ++ [nl]). constructor. apply graph_nonl. apply Forall_app. split.
      + eapply name8_graph; eauto.
      + now apply enc_nums_nonl in Hf. }
  destruct Hfr as [b Hb]. exists b. econstructor; eauto.
Qed.

Lemma enc_cont_exists k ld vs :
  Forall (writable k) vs -> (length vs <= 30)%nat -> exists b, enc_cont k ld vs b.
Proof.
  intros Hv Hl. destruct (enc_nums_exists _ _ Hv) as [fb Hf].
  assert (Hld : (lead_of k ld <= 8)%nat) by (destruct k, ld; cbn; lia).
  assert (Hfr : exists b, frame k (repeat blank (lead_of k ld) ++ fb) b).
  { destruct k.
    - apply frame_exists_unf. rewrite app_length, repeat_length, (enc_nums_length _ _ _ Hf). lia.
    - eexists. constructor. apply graph_nonl. apply Forall_app. split.
      + apply Forall_repeat. now right.
      + now apply enc_nums_nonl in Hf. }
  destruct Hfr as [b Hb]. exists b. econstructor; eauto.
Qed.

Lemma enc_conts_exists k ld cs :
  Forall (fun c => Forall (writable k) c /\ (length c <= 30)%nat) cs -> exists b, enc_conts k ld cs b.
Proof.
  induction 1 as [|c cs [H1 H2] _ [b IH]].
  - exists []. constructor.
  - destruct (enc_cont_exists k ld c H1 H2) as [d Hd]. exists (d ++ b). now constructor.
Qed.

Lemma f_of_Z_writable k n : Z.abs n < 2 ^ 24 -> writable k (f_of_Z n).
Proof.
  intro H. assert (Hi : forall s p, Zpos p < 2 ^ 24 -> is_single (fmk s p 0)).
  { intros s p Hp. destruct (fmk_fin s p 0) as (m & e & -> & Ho & He & E).
    rewrite Z.sub_0_r in E. assert (0 < 2 ^ e) by (apply Z.pow_pos_nonneg; lia).
    cbn [is_single]. split; [exact Ho|]. split; [nia|]. split; [lia|].
    intros _. rewrite <- E. change (2 ^ 128) with (2 ^ 24 * 2 ^ 104).
    assert (0 < 2 ^ 104) by (apply Z.pow_pos_nonneg; lia). nia. }
  destruct k; cbn.
  - destruct n; cbn [f_of_Z]; [exact I|apply Hi; lia|apply Hi; lia].
  - exists n. split; [|reflexivity]. change (10 ^ 9) with 1000000000. change (2 ^ 24) with 16777216 in H. lia.
Qed.
