(** * DecFacts: decimal numerals (str of an int). *)
From Verif Require Import Base.
Open Scope Z_scope.
Open Scope list_scope.

Definition is_digit (c : ascii) : bool := (48 <=? code c) && (code c <=? 57).
Definition dec_value (l : list ascii) : Z := fold_left (fun a c => 10 * a + (code c - 48)) l 0.

Lemma code_chr z : 0 <= z < 256 -> code (chr z) = z.
Proof.
  intro H. unfold code, chr. rewrite nat_ascii_embedding; [|lia]. now rewrite Z2Nat.id by lia.
Qed.
Lemma chr_code c : chr (code c) = c.
Proof. unfold code, chr. rewrite Nat2Z.id. apply ascii_nat_embedding. Qed.
Lemma code_range c : 0 <= code c < 256.
Proof. unfold code. pose proof (nat_ascii_bounded c). lia. Qed.
Lemma code_inj c d : code c = code d -> c = d.
Proof. intro H. rewrite <- (chr_code c), <- (chr_code d). now rewrite H. Qed.
Lemma digit_code d : 0 <= d < 10 -> code (digit_char d) = 48 + d.
Proof. intro H. unfold digit_char. apply code_chr. lia. Qed.

Lemma digits_aux_facts fuel : forall n acc, 0 <= n < 10 ^ Z.of_nat fuel -> (0 < fuel)%nat ->
  exists ds, digits_aux fuel n acc = ds ++ acc /\ ds <> [] /\ forallb is_digit ds = true /\
    (forall a, fold_left (fun a c => 10 * a + (code c - 48)) ds a = a * 10 ^ Zlen ds + n) /\
    (0 < n -> exists c r, ds = c :: r /\ code c <> 48) /\ (n = 0 -> ds = [digit_char 0]).
Proof.
  induction fuel as [|k IH]; intros n acc Hn Hk; [lia|]. cbn [digits_aux].
  assert (HD : 0 <= n mod 10 < 10) by (apply Z.mod_pos_bound; lia). pose proof (digit_code _ HD) as HC.
  destruct (Z.ltb_spec n 10) as [Hs|Hs].
  - rewrite Z.mod_small in * by lia. exists [digit_char n]. split; [reflexivity|]. split; [discriminate|]. split; [|split; [|split]].
    + cbn [forallb]. unfold is_digit. rewrite HC. lia.
    + intro a. cbn [fold_left]. rewrite HC. unfold Zlen. cbn [length]. change (10 ^ Z.of_nat 1) with 10. lia.
    + intro Hp. exists (digit_char n), []. split; [reflexivity|]. rewrite HC. lia.
    + intros ->. reflexivity.
  - assert (Hk' : (0 < k)%nat) by (destruct k; [change (10 ^ Z.of_nat 1) with 10 in Hn; lia|lia]).
    destruct (IH (n / 10) (digit_char (n mod 10) :: acc)) as (ds & E & N & D & F & G & _); [|exact Hk'|].
    { split; [apply Z.div_pos; lia|]. apply Z.div_lt_upper_bound; [lia|]. rewrite Nat2Z.inj_succ, Z.pow_succ_r in Hn by lia. lia. }
    exists (ds ++ [digit_char (n mod 10)]). split; [now rewrite E, <- app_assoc|]. split; [destruct ds; discriminate|]. split; [|split; [|split]].
    + rewrite forallb_app, D. cbn [forallb]. unfold is_digit. rewrite HC. lia.
    + intro a. rewrite fold_left_app, F. cbn [fold_left]. rewrite HC. unfold Zlen. rewrite app_length. cbn [length]. rewrite Nat2Z.inj_add. change (Z.of_nat 1) with 1.
      rewrite Z.pow_add_r by lia. change (10 ^ 1) with 10. pose proof (Z.div_mod n 10 ltac:(lia)). nia.
    + intros _. destruct (G ltac:(pose proof (Z.div_mod n 10 ltac:(lia)); lia)) as (c & r & -> & Hc). exists c, (r ++ [digit_char (n mod 10)]). split; [reflexivity|exact Hc].
    + lia.
Qed.
Lemma str_of_Z_facts n : 0 <= n -> exists ds, s2l (str_of_Z n) = ds /\ ds <> [] /\ forallb is_digit ds = true /\ dec_value ds = n /\
  (0 < n -> exists c r, ds = c :: r /\ code c <> 48).
Proof.
  intro Hn. unfold str_of_Z. destruct (Z.ltb_spec n 0); [lia|]. unfold s2l, l2s. rewrite list_ascii_of_string_of_list_ascii.
  destruct (digits_aux_facts (S (Z.to_nat (Z.log2 n))) n []) as (ds & E & N & D & F & G & _); [|lia|].
  - split; [exact Hn|]. rewrite Nat2Z.inj_succ, Z2Nat.id by apply Z.log2_nonneg.
    destruct (Z.eq_dec n 0) as [->|Hz]; [reflexivity|].
    pose proof (Z.log2_spec n ltac:(lia)) as [_ H2]. eapply Z.lt_le_trans; [exact H2|]. apply Z.pow_le_mono_l. pose proof (Z.log2_nonneg n). lia.
  - rewrite app_nil_r in E. exists ds. split; [exact E|]. split; [exact N|]. split; [exact D|]. split; [|exact G].
    unfold dec_value. rewrite F. lia.
Qed.
Lemma str_of_Z_inj n m : 0 <= n -> 0 <= m -> str_of_Z n = str_of_Z m -> n = m.
Proof.
  intros Hn Hm E. destruct (str_of_Z_facts n Hn) as (a & A & _ & _ & VA & _). destruct (str_of_Z_facts m Hm) as (b & B & _ & _ & VB & _).
  rewrite E in A. rewrite A in B. subst b. now rewrite <- VA, <- VB.
Qed.
