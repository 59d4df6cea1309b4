(** * NumeralProofs: float() reads the numerals, each as the nearest double *)
From Verif Require Import Base Flt FltProofs RoundSpec RoundProofs SeqFile SeqSpec ListFacts SeqProofs NumeralSpec.
From Coq Require Import ZifyBool ZifyNat.
Open Scope string_scope.
Open Scope Z_scope.
Open Scope list_scope.

Lemma code_range c : 0 <= code c < 256.
Proof. unfold code. pose proof (nat_ascii_bounded c). lia. Qed.
Lemma code_inj a b : code a = code b -> a = b.
Proof. unfold code. intros H. apply Nat2Z.inj in H. rewrite <- (ascii_nat_embedding a), <- (ascii_nat_embedding b). now f_equal. Qed.
Lemma space_iff c : space c <-> is_space_s c = true.
Proof. unfold space, is_space_s. cbn [In]. lia. Qed.
Definition digit_char (c : ascii) : Prop := 48 <= code c <= 57.
Lemma digits_of l : Forall digit_char l -> exists v, digits l v.
Proof.
  induction l as [|c l IH] using rev_ind; intros H; [exists 0; constructor|]. apply Forall_app in H as (H & H1). destruct (IH H) as (v & Hv).
  inversion H1 as [|? ? Hc _]; subst. unfold digit_char in Hc. exists (10 * v + (code c - 48)).
  replace c with (chr (48 + (code c - 48))) at 1; [constructor; [exact Hv|lia]|]. apply code_inj. rewrite code_chr; lia.
Qed.
Lemma digits_app a x b y : digits a x -> digits b y -> digits (a ++ b) (x * 10 ^ Zlen b + y).
Proof.
  intros Ha H. induction H as [|b y d H IH Hd].
  - rewrite app_nil_r. change (Zlen []) with 0. now rewrite Z.pow_0_r, Z.mul_1_r, Z.add_0_r.
  - rewrite app_assoc. replace (x * 10 ^ Zlen (b ++ [chr (48 + d)]) + (10 * y + d)) with (10 * (x * 10 ^ Zlen b + y) + d); [now constructor|].
    rewrite Zlen_app. change (Zlen [chr (48 + d)]) with 1. rewrite Z.pow_add_r by (apply Zlen_nonneg || lia). ring.
Qed.
Lemma run_split l : exists ds r, l = ds ++ r /\ Forall digit_char ds /\ head_nodigit r.
Proof.
  induction l as [|c l (ds & r & -> & F & H)]; [exists [], []; repeat split; constructor|]. destruct (is_digit c) eqn:D.
  - exists (c :: ds), r. repeat split; [|exact H]. constructor; [|exact F]. unfold is_digit in D. unfold digit_char. lia.
  - exists [], (c :: ds ++ r). repeat split; [constructor|exact D].
Qed.
Lemma sign_split l : exists sg s, l = sg ++ snd (sign_of l) /\ fst (sign_of l) = s /\ sign_txt sg s.
Proof.
  destruct l as [|c l]; [exists [], false; repeat split; constructor|]. cbn [sign_of].
  destruct (Ascii.eqb_spec c "-") as [->|_]; [exists ["-"%char], true; repeat split; constructor|].
  destruct (Ascii.eqb_spec c "+") as [->|_]; [exists ["+"%char], false; repeat split; constructor|].
  exists [], false. repeat split. constructor.
Qed.
Lemma strip_split p l : exists a b, l = a ++ strip p l ++ b /\ Forall (fun c => p c = true) a /\ Forall (fun c => p c = true) b.
Proof.
  assert (D : forall l, exists a, l = a ++ dropwhile p l /\ Forall (fun c => p c = true) a).
  { intros x. induction x as [|c x (a & E & F)]; [exists []; repeat split; constructor|]. cbn [dropwhile]. destruct (p c) eqn:C.
    - exists (c :: a). split; [cbn; congruence|now constructor].
    - exists []. split; [reflexivity|constructor]. }
  destruct (D l) as (a & E & F). destruct (D (rev (dropwhile p l))) as (b & E2 & F2). exists a, (rev b). split; [|split; [exact F|now apply Forall_rev]].
  unfold strip. rewrite E at 1. f_equal. rewrite <- (rev_involutive (dropwhile p l)) at 1. rewrite E2 at 1. now rewrite rev_app_distr.
Qed.
Lemma strip_mid p a t b : Forall (fun c => p c = true) a -> Forall (fun c => p c = true) b -> Forall (fun c => p c = false) t -> strip p (a ++ t ++ b) = t.
Proof.
  intros Ha Hb Ht. unfold strip. rewrite dropwhile_all by exact Ha. destruct t as [|c t].
  - cbn [app]. rewrite <- (app_nil_r b) at 1. rewrite dropwhile_all by exact Hb. reflexivity.
  - inversion Ht as [|? ? H1 H2]; subst. cbn [app]. rewrite (dropwhile_none p (c :: t ++ b)) by exact H1. change (c :: t ++ b) with ((c :: t) ++ b). rewrite rev_app_distr, dropwhile_all by now apply Forall_rev.
    rewrite dropwhile_none; [apply rev_involutive|]. apply Forall_rev in Ht. destruct (rev (c :: t)); [exact I|]. now inversion Ht.
Qed.
Lemma lower_caseless w t : Forall (fun a => 97 <= code a <= 122) w -> (map lower t = w <-> caseless w t).
Proof.
  unfold caseless. revert t. induction w as [|a w IH]; intros t H.
  - split; [intros E; apply map_eq_nil in E; subst; constructor|inversion 1; reflexivity].
  - inversion H as [|? ? H1 H2]; subst. split.
    + destruct t as [|b t]; [discriminate|]. cbn [map]. intros E. injection E as E1 E2. constructor; [|now apply IH].
      unfold lower in E1. destruct ((65 <=? code b) && (code b <=? 90)) eqn:R; [|now left]. right. subst a. rewrite code_chr in * by lia. lia.
    + inversion 1 as [|? b ? t' Hab Ht]; subst. cbn [map]. f_equal; [|now apply IH]. unfold lower. destruct Hab as [->|(A & B)].
      * replace ((65 <=? code a) && (code a <=? 90)) with false by lia. reflexivity.
      * replace ((65 <=? code b) && (code b <=? 90)) with true by lia. apply code_inj. rewrite code_chr; lia.
Qed.
Lemma l2s_eq l w : String.eqb (l2s l) w = true <-> l = s2l w.
Proof.
  rewrite String.eqb_eq. split.
  - intros E. apply (f_equal s2l) in E. now rewrite s2l_l2s in E.
  - intros ->. apply l2s_s2l.
Qed.
Definition word (l : list ascii) : Prop := caseless (s2l "inf") l \/ caseless (s2l "infinity") l \/ caseless (s2l "nan") l.
(** The part after the white space and the sign. *)
Definition number_part (s : bool) (l : list ascii) : Res flt :=
  let w := l2s (map lower l) in
  if String.eqb w "inf" || String.eqb w "infinity" then Ok (FInf s)
  else if String.eqb w "nan" then Ok FNan
  else
    let '(ip, ni, l) := digrun 0 0 l in
    let '(m, nf, l) :=
      match l with
      | c :: r => if Ascii.eqb c "." then let '(m, n, r') := digrun ip 0 r in (m, n, r') else (ip, 0, l)
      | [] => (ip, 0, l)
      end in
    if ni + nf =? 0 then Err ValueError
    else
      match l with
      | [] => Ok (dec_to_flt s m (- nf))
      | c :: r =>
          if Ascii.eqb (lower c) "e" then
            let '(es, r1) := sign_of r in
            let '(ev, ne, r2) := digrun 0 0 r1 in
            match r2 with
            | [] => if ne =? 0 then Err ValueError else Ok (dec_to_flt s m ((if es then - ev else ev) - nf))
            | _ => Err ValueError
            end
          else Err ValueError
      end.
Lemma parse_float_parts l : parse_float l = let '(s, r) := sign_of (strip is_space_s l) in number_part s r.
Proof. reflexivity. Qed.

(** What follows the digits. *)
Definition exp_part (s : bool) (m nf : Z) (l : list ascii) : Res flt :=
  match l with
  | [] => Ok (dec_to_flt s m (- nf))
  | c :: r =>
      if Ascii.eqb (lower c) "e" then
        let '(es, r1) := sign_of r in
        let '(ev, ne, r2) := digrun 0 0 r1 in
        match r2 with
        | [] => if ne =? 0 then Err ValueError else Ok (dec_to_flt s m ((if es then - ev else ev) - nf))
        | _ => Err ValueError
        end
      else Err ValueError
  end.
Lemma lower_e c : Ascii.eqb (lower c) "e" = true <-> c = "e"%char \/ c = "E"%char.
Proof.
  rewrite Ascii.eqb_eq. split.
  - intros H. unfold lower in H. destruct ((65 <=? code c) && (code c <=? 90)) eqn:R; [|now left]. right. apply code_inj.
    apply (f_equal code) in H. rewrite code_chr in H by lia. change (code "e") with 101 in H. change (code "E") with 69. lia.
  - intros [->| ->]; reflexivity.
Qed.
Lemma exp_part_iff s m nf l v : exp_part s m nf l = Ok v <-> exists x, exponent l x /\ v = dec_to_flt s m (x - nf).
Proof.
  split.
  - destruct l as [|c r]; cbn [exp_part].
    + intros E. injection E as <-. exists 0. split; [constructor|reflexivity].
    + destruct (Ascii.eqb (lower c) "e") eqn:Ec; [|discriminate]. apply lower_e in Ec.
      destruct (sign_split r) as (sg & es & E & Es & Hs). destruct (sign_of r) as [es' r1]. cbn [fst snd] in E, Es. subst es'.
      destruct (run_split r1) as (ds & r2 & -> & F & Hh). destruct (digits_of ds F) as (ev & Hd). rewrite (digrun_app 0 0 ds r2 ev Hd Hh).
      destruct r2; [|discriminate]. destruct (0 + Zlen ds =? 0) eqn:Z0; [discriminate|]. intros V. injection V as <-. rewrite app_nil_r in E. subst r.
      exists (if es then - ev else ev). split; [|reflexivity]. constructor; try assumption. intros ->. discriminate.
  - intros (x & He & ->). destruct He as [|e es exs ed ex He Hes Hed Hne]; cbn [exp_part]; [f_equal; f_equal; lia|].
    apply lower_e in He as ->. destruct (digits_head ed ex [] Hed Hne) as (c2 & l2 & El2 & Hc2). rewrite app_nil_r in El2.
    rewrite (sign_of_txt es exs); [|exact Hes|].
    2:{ rewrite El2. split; intros ->; vm_compute in Hc2; destruct Hc2; congruence. }
    pose proof (digrun_app 0 0 ed [] ex Hed I) as R. rewrite app_nil_r in R. rewrite R.
    replace (0 + Zlen ed =? 0) with false; [|rewrite El2; unfold Zlen; cbn [length]; lia]. reflexivity.
Qed.
Definition decimal_part (s : bool) (l : list ascii) (v : flt) : Prop :=
  exists t ip fp m et x, l = t ++ et /\ fraction t ip fp /\ digits (ip ++ fp) m /\ ip ++ fp <> [] /\ exponent et x /\ v = dec_to_flt s m (x - Zlen fp).
Definition digits_part (s : bool) (l : list ascii) : Res flt :=
  let '(ip, ni, l) := digrun 0 0 l in
  let '(m, nf, l) :=
    match l with
    | c :: r => if Ascii.eqb c "." then let '(m, n, r') := digrun ip 0 r in (m, n, r') else (ip, 0, l)
    | [] => (ip, 0, l)
    end in
  if ni + nf =? 0 then Err ValueError else exp_part s m nf l.
Lemma exponent_head l x : exponent l x -> head_nodigit l /\ match l with "."%char :: _ => False | _ => True end.
Proof. destruct 1 as [|e es exs ed ex [->| ->] _ _ _]; cbn; auto. Qed.
Lemma digits_part_iff s l v : digits_part s l = Ok v <-> decimal_part s l v.
Proof.
  unfold digits_part. split.
  - destruct (run_split l) as (ip & r & -> & F & Hh). destruct (digits_of ip F) as (a & Ha). rewrite (digrun_app 0 0 ip r a Ha Hh).
    rewrite Z.mul_0_l, Z.add_0_l. destruct r as [|c r].
    + destruct (0 + Zlen ip + 0 =? 0) eqn:Z0; [discriminate|]. intros E. apply exp_part_iff in E as (x & Hx & ->).
      exists ip, ip, [], a, [], x. split; [reflexivity|]. split; [constructor|]. rewrite app_nil_r. split; [exact Ha|]. split; [intros ->; discriminate|]. split; [exact Hx|reflexivity].
    + destruct (Ascii.eqb_spec c ".") as [->|Nc].
      * destruct (run_split r) as (fp & r2 & -> & F2 & Hh2). destruct (digits_of fp F2) as (b & Hb). rewrite (digrun_app a 0 fp r2 b Hb Hh2).
        destruct (0 + Zlen ip + (0 + Zlen fp) =? 0) eqn:Z0; [discriminate|]. intros E. apply exp_part_iff in E as (x & Hx & ->).
        exists (ip ++ "."%char :: fp), ip, fp, (a * 10 ^ Zlen fp + b), r2, x. repeat split; [now rewrite <- app_assoc|constructor|now apply digits_app| |exact Hx].
        intros E. apply app_eq_nil in E as (-> & ->). discriminate.
      * destruct (0 + Zlen ip + 0 =? 0) eqn:Z0; [discriminate|]. intros E. apply exp_part_iff in E as (x & Hx & ->).
        exists ip, ip, [], a, (c :: r), x. split; [reflexivity|]. split; [constructor|]. rewrite app_nil_r. split; [exact Ha|]. split; [intros ->; discriminate|]. split; [exact Hx|reflexivity].
  - intros (t & ip & fp & m & et & x & -> & Hf & Hm & Hne & Hx & ->). destruct (exponent_head _ _ Hx) as (Hh & Hp). destruct Hf as [ip|ip fp].
    + rewrite app_nil_r in Hm, Hne. rewrite (digrun_app 0 0 ip et m Hm Hh), Z.mul_0_l, Z.add_0_l.
      assert (E : match et with c :: r => if Ascii.eqb c "." then let '(m, n, r') := digrun m 0 r in (m, n, r') else (m, 0, et) | [] => (m, 0, et) end = (m, 0, et)).
      { destruct et as [|c r]; [reflexivity|]. destruct (Ascii.eqb_spec c ".") as [->|_]; [contradiction|reflexivity]. }
      rewrite E. replace (0 + Zlen ip + 0 =? 0) with false; [|destruct ip; [congruence|unfold Zlen; cbn [length]; lia]].
      apply exp_part_iff. exists x. split; [exact Hx|reflexivity].
    + destruct (digits_app_inv ip fp m Hm) as (a & Ha & Hr). rewrite <- app_assoc. cbn [app]. rewrite (digrun_app 0 0 ip _ a Ha) by reflexivity.
      rewrite Ascii.eqb_refl, Z.mul_0_l, Z.add_0_l, Hr by exact Hh.
      replace (0 + Zlen ip + (0 + Zlen fp) =? 0) with false.
      2:{ symmetry. apply Z.eqb_neq. intros E. apply Hne. destruct ip; [|unfold Zlen in E; cbn [length] in E; lia]. destruct fp; [reflexivity|unfold Zlen in E; cbn [length] in E; lia]. }
      apply exp_part_iff. exists x. split; [exact Hx|]. f_equal; ring.
Qed.
Lemma decimal_not_word s l v : decimal_part s l v -> forall w, Forall (fun a => 97 <= code a <= 122) (s2l w) -> s2l w <> [] -> String.eqb (l2s (map lower l)) w = false.
Proof.
  intros (t & ip & fp & m & et & x & -> & Hf & Hm & Hne & Hx & ->) w Hw Nw. apply not_true_iff_false. rewrite l2s_eq. intros E.
  apply digits_chars in Hm. assert (H : exists c l2, t ++ et = c :: l2 /\ (code c < 97 /\ ~ (65 <= code c <= 90))).
  { destruct Hf as [ip|ip fp]; [rewrite app_nil_r in *|]; (destruct ip as [|c ip]; [|inversion Hm; subst; eexists; eexists; split; [reflexivity|lia]]).
    - congruence.
    - eexists. eexists. split; [reflexivity|]. change (code ".") with 46. lia. }
  destruct H as (c & l2 & El & Hc). rewrite El in E. cbn [map] in E. rewrite <- E in Hw. inversion Hw as [|? ? H1 _]; subst. unfold lower in H1.
  replace ((65 <=? code c) && (code c <=? 90)) with false in H1 by lia. lia.
Qed.
Lemma letters_word w : Forall (fun a => 97 <=? code a = true /\ code a <=? 122 = true) (s2l w) -> Forall (fun a => 97 <= code a <= 122) (s2l w).
Proof. intros H. eapply Forall_impl; [|exact H]. intros a Ha. cbn beta in Ha. lia. Qed.
Lemma number_part_iff s l v : number_part s l = Ok v <->
  decimal_part s l v \/ ((caseless (s2l "inf") l \/ caseless (s2l "infinity") l) /\ v = FInf s) \/ (caseless (s2l "nan") l /\ v = FNan).
Proof.
  assert (W1 : Forall (fun a => 97 <= code a <= 122) (s2l "inf")) by (apply letters_word; repeat constructor).
  assert (W2 : Forall (fun a => 97 <= code a <= 122) (s2l "infinity")) by (apply letters_word; repeat constructor).
  assert (W3 : Forall (fun a => 97 <= code a <= 122) (s2l "nan")) by (apply letters_word; repeat constructor).
  pose proof (lower_caseless _ l W1) as L1. pose proof (lower_caseless _ l W2) as L2. pose proof (lower_caseless _ l W3) as L3.
  pose proof (l2s_eq (map lower l) "inf") as E1. pose proof (l2s_eq (map lower l) "infinity") as E2. pose proof (l2s_eq (map lower l) "nan") as E3.
  change (number_part s l) with (if String.eqb (l2s (map lower l)) "inf" || String.eqb (l2s (map lower l)) "infinity" then Ok (FInf s)
    else if String.eqb (l2s (map lower l)) "nan" then Ok FNan else digits_part s l).
  split.
  - destruct (String.eqb (l2s (map lower l)) "inf") eqn:T1; cbn [orb]; [intros E; injection E as <-; right; left; split; [left; tauto|reflexivity]|].
    destruct (String.eqb (l2s (map lower l)) "infinity") eqn:T2; [intros E; injection E as <-; right; left; split; [right; tauto|reflexivity]|].
    destruct (String.eqb (l2s (map lower l)) "nan") eqn:T3; [intros E; injection E as <-; right; right; split; [tauto|reflexivity]|].
    intros E. left. now apply digits_part_iff.
  - intros [H|[(H & ->)|(H & ->)]].
    + rewrite (decimal_not_word _ _ _ H "inf" W1), (decimal_not_word _ _ _ H "infinity" W2), (decimal_not_word _ _ _ H "nan" W3) by discriminate.
      cbn [orb]. now apply digits_part_iff.
    + destruct H as [H|H]; [replace (String.eqb (l2s (map lower l)) "inf") with true by (symmetry; tauto); reflexivity|].
      replace (String.eqb (l2s (map lower l)) "infinity") with true by (symmetry; tauto). now rewrite orb_true_r.
    + assert (H' : String.eqb (l2s (map lower l)) "nan" = true) by tauto. apply String.eqb_eq in H'. rewrite H'. reflexivity.
Qed.
Lemma digits_nonneg l m : digits l m -> 0 <= m.
Proof. induction 1; lia. Qed.
Lemma numeral_iff l v : (let '(s, r) := sign_of l in number_part s r) = Ok v <-> numeral l v.
Proof.
  split.
  - destruct (sign_split l) as (sg & s & E & Es & Hs). destruct (sign_of l) as [s' r]. cbn [fst snd] in E, Es. subst s' l. intros H.
    apply number_part_iff in H as [(t & ip & fp & m & et & x & -> & Hf & Hm & Hne & Hx & ->)|[(H & ->)|(H & ->)]].
    + eapply numeral_decimal; try eassumption. apply dec_to_flt_rounded. eapply digits_nonneg. exact Hm.
    + now constructor.
    + now apply (numeral_nan sg s).
  - assert (HL : forall w t c r, Forall (fun a => 97 <= code a <= 122) w -> caseless w t -> t = c :: r -> c <> "-"%char /\ c <> "+"%char).
    { intros w t c r Hw H ->. inversion H as [|a ? ? ? Hab _]; subst. inversion Hw; subst. split; intros ->; [change (code "-") with 45 in *|change (code "+") with 43 in *]; destruct Hab as [<-|Hab]; try lia; [change (code "-") with 45 in *|change (code "+") with 43 in *]; lia. }
    assert (W1 : Forall (fun a => 97 <= code a <= 122) (s2l "inf")) by (apply letters_word; repeat constructor).
    assert (W2 : Forall (fun a => 97 <= code a <= 122) (s2l "infinity")) by (apply letters_word; repeat constructor).
    assert (W3 : Forall (fun a => 97 <= code a <= 122) (s2l "nan")) by (apply letters_word; repeat constructor).
    intros H. destruct H as [sg s t ip fp m et x v Hs Hf Hm Hne Hx Hr|sg s t Hs H|sg s t Hs H].
    + rewrite (sign_of_txt sg s); [|exact Hs|].
      2:{ pose proof (digits_chars _ _ Hm) as C. destruct Hf as [ip|ip fp]; [rewrite app_nil_r in *|]; (destruct ip as [|c ip]; [|inversion C; subst; split; intros ->; [change (code "-") with 45 in *|change (code "+") with 43 in *]; lia]); [congruence|split; discriminate]. }
      apply number_part_iff. left. exists t, ip, fp, m, et, x. repeat split; try assumption.
      exact (rounded_unique _ _ _ _ _ _ _ Hr (dec_to_flt_rounded s m _ (digits_nonneg _ _ Hm))).
    + rewrite (sign_of_txt sg s); [|exact Hs|destruct t; [exact I|]; destruct H as [H|H]; eapply HL; try reflexivity; try exact H; assumption].
      apply number_part_iff. right. left. now split.
    + rewrite (sign_of_txt sg s); [|exact Hs|destruct t; [exact I|]; eapply HL; try reflexivity; try exact H; assumption].
      apply number_part_iff. right. right. now split.
Qed.
Lemma numeral_chars l v : numeral l v -> Forall (fun c => is_space_s c = false) l.
Proof.
  assert (S : forall sg s, sign_txt sg s -> Forall (fun c => is_space_s c = false) sg) by (destruct 1; repeat constructor).
  assert (D : forall l, Forall (fun c => 48 <= code c <= 57) l -> Forall (fun c => is_space_s c = false) l).
  { intros x Hx. eapply Forall_impl; [|exact Hx]. intros c Hc. cbn beta in Hc. unfold is_space_s. lia. }
  assert (W : forall w t, Forall (fun a => 97 <= code a <= 122) w -> caseless w t -> Forall (fun c => is_space_s c = false) t).
  { intros w t Hw H. induction H as [|a b w t Hab H IH]; [constructor|]. inversion Hw; subst. constructor; [|now apply IH]. unfold is_space_s. destruct Hab as [->|Hab]; lia. }
  assert (W1 : Forall (fun a => 97 <= code a <= 122) (s2l "inf")) by (apply letters_word; repeat constructor).
  assert (W2 : Forall (fun a => 97 <= code a <= 122) (s2l "infinity")) by (apply letters_word; repeat constructor).
  assert (W3 : Forall (fun a => 97 <= code a <= 122) (s2l "nan")) by (apply letters_word; repeat constructor).
  destruct 1 as [sg s t ip fp m et x v Hs Hf Hm Hne Hx Hr|sg s t Hs H|sg s t Hs H]; apply Forall_app; (split; [eapply S; exact Hs|]).
  - apply Forall_app. split.
    + apply digits_chars, D in Hm. apply Forall_app in Hm as (H1 & H2). destruct Hf as [ip|ip fp]; [exact H1|]. apply Forall_app. split; [exact H1|]. now constructor.
    + destruct Hx as [|e es exs ed ex He Hes Hed _]; [constructor|]. constructor; [destruct He as [->| ->]; reflexivity|]. apply Forall_app. split; [eapply S; exact Hes|].
      apply D. eapply digits_chars. exact Hed.
  - destruct H as [H|H]; [exact (W _ _ W1 H)|exact (W _ _ W2 H)].
  - exact (W _ _ W3 H).
Qed.
Theorem parse_float_reads l v : parse_float l = Ok v <-> reads l v.
Proof.
  rewrite parse_float_parts. split.
  - intros H. apply numeral_iff in H. destruct (strip_split is_space_s l) as (a & b & E & Ha & Hb). rewrite E. constructor; [| |exact H].
    + eapply Forall_impl; [|exact Ha]. intros c Hc. now apply space_iff.
    + eapply Forall_impl; [|exact Hb]. intros c Hc. now apply space_iff.
  - intros H. destruct H as [p t q v Hp Hq Ht]. rewrite strip_mid.
    + now apply numeral_iff.
    + eapply Forall_impl; [|exact Hp]. intros c Hc. now apply space_iff.
    + eapply Forall_impl; [|exact Hq]. intros c Hc. now apply space_iff.
    + eapply numeral_chars. exact Ht.
Qed.
Lemma parse_float_error l : (forall v, ~ reads l v) -> parse_float l = Err ValueError.
Proof.
  intros H. destruct (parse_float l) as [v|e] eqn:E; [exfalso; apply (H v); now apply parse_float_reads|]. f_equal.
  rewrite parse_float_parts in E. destruct (sign_of (strip is_space_s l)) as [s r]. unfold number_part in E.
  destruct (_ || _); [discriminate|]. destruct (String.eqb _ "nan"); [discriminate|].
  destruct (digrun 0 0 r) as [[a b] r1]. destruct (match r1 with [] => _ | _ => _ end) as [[m nf] r2]. destruct (_ =? 0); [congruence|].
  destruct r2 as [|c r2]; [discriminate|]. destruct (Ascii.eqb _ _); [|congruence]. destruct (sign_of r2) as [es r3]. destruct (digrun 0 0 r3) as [[ev ne] r4].
  destruct r4; [|congruence]. destruct (ne =? 0); congruence.
Qed.
