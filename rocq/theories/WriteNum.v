(** * WriteNum: the sixteen characters of a number, read again *)
From Verif Require Import Base Flt SeqFile RoundSpec SeqSpec ListFacts FltProofs RoundProofs SeqProofs NumProofs Write WriteSpec.
Open Scope Z_scope.
Open Scope list_scope.

Lemma nearest_int_half N D : nearest_int N D = half_even N D.
Proof. reflexivity. Qed.

(** ** The power of ten of the first digit *)
Lemma ndig_aux_spec fuel : forall n, 0 < n < 2 ^ Z.of_nat fuel -> 1 <= ndig_aux fuel n /\ 10 ^ (ndig_aux fuel n - 1) <= n < 10 ^ ndig_aux fuel n.
Proof.
  induction fuel as [|k IH]; intros n H.
  - cbn in H. lia.
  - cbn [ndig_aux]. replace (n <=? 0) with false by lia. rewrite Nat2Z.inj_succ, Z.pow_succ_r in H by lia.
    destruct (Z.eq_dec (n / 10) 0) as [E|E].
    + rewrite E. assert (n < 10) by (apply Z.div_small_iff in E; lia).
      replace (ndig_aux k 0) with 0 by (destruct k; reflexivity). cbn. lia.
    + assert (0 <= n / 10) by (apply Z.div_pos; lia). pose proof (Z.div_mod n 10 ltac:(lia)). pose proof (Z.mod_pos_bound n 10 ltac:(lia)).
      destruct (IH (n / 10) ltac:(lia)) as (I1 & I2 & I3). set (x := ndig_aux k (n / 10)) in *. clearbody x.
      replace (1 + x - 1) with (Z.succ (x - 1)) by lia. replace (1 + x) with (Z.succ x) by lia. rewrite !Z.pow_succ_r by lia. lia.
Qed.
Lemma ndig_spec n : 0 < n -> 1 <= ndig n /\ 10 ^ (ndig n - 1) <= n < 10 ^ ndig n.
Proof.
  intros H. apply ndig_aux_spec. split; [exact H|]. pose proof (Z.log2_nonneg n).
  rewrite Nat2Z.inj_succ, Z2Nat.id by lia. apply Z.log2_spec. exact H.
Qed.

Lemma pow10_pos a : 0 <= a -> 0 < 10 ^ a.
Proof. intros. apply Z.pow_pos_nonneg; lia. Qed.

(** First digit at [x]: [10^8 <= num / den * 10^(8 - x) < 10^9]. *)
Lemma dlog_spec num den : 0 < num -> 0 < den ->
  let x := dlog num den in
  den * 10 ^ Z.max 0 x <= num * 10 ^ Z.max 0 (- x) /\ num * 10 ^ Z.max 0 (- x - 1) < den * 10 ^ Z.max 0 (x + 1).
Proof.
  intros Hn Hd. cbv zeta. unfold dlog. destruct (den <=? num) eqn:E.
  - assert (1 <= num / den) by (apply Z.div_le_lower_bound; lia).
    destruct (ndig_spec (num / den) ltac:(lia)) as (I1 & I2 & I3). set (x := ndig (num / den)) in *. clearbody x.
    rewrite (Z.max_r 0 (x - 1)), (Z.max_l 0 (- (x - 1))), (Z.max_l 0 (- (x - 1) - 1)), (Z.max_r 0 (x - 1 + 1)) by lia.
    rewrite Z.pow_0_r, !Z.mul_1_r. replace (x - 1 + 1) with x by lia.
    pose proof (Z.div_mod num den ltac:(lia)). pose proof (Z.mod_pos_bound num den ltac:(lia)). split; nia.
  - assert (1 <= (den - 1) / num) by (apply Z.div_le_lower_bound; lia).
    destruct (ndig_spec ((den - 1) / num) ltac:(lia)) as (I1 & I2 & I3). set (x := ndig ((den - 1) / num)) in *. clearbody x.
    rewrite (Z.max_l 0 (- x)), (Z.max_r 0 (- - x)), (Z.max_r 0 (- - x - 1)), (Z.max_l 0 (- x + 1)) by lia.
    rewrite Z.pow_0_r, !Z.mul_1_r. replace (- - x) with x by lia.
    pose proof (Z.div_mod (den - 1) num ltac:(lia)). pose proof (Z.mod_pos_bound (den - 1) num ltac:(lia)). split; nia.
Qed.

Lemma pow10_split x : 10 ^ Z.max 0 (8 - x) * 10 ^ Z.max 0 x = 10 ^ 8 * (10 ^ Z.max 0 (x - 8) * 10 ^ Z.max 0 (- x)).
Proof. rewrite <- !Z.pow_add_r by lia. f_equal. lia. Qed.
Lemma pow10_split9 x : 10 ^ Z.max 0 (8 - x) * 10 ^ Z.max 0 (x + 1) = 10 ^ 9 * (10 ^ Z.max 0 (x - 8) * 10 ^ Z.max 0 (- x - 1)).
Proof. rewrite <- !Z.pow_add_r by lia. f_equal. lia. Qed.

Lemma dlog_nine num den : 0 < num -> 0 < den -> let x := dlog num den in
  let N := num * 10 ^ Z.max 0 (8 - x) in let D := den * 10 ^ Z.max 0 (x - 8) in
  0 < D /\ 10 ^ 8 * D <= N /\ N < 10 ^ 9 * D.
Proof.
  intros Hn Hd. cbv zeta. destruct (dlog_spec num den Hn Hd) as (A & B). set (x := dlog num den) in *. clearbody x.
  pose proof (pow10_split x) as S1. pose proof (pow10_split9 x) as S2.
  pose proof (pow10_pos (Z.max 0 (8 - x)) ltac:(lia)) as P1. pose proof (pow10_pos (Z.max 0 (x - 8)) ltac:(lia)) as P2.
  pose proof (pow10_pos (Z.max 0 x) ltac:(lia)) as P3. pose proof (pow10_pos (Z.max 0 (- x)) ltac:(lia)) as P4.
  pose proof (pow10_pos (Z.max 0 (x + 1)) ltac:(lia)) as P5. pose proof (pow10_pos (Z.max 0 (- x - 1)) ltac:(lia)) as P6.
  set (a := 10 ^ Z.max 0 (8 - x)) in *. set (b := 10 ^ Z.max 0 (x - 8)) in *. set (c := 10 ^ Z.max 0 x) in *. set (d := 10 ^ Z.max 0 (- x)) in *.
  set (f := 10 ^ Z.max 0 (x + 1)) in *. set (g := 10 ^ Z.max 0 (- x - 1)) in *. clearbody a b c d f g.
  split; [nia|]. split.
  - apply (Zmult_lt_0_le_reg_r _ _ d P4). replace (10 ^ 8 * (den * b) * d) with (den * (10 ^ 8 * (b * d))) by ring. rewrite <- S1.
    replace (den * (a * c)) with (a * (den * c)) by ring. replace (num * a * d) with (a * (num * d)) by ring. apply Z.mul_le_mono_nonneg_l; lia.
  - apply (Z.mul_lt_mono_pos_r g _ _ P6). replace (10 ^ 9 * (den * b) * g) with (den * (10 ^ 9 * (b * g))) by ring. rewrite <- S2.
    replace (den * (a * f)) with (a * (den * f)) by ring. replace (num * a * g) with (a * (num * g)) by ring. apply Z.mul_lt_mono_pos_l; lia.
Qed.

(** ** Nine digits *)
Lemma dec_number_parts d y : dec_number d y = mkNum (d * 10 ^ Z.max 0 y) (10 ^ Z.max 0 (- y)) 0.
Proof.
  unfold dec_number. destruct (0 <=? y) eqn:E.
  - rewrite (Z.max_r 0 y), (Z.max_l 0 (- y)) by lia. reflexivity.
  - rewrite (Z.max_l 0 y), (Z.max_r 0 (- y)) by lia. now rewrite Z.pow_0_r, Z.mul_1_r.
Qed.
(** The decimal number [d * 10^y] is [num / den] up to half a unit of the ninth digit. *)
Definition close (num den d y : Z) : Prop :=
  10 ^ 8 * (2 * Z.abs (num * 10 ^ Z.max 0 (- y) - d * 10 ^ Z.max 0 y * den)) <= num * 10 ^ Z.max 0 (- y).
Definition half_unit (num den d y : Z) : Prop :=
  2 * Z.abs (num * 10 ^ Z.max 0 (- y) - d * 10 ^ Z.max 0 y * den) <= 10 ^ Z.max 0 y * den.
Lemma half_even_near N D : 0 < D -> 2 * Z.abs (N - half_even N D * D) <= D.
Proof.
  intros H. unfold half_even. pose proof (Z.div_mod N D ltac:(lia)) as E. pose proof (Z.mod_pos_bound N D H).
  set (q := N / D) in *. set (r := N mod D) in *. clearbody q r. cbv zeta.
  destruct (2 * r <? D) eqn:A; [nia|]. destruct (D <? 2 * r) eqn:B; [nia|]. destruct (Z.even q); nia.
Qed.
Lemma nine_close num den d x : 0 < num -> 0 < den -> nine_digits num den = (d, x) ->
  10 ^ 8 <= d < 10 ^ 9 /\ close num den d (x - 8) /\ half_unit num den d (x - 8).
Proof.
  intros Hn Hd E. unfold nine_digits in E. rewrite nearest_int_half in E. destruct (dlog_nine num den Hn Hd) as (P & A & B).
  set (y := dlog num den) in *. clearbody y. cbv zeta in *.
  set (N := num * 10 ^ Z.max 0 (8 - y)) in *. set (D := den * 10 ^ Z.max 0 (y - 8)) in *.
  pose proof (half_even_near N D P) as H. set (h := half_even N D) in *.
  assert (H1 : 10 ^ 8 <= h <= 10 ^ 9).
  { assert (10 ^ 8 <= N / D) by (apply Z.div_le_lower_bound; lia). assert (N / D < 10 ^ 9) by (apply Z.div_lt_upper_bound; lia).
    pose proof (half_even_bounds N D P). fold h in H2. lia. }
  clearbody h.
  assert (C : close num den h (y - 8)).
  { unfold close. replace (- (y - 8)) with (8 - y) by lia. fold N.
    replace (h * 10 ^ Z.max 0 (y - 8) * den) with (h * D) by (unfold D; ring). lia. }
  assert (C0 : half_unit num den h (y - 8)).
  { unfold half_unit. replace (- (y - 8)) with (8 - y) by lia. fold N.
    replace (h * 10 ^ Z.max 0 (y - 8) * den) with (h * D) by (unfold D; ring). unfold D in *. lia. }
  destruct (h =? 10 ^ 9) eqn:F; injection E as <- <-.
  - change (Z.pow_pos 10 8) with (10 ^ 8). split; [lia|]. assert (h = 10 ^ 8 * 10) as -> by lia. unfold close, half_unit in *. clear H1 H F.
    replace (y + 1 - 8) with (y - 8 + 1) by lia. set (z := y - 8) in *. clearbody z.
    assert (T : 10 * 10 ^ Z.max 0 z * 10 ^ Z.max 0 (- (z + 1)) = 10 ^ Z.max 0 (z + 1) * 10 ^ Z.max 0 (- z)).
    { change 10 with (10 ^ 1) at 1. rewrite <- !Z.pow_add_r by lia. f_equal. lia. }
    pose proof (pow10_pos (Z.max 0 (- z)) ltac:(lia)) as Q1. pose proof (pow10_pos (Z.max 0 (- (z + 1))) ltac:(lia)) as Q2.
    pose proof (pow10_pos (Z.max 0 z) ltac:(lia)) as Q3.
    set (a := 10 ^ Z.max 0 z) in *. set (b := 10 ^ Z.max 0 (- z)) in *. set (a' := 10 ^ Z.max 0 (z + 1)) in *. set (b' := 10 ^ Z.max 0 (- (z + 1))) in *.
    clearbody a b a' b'.
    assert (X : Z.abs (num * b' - 10 ^ 8 * a' * den) * b = Z.abs (num * b - 10 ^ 8 * 10 * a * den) * b').
    { rewrite <- (Z.abs_eq b) at 1 by lia. rewrite <- (Z.abs_eq b') at 2 by lia. rewrite <- !Z.abs_mul. f_equal.
      rewrite !Z.mul_sub_distr_r. replace (10 ^ 8 * a' * den * b) with (10 ^ 8 * (a' * b) * den) by ring. rewrite <- T. ring. }
    assert (Y : 10 * (a * den * b') = a' * den * b) by (replace (a' * den * b) with (a' * b * den) by ring; rewrite <- T; ring).
    assert (Q4 : 0 <= a * den * b') by (apply Z.mul_nonneg_nonneg; [apply Z.mul_nonneg_nonneg|]; lia).
    set (u := Z.abs (num * b' - 10 ^ 8 * a' * den)) in *. set (v := Z.abs (num * b - 10 ^ 8 * 10 * a * den)) in *. clearbody u v.
    apply (Z.mul_le_mono_nonneg_r _ _ b' ltac:(lia)) in C. apply (Z.mul_le_mono_nonneg_r _ _ b' ltac:(lia)) in C0.
    split; apply (Zmult_lt_0_le_reg_r _ _ b Q1); lia.
  - split; [lia|]. split; assumption.
Qed.

(** ** The text *)
Lemma last_digits_decimal k : forall n, last_digits k n = decimal k n.
Proof. induction k as [|k IH]; intros n; [reflexivity|]. cbn [last_digits decimal]. now rewrite IH. Qed.
Lemma decimal_split i k : forall n, decimal (i + k) n = decimal i (n / 10 ^ Z.of_nat k) ++ decimal k n.
Proof.
  induction k as [|k IH]; intros n.
  - rewrite Nat.add_0_r. cbn [decimal]. rewrite app_nil_r. change (10 ^ Z.of_nat 0) with 1. now rewrite Z.div_1_r.
  - rewrite Nat.add_succ_r. cbn [decimal]. rewrite IH, app_assoc. do 2 f_equal. f_equal.
    rewrite Nat2Z.inj_succ, Z.pow_succ_r, Z.div_div by lia. reflexivity.
Qed.
Lemma sci_length s d x : (length (sci_text s d x) <= 16)%nat.
Proof.
  unfold sci_text. rewrite !last_digits_decimal, !app_length, !decimal_length.
  destruct s, (Z.abs x <? 100); cbn [length]; lia.
Qed.
Lemma rjust_length l : (length l <= 16)%nat -> length (rjust16 l) = 16%nat.
Proof. intros H. unfold rjust16. rewrite app_length, repeat_length. lia. Qed.
Lemma sci_field s d x : 0 <= d < 10 ^ 9 -> Z.abs x < 1000 -> efield (rjust16 (sci_text s d x)) s d (x - 8).
Proof.
  intros Hd Hx. unfold rjust16. set (i := (16 - length (sci_text s d x))%nat). clearbody i. unfold sci_text. rewrite !last_digits_decimal.
  set (k := if Z.abs x <? 100 then 2%nat else 3%nat).
  assert (Hk : digits (decimal k (Z.abs x)) (Z.abs x)).
  { apply decimal_digits. unfold k. destruct (Z.abs x <? 100) eqn:E; [change (10 ^ Z.of_nat 2) with 100|change (10 ^ Z.of_nat 3) with 1000]; lia. }
  assert (Nk : decimal k (Z.abs x) <> []).
  { intro E. apply (f_equal (@length _)) in E. rewrite decimal_length in E. unfold k in E. destruct (Z.abs x <? 100); discriminate. }
  clearbody k.
  assert (D9 : digits (decimal 1 (d / 10 ^ 8) ++ decimal 8 d) d).
  { change (10 ^ 8) with (10 ^ Z.of_nat 8). rewrite <- (decimal_split 1 8). apply decimal_digits. exact Hd. }
  assert (D1 : digits (decimal 1 (d / 10 ^ 8)) (d / 10 ^ 8)).
  { apply decimal_digits. split; [apply Z.div_pos; lia|]. apply Z.div_lt_upper_bound; [lia|]. exact (proj2 Hd). }
  assert (S : sign_txt (if s then ["-"%char] else []) s) by (destruct s; constructor).
  assert (SX : sign_txt [if x <? 0 then "-"%char else "+"%char] (x <? 0)) by (destruct (x <? 0); constructor).
  pose proof (efield_intro i _ s _ _ _ d "e"%char _ _ _ _ 0 S D1 ltac:(cbn; discriminate) D9 (or_introl eq_refl) SX Hk Nk) as F.
  rewrite decimal_length in F. replace ((if x <? 0 then - Z.abs x else Z.abs x) - Z.of_nat 8) with (x - 8) in F by (destruct (x <? 0) eqn:E; lia).
  cbn [repeat] in F. rewrite app_nil_r in F. exact F.
Qed.

(** ** Numbers of double precision *)
Definition parts (m e : Z) : Z * Z := if 0 <=? e then (m * 2 ^ e, 1) else (m, 2 ^ (- e)).
Lemma parts_pos m e : 0 < m -> 0 < fst (parts m e) /\ 0 < snd (parts m e).
Proof. intros H. unfold parts. destruct (0 <=? e) eqn:E; cbn [fst snd]; pose proof (pow2_pos e); pose proof (pow2_pos (- e)); split; nia. Qed.
Lemma parts_value m e k : 0 <= k -> 0 <= e + k -> m * 2 ^ (e + k) * snd (parts m e) = fst (parts m e) * 2 ^ k.
Proof.
  intros Hk He. unfold parts. destruct (0 <=? e) eqn:E; cbn [fst snd].
  - rewrite Z.pow_add_r by lia. ring.
  - rewrite <- Z.mul_assoc, <- Z.pow_add_r by lia. do 2 f_equal. lia.
Qed.
Lemma format_fin s m e : format_e8 (FFin s m e) =
  let '(d, x) := nine_digits (fst (parts (Zpos m) e)) (snd (parts (Zpos m) e)) in rjust16 (sci_text s d x).
Proof.
  unfold format_e8, parts. destruct (0 <=? e) eqn:E; cbn [fst snd].
  - rewrite Z.shiftl_mul_pow2 by lia. destruct (nine_digits _ _). reflexivity.
  - rewrite Z.shiftl_mul_pow2, Z.mul_1_l by lia. destruct (nine_digits _ _). reflexivity.
Qed.
Lemma big1024 : 2 ^ 1024 < 10 ^ 309. Proof. reflexivity. Qed.
Lemma big1074 : 2 ^ 1074 < 10 ^ 324. Proof. reflexivity. Qed.
Lemma dlog_range num den : 0 < num -> 0 < den -> num < 2 ^ 1024 * den -> den <= 2 ^ 1074 -> -324 <= dlog num den <= 308.
Proof.
  intros Hn Hd H1 H2. destruct (dlog_spec num den Hn Hd) as (A & B). set (x := dlog num den) in *. clearbody x.
  pose proof big1024 as B1. pose proof big1074 as B2. split.
  - destruct (Z_le_gt_dec (-324) x) as [L|L]; [exact L|exfalso].
    rewrite (Z.max_l 0 (x + 1)), (Z.max_r 0 (- x - 1)), Z.pow_0_r in B by lia.
    assert (10 ^ 324 <= 10 ^ (- x - 1)) by (apply Z.pow_le_mono_r; lia).
    generalize dependent (10 ^ (- x - 1)). generalize dependent (10 ^ 324). generalize dependent (2 ^ 1074). intros. nia.
  - destruct (Z_le_gt_dec x 308) as [L|L]; [exact L|exfalso].
    rewrite (Z.max_r 0 x), (Z.max_l 0 (- x)), Z.pow_0_r in A by lia.
    assert (10 ^ 309 <= 10 ^ x) by (apply Z.pow_le_mono_r; lia).
    generalize dependent (10 ^ x). generalize dependent (10 ^ 309). generalize dependent (2 ^ 1024). intros. nia.
Qed.
Lemma parts_range m e : is_double (FFin false m e) -> fst (parts (Zpos m) e) < 2 ^ 1024 * snd (parts (Zpos m) e) /\ snd (parts (Zpos m) e) <= 2 ^ 1074.
Proof.
  intros (_ & H1 & H2 & H3). unfold parts. destruct (0 <=? e) eqn:E; cbn [fst snd].
  - rewrite Z.mul_1_r. split; [apply H3; lia|]. change 1 with (2 ^ 0). apply Z.pow_le_mono_r; lia.
  - pose proof (pow2_pos (- e) ltac:(lia)). split.
    + apply Z.lt_le_trans with (2 ^ 53); [exact H1|]. apply Z.le_trans with (2 ^ 1024 * 1); [|apply Z.mul_le_mono_nonneg_l; [apply Z.pow_nonneg; lia|lia]].
      rewrite Z.mul_1_r. apply Z.pow_le_mono_r; lia.
    + apply Z.pow_le_mono_r; lia.
Qed.

(** What is read: the double next to the decimal. *)
Lemma format_field s m e : is_double (FFin s m e) -> exists d y, efield (format_e8 (FFin s m e)) s d y /\
  10 ^ 8 <= d < 10 ^ 9 /\ close (fst (parts (Zpos m) e)) (snd (parts (Zpos m) e)) d y /\
  half_unit (fst (parts (Zpos m) e)) (snd (parts (Zpos m) e)) d y /\ length (format_e8 (FFin s m e)) = 16%nat /\
  nine_digits (fst (parts (Zpos m) e)) (snd (parts (Zpos m) e)) = (d, y + 8).
Proof.
  intros H. rewrite format_fin. destruct (parts_pos (Zpos m) e ltac:(lia)) as (P1 & P2). destruct (parts_range m e H) as (R1 & R2).
  pose proof (dlog_range _ _ P1 P2 R1 R2) as X. set (num := fst (parts (Zpos m) e)) in *. set (den := snd (parts (Zpos m) e)) in *. clearbody num den.
  destruct (nine_digits num den) as [d x] eqn:E. destruct (nine_close _ _ _ _ P1 P2 E) as (Hd & C & C0).
  assert (Z.abs x < 1000).
  { unfold nine_digits in E. destruct (_ =? _) in E; injection E as _ <-; lia. }
  exists d, (x - 8). split; [apply sci_field; lia|]. split; [exact Hd|]. split; [exact C|]. split; [exact C0|]. split; [apply rjust_length, sci_length|]. f_equal. lia.
Qed.

Lemma read_core m e d y n q k : Zpos m <= 2 ^ 53 -> -1074 <= e ->
  close (fst (parts (Zpos m) e)) (snd (parts (Zpos m) e)) d y -> nearest 53 (-1074) (dec_number d y) n q ->
  0 <= k -> 0 <= q + k -> 0 <= e + k ->
  10 ^ 8 * Z.abs (n * 2 ^ (q + k) - Zpos m * 2 ^ (e + k)) <= Zpos m * 2 ^ (e + k).
Proof.
  intros Hm He C (_ & N) Hk Hq Hek. rewrite dec_number_parts in N.
  destruct (N (Zpos m) e k) as (G & _).
  { split; [rewrite Z.abs_eq; lia|exact He]. }
  { unfold units. cbn [x_exp]. lia. }
  unfold gap in G. cbn [x_num x_den x_exp] in G. rewrite Z.add_0_l in G. clear N.
  pose proof (parts_value (Zpos m) e k Hk Hek) as E. destruct (parts_pos (Zpos m) e ltac:(lia)) as (P1 & P2).
  unfold close in C. pose proof (pow2_pos k Hk) as PK. pose proof (pow10_pos (Z.max 0 (- y)) ltac:(lia)) as PB.
  set (num := fst (parts (Zpos m) e)) in *. set (den := snd (parts (Zpos m) e)) in *. clearbody num den.
  set (V := Zpos m * 2 ^ (e + k)) in *. set (T := n * 2 ^ (q + k)) in *.
  replace (n * 10 ^ Z.max 0 (- y) * 2 ^ (q + k)) with (T * 10 ^ Z.max 0 (- y)) in G by (unfold T; ring).
  replace (Zpos m * 10 ^ Z.max 0 (- y) * 2 ^ (e + k)) with (V * 10 ^ Z.max 0 (- y)) in G by (unfold V; ring).
  set (a := d * 10 ^ Z.max 0 y) in *. set (b := 10 ^ Z.max 0 (- y)) in *. set (K := 2 ^ k) in *. clearbody V T a b K.
  (* in units of den * b *)
  assert (G2 : Z.abs ((T - V) * b) <= 2 * Z.abs (a * K - V * b)) by (replace ((T - V) * b) with (T * b - V * b) by ring; lia).
  assert (C2 : Z.abs (a * K - V * b) * den = K * Z.abs (num * b - a * den)).
  { rewrite <- (Z.abs_eq den) at 1 by lia. rewrite <- (Z.abs_eq K) at 2 by lia. rewrite <- !Z.abs_mul. rewrite <- Z.abs_opp. f_equal.
    replace (- ((a * K - V * b) * den)) with (V * den * b - a * K * den) by ring. rewrite E. ring. }
  rewrite Z.abs_mul, (Z.abs_eq b) in G2 by lia.
  assert (0 < den * b) by nia.
  apply (Zmult_lt_0_le_reg_r _ _ (den * b)); [assumption|].
  replace (V * (den * b)) with (num * b * K) by (replace (V * (den * b)) with (V * den * b) by ring; rewrite E; ring).
  apply (Z.mul_le_mono_nonneg_r _ _ K ltac:(lia)) in C. apply (Z.mul_le_mono_nonneg_r _ _ den ltac:(lia)) in G2.
  set (u := Z.abs (T - V)) in *. set (v := Z.abs (a * K - V * b)) in *. set (w := Z.abs (num * b - a * den)) in *. clearbody u v w. lia.
Qed.

Lemma near_max : 179769313 * 10 ^ 300 < (2 ^ 53 - 1) * 2 ^ 971 /\ 2 * 2 ^ 1024 + 10 ^ 300 < 2 * 179769314 * 10 ^ 300 /\
  2 * 2 ^ 1024 < (2 * 10 ^ 8 - 1) * 10 ^ 301 /\ 10 ^ 9 * 10 ^ 299 < 179769313 * 10 ^ 300 /\ 10 ^ 9 < 179769313 * 10 ^ 300 /\ (2 ^ 53 - 1) * 2 ^ 971 < 2 ^ 1024.
Proof. repeat split; reflexivity. Qed.
Lemma decimal_max num den d y : 0 < num -> 0 < den -> num < 2 ^ 1024 * den -> 10 ^ 8 <= d < 10 ^ 9 -> half_unit num den d y ->
  d * 10 ^ Z.max 0 y <= (2 ^ 53 - 1) * 2 ^ 971 * 10 ^ Z.max 0 (- y).
Proof.
  intros Hn Hd H1 H2 H. destruct near_max as (M1 & M2 & M3 & M4 & M5 & _). unfold half_unit in H.
  set (B := (2 ^ 53 - 1) * 2 ^ 971) in *. set (E := 2 ^ 1024) in *.
  destruct (Z_lt_le_dec y 0) as [L|L].
  - rewrite (Z.max_l 0 y), Z.pow_0_r in * by lia. pose proof (pow10_pos (Z.max 0 (- y)) ltac:(lia)).
    set (t := 10 ^ 300) in *. set (b := 10 ^ Z.max 0 (- y)) in *. clearbody B t b.
    apply Z.le_trans with (B * 1); [lia|]. apply Z.mul_le_mono_nonneg_l; lia.
  - rewrite (Z.max_r 0 y), (Z.max_l 0 (- y)), Z.pow_0_r in * by lia. pose proof (pow10_pos y L).
    destruct (Z_lt_le_dec y 300) as [L1|L1].
    + assert (10 ^ y <= 10 ^ 299) by (apply Z.pow_le_mono_r; lia).
      set (t := 10 ^ 300) in *. set (t9 := 10 ^ 299) in *. set (p := 10 ^ y) in *. clearbody B t t9 p.
      apply Z.le_trans with (10 ^ 9 * t9); [apply Z.mul_le_mono_nonneg; lia|lia].
    + destruct (Z.eq_dec y 300) as [->|L2].
      * set (t := 10 ^ 300) in *. clearbody B t E.
        assert (Hd' : d <= 179769313).
        { apply Z.nlt_ge. intro G. assert (A1 : 2 * d * t * den <= 2 * num + t * den) by lia.
          assert (A2 : 2 * d * t < 2 * E + t) by (apply (Z.mul_lt_mono_pos_r den); lia).
          assert (2 * 179769314 * t <= 2 * d * t) by (apply Z.mul_le_mono_nonneg_r; lia). lia. }
        apply (Z.mul_le_mono_nonneg_r _ _ t ltac:(lia)) in Hd'. lia.
      * exfalso. pose proof (pow10_pos 301 ltac:(lia)). assert (10 ^ 301 <= 10 ^ y) by (apply Z.pow_le_mono_r; lia).
        set (t := 10 ^ 301) in *. set (p := 10 ^ y) in *. clearbody B t E p.
        assert (A1 : (2 * d - 1) * p * den <= 2 * num) by lia.
        assert (A2 : (2 * d - 1) * p < 2 * E) by (apply (Z.mul_lt_mono_pos_r den); lia).
        assert ((2 * 10 ^ 8 - 1) * t <= (2 * d - 1) * p) by (apply Z.mul_le_mono_nonneg; lia). lia.
Qed.

Lemma nine_exact num d x : 0 < num < 10 ^ 9 -> nine_digits num 1 = (d, x) -> num * 10 ^ Z.max 0 (- (x - 8)) = d * 10 ^ Z.max 0 (x - 8).
Proof.
  intros H E. unfold nine_digits in E. rewrite nearest_int_half in E. destruct (dlog_spec num 1 ltac:(lia) ltac:(lia)) as (A & _).
  destruct (dlog_nine num 1 ltac:(lia) ltac:(lia)) as (_ & _ & B). set (y := dlog num 1) in *. clearbody y. cbv zeta in *.
  assert (y <= 8).
  { apply Z.nlt_ge. intro L. rewrite (Z.max_r 0 y), (Z.max_l 0 (- y)), Z.pow_0_r in A by lia.
    assert (10 ^ 9 <= 10 ^ y) by (apply Z.pow_le_mono_r; lia). lia. }
  rewrite (Z.max_l 0 (y - 8)), Z.pow_0_r in * by lia. rewrite Z.mul_1_r in E, B.
  set (N := num * 10 ^ Z.max 0 (8 - y)) in *. replace (half_even N 1) with N in E by (rewrite <- (half_even_exact N 1) at 1 by lia; f_equal; lia).
  replace (N =? 10 ^ 9) with false in E by lia. injection E as <- <-.
  replace (- (y - 8)) with (8 - y) by lia. rewrite (Z.max_l 0 (y - 8)), Z.pow_0_r by lia. fold N. lia.
Qed.

Lemma spacing e q2 k n2 m : 0 <= e + k -> 0 <= q2 + k -> Z.abs n2 <= 2 ^ 24 -> 0 <= m <= 2 ^ 24 ->
  n2 * 2 ^ (q2 + k) = m * 2 ^ (e + k) \/ m * 2 ^ (e + k) <= (2 ^ 24 + 1) * Z.abs (n2 * 2 ^ (q2 + k) - m * 2 ^ (e + k)).
Proof.
  intros H1 H2 H3 H4. set (A := 2 ^ 24) in *. destruct (Z_le_gt_dec e q2) as [L|L].
  - replace (q2 + k) with (q2 - e + (e + k)) by lia. rewrite Z.pow_add_r, Z.mul_assoc by lia. pose proof (pow2_pos (e + k) H1).
    set (g := 2 ^ (e + k)) in *. set (u := n2 * 2 ^ (q2 - e)) in *. clearbody g u A.
    destruct (Z.eq_dec u m) as [->|D]; [now left|right]. rewrite <- Z.mul_sub_distr_r, Z.abs_mul, (Z.abs_eq g) by lia.
    rewrite Z.mul_assoc. apply Z.mul_le_mono_nonneg_r; [lia|]. nia.
  - replace (e + k) with (e - q2 + (q2 + k)) by lia. rewrite (Z.pow_add_r 2 (e - q2)), Z.mul_assoc by lia. pose proof (pow2_pos (q2 + k) H2).
    set (g := 2 ^ (q2 + k)) in *. assert (0 <= m * 2 ^ (e - q2)) by (pose proof (pow2_pos (e - q2) ltac:(lia)); nia).
    set (u := m * 2 ^ (e - q2)) in *. clearbody g u A.
    destruct (Z.eq_dec n2 u) as [->|D]; [now left|right]. rewrite <- Z.mul_sub_distr_r, Z.abs_mul, (Z.abs_eq g) by lia.
    rewrite Z.mul_assoc. apply Z.mul_le_mono_nonneg_r; [lia|]. nia.
Qed.

Lemma single_again s m e n f : is_single (FFin s m e) -> Z.odd (Zpos n) = true -> near (FFin s m e) (FFin s n f) -> round32 (FFin s n f) = FFin s m e.
Proof.
  intros (O & B & L & H) On (_ & N). apply (rounded_unique 24 (-149) 128 (mkNum (Zpos n) 1 f) s); [apply fround_rounded; [lia|exact On]|].
  exists (Zpos m), e. split; [lia|]. split.
  - split; [split; lia|]. intros n2 q2 k (F1 & F2) (U1 & U2 & U3). unfold gap. cbn [x_num x_den x_exp] in *. rewrite !Z.mul_1_r.
    specialize (N k U2 U1). destruct (spacing e q2 k n2 (Zpos m) U2 U3 F1 ltac:(lia)) as [E|E].
    + rewrite E. split; [lia|]. intros _. now left.
    + set (V := Zpos m * 2 ^ (e + k)) in *. set (T := Zpos n * 2 ^ (f + k)) in *. set (U := n2 * 2 ^ (q2 + k)) in *.
      assert (0 < V) by (unfold V; pose proof (pow2_pos _ U2); nia).
      change (2 ^ 24) with 16777216 in E. clearbody V T U. assert (2 * Z.abs (T - V) < Z.abs (U - V)) by lia. split; [lia|]. intros. exfalso. lia.
  - left. split.
    + right. exists m, e. split; [reflexivity|]. split; [exact O|]. split; [lia|]. now rewrite Z.sub_diag, Z.pow_0_r, Z.mul_1_r.
    + intros k K1 K2. destruct (Z_le_gt_dec 0 e) as [P|P].
      * specialize (H P). replace (e + k) with (e + k) by lia. destruct (Z_le_gt_dec 0 k) as [Q|Q].
        -- rewrite !Z.pow_add_r, Z.mul_assoc by lia. apply Z.mul_lt_mono_pos_r; [apply pow2_pos; lia|exact H].
        -- apply (Z.mul_lt_mono_pos_r (2 ^ (- k))); [apply pow2_pos; lia|]. rewrite <- Z.mul_assoc, <- !Z.pow_add_r by lia.
           replace (e + k + - k) with e by lia. replace (128 + k + - k) with 128 by lia. exact H.
      * apply Z.lt_le_trans with (2 ^ 24 * 2 ^ (e + k)); [apply Z.mul_lt_mono_pos_r; [apply pow2_pos; lia|exact B]|].
        rewrite <- Z.pow_add_r by lia. apply Z.pow_le_mono_r; lia.
Qed.

(** A finite number: what is read is finite, and near. *)
Lemma read_finite s m e d y w : is_double (FFin s m e) -> 10 ^ 8 <= d < 10 ^ 9 ->
  close (fst (parts (Zpos m) e)) (snd (parts (Zpos m) e)) d y -> half_unit (fst (parts (Zpos m) e)) (snd (parts (Zpos m) e)) d y ->
  rounded64 (dec_number d y) s w ->
  exists n f, w = FFin s n f /\ Z.odd (Zpos n) = true /\ near (FFin s m e) (FFin s n f) /\ -1074 <= f.
Proof.
  intros H Hd C HU (n & q & N0 & N & R). destruct H as (O & B & L & HB). pose proof (parts_range m e (conj O (conj B (conj L HB)))) as (R1 & R2).
  destruct (parts_pos (Zpos m) e ltac:(lia)) as (P1 & P2).
  destruct R as [(D & _)|(_ & Inf)].
  - destruct D as [(-> & ->)|(p & f & -> & Op & Lq & En)].
    + exfalso. pose proof (read_core m e d y 0 q (Z.abs q + Z.abs e) ltac:(lia) L C N ltac:(lia) ltac:(lia) ltac:(lia)) as X.
      rewrite Z.mul_0_l in X. pose proof (pow2_pos (e + (Z.abs q + Z.abs e)) ltac:(lia)). set (V := Zpos m * 2 ^ (e + (Z.abs q + Z.abs e))) in *.
      assert (0 < V) by (unfold V; nia). clearbody V. lia.
    + exists p, f. split; [reflexivity|]. split; [exact Op|]. split; [|destruct N as ((_ & N1) & _); lia]. split; [reflexivity|].
      intros k K1 K2. set (j := Z.abs q + Z.abs k).
      pose proof (read_core m e d y n q (k + j) ltac:(lia) L C N ltac:(lia) ltac:(lia) ltac:(lia)) as X.
      rewrite En in X. rewrite <- Z.mul_assoc, <- Z.pow_add_r in X by lia. replace (f - q + (q + (k + j))) with (f + k + j) in X by lia.
      replace (e + (k + j)) with (e + k + j) in X by lia. rewrite (Z.pow_add_r 2 (f + k)), (Z.pow_add_r 2 (e + k)), !Z.mul_assoc in X by lia.
      pose proof (pow2_pos j ltac:(lia)). rewrite <- Z.mul_sub_distr_r, Z.abs_mul, (Z.abs_eq (2 ^ j)) in X by lia.
      apply (Zmult_lt_0_le_reg_r _ _ (2 ^ j)); [assumption|]. lia.
  - exfalso. rewrite dec_number_parts in N. destruct N as (_ & N).
    pose proof (pow10_pos (Z.max 0 (- y)) ltac:(lia)) as PB.
    set (k := Z.abs q + Z.abs e). assert (K0 : 0 <= k) by lia. assert (K1 : 0 <= q + k) by lia. assert (K2 : 0 <= 1024 + k) by lia. assert (K3 : 0 <= 971 + k) by lia.
    clearbody k. pose proof (decimal_max _ _ _ _ P1 P2 R1 Hd HU) as M. clear O B L HB C HU R1 R2 P1 P2 Hd. destruct (N (2 ^ 53 - 1) 971 k) as (G & _).
    { clear. split; lia. }
    { repeat split; assumption. }
    specialize (Inf k K1 K2). unfold gap in G. cbn [x_num x_den x_exp] in G. rewrite Z.add_0_l in G.
    rewrite (Z.pow_add_r 2 971 k ltac:(clear; lia) K0) in G. rewrite (Z.pow_add_r 2 1024 k ltac:(clear; lia) K0) in Inf. pose proof (pow2_pos k K0) as PK.
    destruct near_max as (_ & _ & _ & _ & _ & MX).
    replace (n * 10 ^ Z.max 0 (- y) * 2 ^ (q + k)) with (n * 2 ^ (q + k) * 10 ^ Z.max 0 (- y)) in G by ring.
    replace ((2 ^ 53 - 1) * 10 ^ Z.max 0 (- y) * (2 ^ 971 * 2 ^ k)) with ((2 ^ 53 - 1) * 2 ^ 971 * 10 ^ Z.max 0 (- y) * 2 ^ k) in G by ring.
    set (a := d * 10 ^ Z.max 0 y) in *. set (b := 10 ^ Z.max 0 (- y)) in *. set (T := n * 2 ^ (q + k)) in *. set (K := 2 ^ k) in *.
    set (X := (2 ^ 53 - 1) * 2 ^ 971) in *. set (E := 2 ^ 1024) in *. clearbody a b T K X E. clear - G Inf M MX PK PB.
    assert (A1 : a * K <= X * b * K) by (apply Z.mul_le_mono_nonneg_r; lia).
    assert (A2 : X * K * b < E * K * b) by (apply Z.mul_lt_mono_pos_r; [lia|]; apply Z.mul_lt_mono_pos_r; lia).
    assert (A3 : E * K * b <= T * b) by (apply Z.mul_le_mono_nonneg_r; lia). lia.
Qed.

(** Whole numbers. *)
Lemma whole_parts s m e n : f_of_Z n = FFin s m e -> 0 <= e /\ Zpos m * 2 ^ e = Z.abs n.
Proof.
  unfold f_of_Z. destruct n as [|p|p]; [discriminate| |].
  - destruct (fmk_fin false p 0) as (m' & e' & -> & _ & L & E). intros [= <- <- <-]. rewrite Z.sub_0_r in E. split; [lia|]. rewrite <- E. reflexivity.
  - destruct (fmk_fin true p 0) as (m' & e' & -> & _ & L & E). intros [= <- <- <-]. rewrite Z.sub_0_r in E. split; [lia|]. rewrite <- E. reflexivity.
Qed.
Lemma exact_again s m e d y w : Z.odd (Zpos m) = true -> Zpos m < 2 ^ 53 -> -1074 <= e -> Zpos m * 2 ^ e < 2 ^ 1024 -> 0 <= e ->
  Zpos m * 2 ^ e * 10 ^ Z.max 0 (- y) = d * 10 ^ Z.max 0 y -> rounded64 (dec_number d y) s w -> w = FFin s m e.
Proof.
  intros O B L HB He E R. apply (rounded_unique 53 (-1074) 1024 (dec_number d y) s); [exact R|].
  exists (Zpos m), e. split; [lia|]. split.
  - split; [split; lia|]. intros n2 q2 k _ (U1 & U2 & U3). rewrite dec_number_parts in *. unfold gap. cbn [x_num x_den x_exp] in *.
    replace (d * 10 ^ Z.max 0 y * 2 ^ (0 + k)) with (Zpos m * 10 ^ Z.max 0 (- y) * 2 ^ (e + k)) by (rewrite <- E, Z.add_0_l, Z.pow_add_r by lia; ring).
    rewrite Z.sub_diag. pose proof (pow10_pos (Z.max 0 (- y)) ltac:(lia)) as PB. split; [cbn [Z.abs]; apply Z.abs_nonneg|]. intros G. left.
    symmetry in G. apply Z.abs_0_iff in G. apply (Z.mul_reg_r _ _ (10 ^ Z.max 0 (- y))); lia.
  - left. split.
    + right. exists m, e. split; [reflexivity|]. split; [exact O|]. split; [lia|]. now rewrite Z.sub_diag, Z.pow_0_r, Z.mul_1_r.
    + intros k K1 K2. destruct (Z_le_gt_dec 0 k) as [Q|Q].
      * rewrite !Z.pow_add_r, Z.mul_assoc by lia. apply Z.mul_lt_mono_pos_r; [apply pow2_pos; lia|exact HB].
      * apply (Z.mul_lt_mono_pos_r (2 ^ (- k))); [apply pow2_pos; lia|]. rewrite <- Z.mul_assoc, <- !Z.pow_add_r by lia.
        replace (e + k + - k) with e by lia. replace (1024 + k + - k) with 1024 by lia. exact HB.
Qed.

Theorem format_again v : is_double v -> exists w, enc_num Fmt (format_e8 v) w /\ same_number v w.
Proof.
  destruct v as [|s|s|s m e]; try contradiction; intros H.
  - exists (FZero s). split.
    + constructor; [apply rjust_length, sci_length|]. exists s, 0, (0 - 8). split; [apply sci_field; lia|].
      pose proof (dec_to_flt_rounded s 0 (0 - 8) ltac:(lia)) as R. exact R.
    + split; [reflexivity|]. split; [reflexivity|]. intros n _ E. destruct n as [|p|p]; cbn [f_of_Z] in E; [reflexivity| |];
        destruct (fmk_fin false p 0) as (? & ? & F1 & _); destruct (fmk_fin true p 0) as (? & ? & F2 & _); congruence.
  - destruct (format_field s m e H) as (d & y & F & Hd & C & HU & Len & E9).
    pose proof (dec_to_flt_rounded s d y ltac:(lia)) as R. set (w := dec_to_flt s d y) in *. clearbody w.
    exists w. split; [constructor; [exact Len|]; exists s, d, y; now split|].
    destruct (read_finite s m e d y w H Hd C HU R) as (n & f & -> & On & N & _). split; [exact N|]. split.
    + intros Hs. exact (single_again s m e n f Hs On N).
    + intros z Hz E. destruct (whole_parts s m e z (eq_sym E)) as (He & Ez). destruct H as (O & B & L & HB).
      apply (exact_again s m e d y _ O B L (HB He) He); [|exact R].
      unfold parts in E9. replace (0 <=? e) with true in E9 by lia. cbn [fst snd] in E9. pose proof (pow2_pos e He).
      assert (P : 0 < Zpos m * 2 ^ e < 10 ^ 9) by (split; [nia|lia]).
      pose proof (nine_exact _ _ _ P E9) as X. replace (y + 8 - 8) with y in X by lia. exact X.
Qed.
