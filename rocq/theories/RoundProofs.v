(** * RoundProofs: rounding gives the nearest number *)
From Verif Require Import Base Flt FltProofs RoundSpec.
From Coq Require Import ZifyBool.
Open Scope Z_scope.

(* ---- the nearest integer ---- *)
Definition half_even (N D : Z) : Z :=
  let n := N / D in let r := N mod D in
  if 2 * r <? D then n else if D <? 2 * r then n + 1 else if Z.even n then n else n + 1.
Lemma near_int N D z : 0 < D -> let n := half_even N D in
  Z.abs (N - n * D) <= Z.abs (N - z * D) /\
  (Z.abs (N - n * D) = Z.abs (N - z * D) -> n = z \/ Z.even n = true /\ (z = n + 1 \/ z = n - 1)).
Proof.
  intros HD. unfold half_even. cbv zeta. pose proof (Z.div_mod N D ltac:(lia)) as E. pose proof (Z.mod_pos_bound N D HD) as B.
  set (n := N / D) in *. set (r := N mod D) in *.
  assert (X : forall a, N - a * D = r + (n - a) * D) by (intros; lia). rewrite !X.
  assert (Y : z <= n - 1 \/ z = n \/ z = n + 1 \/ n + 2 <= z) by lia.
  assert (P : forall a, a <= n - 1 -> D <= (n - a) * D) by (intros; nia).
  assert (Q : forall a, n + 2 <= a -> (n - a) * D <= - 2 * D) by (intros; nia).
  assert (Se : Z.even (n + 1) = negb (Z.even n)) by (rewrite Z.add_1_r, Z.even_succ, <- Z.negb_even; reflexivity).
  destruct (2 * r <? D) eqn:C1; [|destruct (D <? 2 * r) eqn:C2; [|destruct (Z.even n) eqn:C3]].
  - replace (n - n) with 0 by lia. destruct Y as [Y|[->|[->|Y]]].
    + specialize (P _ Y). lia.
    + replace (n - n) with 0 by lia. split; [lia|now left].
    + replace (n - (n + 1)) with (-1) by lia. lia.
    + specialize (Q _ Y). lia.
  - replace (n - (n + 1)) with (-1) by lia. destruct Y as [Y|[->|[->|Y]]].
    + specialize (P _ Y). lia.
    + replace (n - n) with 0 by lia. lia.
    + replace (n - (n + 1)) with (-1) by lia. split; [lia|now left].
    + specialize (Q _ Y). lia.
  - replace (n - n) with 0 by lia. destruct Y as [Y|[->|[->|Y]]].
    + specialize (P _ Y). lia.
    + replace (n - n) with 0 by lia. split; [lia|now left].
    + replace (n - (n + 1)) with (-1) by lia. split; [lia|]. right. split; [exact C3|lia].
    + specialize (Q _ Y). lia.
  - replace (n - (n + 1)) with (-1) by lia. rewrite Se. destruct Y as [Y|[->|[->|Y]]].
    + specialize (P _ Y). lia.
    + replace (n - n) with 0 by lia. split; [lia|]. right. split; [reflexivity|lia].
    + replace (n - (n + 1)) with (-1) by lia. split; [lia|now left].
    + specialize (Q _ Y). lia.
Qed.
Lemma half_even_bounds N D : 0 < D -> N / D <= half_even N D <= N / D + 1.
Proof. intros H. unfold half_even. cbv zeta. destruct (_ <? _); [|destruct (_ <? _); [|destruct (Z.even _)]]; lia. Qed.

(* ---- nearest ---- *)
Lemma pow2_pos a : 0 <= a -> 0 < 2 ^ a. Proof. intros. apply Z.pow_pos_nonneg; lia. Qed.
Lemma nearest_intro prec emin x q N D : 1 <= prec -> 0 < D -> 0 < x_den x -> 0 <= N -> emin <= q ->
  (forall k, 0 <= x_exp x + k -> 0 <= q + k -> x_num x * 2 ^ (x_exp x + k) * D = N * x_den x * 2 ^ (q + k)) ->
  (q = emin \/ 2 ^ (prec - 1) <= N / D) -> N / D < 2 ^ prec -> nearest prec emin x (half_even N D) q.
Proof.
  intros Hp HD Hd HN Hq HX HB HL. set (n := half_even N D). pose proof (half_even_bounds N D HD) as HH. fold n in HH.
  assert (0 <= N / D) as H0 by (apply Z.div_pos; lia).
  split; [split; [lia|exact Hq]|]. intros n2 q2 k (F1 & F2) (U1 & U2 & U3). specialize (HX k U1 U2).
  pose proof (pow2_pos _ U2) as P1. pose proof (pow2_pos _ U3) as P2. set (w := 2 ^ (q + k)) in *.
  assert (DW : 0 < x_den x * w) by nia.
  assert (G : forall v, D * Z.abs (x_num x * 2 ^ (x_exp x + k) - v * x_den x * w) = x_den x * w * Z.abs (N - v * D)).
  { intros v. rewrite <- (Z.abs_eq D) at 1 by lia. rewrite <- (Z.abs_eq (x_den x * w)) by lia. rewrite <- !Z.abs_mul. f_equal.
    transitivity (x_num x * 2 ^ (x_exp x + k) * D - v * x_den x * w * D); [ring|]. rewrite HX. ring. }
  assert (V : forall z, n2 * 2 ^ (q2 + k) = z * w ->
     gap k x n q <= gap k x n2 q2 /\ (gap k x n q = gap k x n2 q2 -> n * w = n2 * 2 ^ (q2 + k) \/
       Z.even n = true /\ (n2 * 2 ^ (q2 + k) = (n + 1) * w \/ n2 * 2 ^ (q2 + k) = (n - 1) * w))).
  { intros z Hz. unfold gap. fold w. replace (n2 * x_den x * 2 ^ (q2 + k)) with (z * x_den x * w) by (transitivity (x_den x * (z * w)); [ring|]; rewrite <- Hz; ring).
    destruct (near_int N D z HD) as (A & B). fold n in A, B. pose proof (G n) as Gn. pose proof (G z) as Gz. split.
    - apply (Z.mul_le_mono_pos_l _ _ D HD). rewrite Gn, Gz. apply Z.mul_le_mono_nonneg_l; lia.
    - intros E. rewrite E, Gz in Gn. apply Z.mul_reg_l in Gn; [|lia]. destruct (B (eq_sym Gn)) as [->|(C1 & C2)]; [left; congruence|].
      right. split; [exact C1|]. rewrite Hz. destruct C2 as [->| ->]; [now left|now right]. }
  destruct (Z_lt_le_dec q2 q) as [L|L].
  - destruct HB as [HB|HB]; [lia|].
    assert (T : n2 * 2 ^ (q2 + k) <= 2 ^ (prec - 1) * w).
    { apply Z.le_trans with (2 ^ prec * 2 ^ (q2 + k)); [apply Z.mul_le_mono_nonneg_r; lia|].
      unfold w. rewrite <- !Z.pow_add_r by lia. apply Z.pow_le_mono_r; lia. }
    assert (M : 2 ^ (prec - 1) * w <= N / D * w) by (apply Z.mul_le_mono_nonneg_r; lia).
    pose proof (Z.mul_div_le N D HD) as FL.
    destruct (Z.eq_dec (n2 * 2 ^ (q2 + k)) (N / D * w)) as [E|NE]; [exact (V _ E)|].
    assert (S : n2 * 2 ^ (q2 + k) < N / D * w) by lia.
    destruct (near_int N D (N / D) HD) as (A & _). fold n in A.
    assert (X : gap k x n q < gap k x n2 q2).
    { apply (Z.mul_lt_mono_pos_l D _ _ HD). unfold gap. fold w. rewrite G.
      apply Z.le_lt_trans with (x_den x * w * (N - N / D * D)); [apply Z.mul_le_mono_nonneg_l; lia|].
      assert (AD : forall v, D * Z.abs v = Z.abs (D * v)) by (intros; rewrite Z.abs_mul, (Z.abs_eq D) by lia; reflexivity). rewrite AD.
      replace (D * (x_num x * 2 ^ (x_exp x + k) - n2 * x_den x * 2 ^ (q2 + k))) with (x_den x * (N * w - D * (n2 * 2 ^ (q2 + k))))
        by (transitivity (N * x_den x * w - x_den x * D * (n2 * 2 ^ (q2 + k))); [ring|]; rewrite <- HX; ring).
      assert (LT : D * (n2 * 2 ^ (q2 + k)) < D * (N / D * w)) by (apply Z.mul_lt_mono_pos_l; lia).
      assert (LE : D * (N / D) * w <= N * w) by (apply Z.mul_le_mono_nonneg_r; lia).
      rewrite Z.abs_eq by (apply Z.mul_nonneg_nonneg; lia).
      replace (x_den x * w * (N - N / D * D)) with (x_den x * (N * w - D * (N / D * w))) by ring. apply Z.mul_lt_mono_pos_l; lia. }
    lia.
  - apply (V (n2 * 2 ^ (q2 - q))). unfold w. rewrite <- Z.mul_assoc, <- Z.pow_add_r by lia. do 2 f_equal. lia.
Qed.
(** Only one number is nearest. *)
Lemma nearest_unique prec emin x n1 q1 n2 q2 k : nearest prec emin x n1 q1 -> nearest prec emin x n2 q2 -> units k x q1 q2 ->
  n1 * 2 ^ (q1 + k) = n2 * 2 ^ (q2 + k).
Proof.
  intros (F1 & N1) (F2 & N2) (U1 & U2 & U3). destruct (N1 n2 q2 k F2 (conj U1 (conj U2 U3))) as (A1 & B1).
  destruct (N2 n1 q1 k F1 (conj U1 (conj U3 U2))) as (A2 & B2).
  destruct B1 as [B1|(E1 & B1)]; [lia|exact B1|]. destruct B2 as [B2|(E2 & B2)]; [lia|congruence|].
  pose proof (pow2_pos _ U2). pose proof (pow2_pos _ U3).
  assert (W : 2 ^ (q1 + k) = 2 ^ (q2 + k)) by lia. exfalso. rewrite W in *. clear W.
  assert (n2 = n1 + 1 \/ n2 = n1 - 1) as [->| ->] by (destruct B1 as [B1|B1]; apply Z.mul_reg_r in B1; lia).
  - rewrite Z.add_1_r, Z.even_succ, <- Z.negb_even, E1 in E2. discriminate.
  - rewrite Z.sub_1_r, Z.even_pred, <- Z.negb_even, E1 in E2. discriminate.
Qed.

(* ---- values ---- *)
Lemma fmk_dyadic s p q : is_dyadic (fmk s p q) s (Zpos p) q.
Proof. right. destruct (fmk_fin s p q) as (m & e & E & O & L & H). exists m, e. auto. Qed.
Lemma is_dyadic_unique f g s n1 q1 n2 q2 k : 0 <= q1 + k -> 0 <= q2 + k -> n1 * 2 ^ (q1 + k) = n2 * 2 ^ (q2 + k) ->
  is_dyadic f s n1 q1 -> is_dyadic g s n2 q2 -> f = g.
Proof.
  intros H1 H2 E. pose proof (pow2_pos _ H1). pose proof (pow2_pos _ H2).
  intros [(-> & ->)|(m1 & e1 & -> & O1 & L1 & ->)] [(-> & ->)|(m2 & e2 & -> & O2 & L2 & ->)]; [reflexivity| | |].
  - pose proof (pow2_pos (e2 - q2) ltac:(lia)). nia.
  - pose proof (pow2_pos (e1 - q1) ltac:(lia)). nia.
  - rewrite <- !Z.mul_assoc, <- !Z.pow_add_r in E by lia. apply odd_pow_unique in E as (E & X); try assumption; try lia.
    injection E as ->. f_equal. lia.
Qed.
(** Rounding has one result. *)
Theorem rounded_unique prec emin emax x s f g : rounded prec emin emax x s f -> rounded prec emin emax x s g -> f = g.
Proof.
  intros (n1 & q1 & _ & N1 & R1) (n2 & q2 & _ & N2 & R2). set (k := Z.abs q1 + Z.abs q2 + Z.abs emax + Z.abs (x_exp x)).
  assert (U : units k x q1 q2) by (unfold units; lia). pose proof (nearest_unique _ _ _ _ _ _ _ _ N1 N2 U) as E.
  destruct R1 as [(D1 & B1)|(-> & B1)], R2 as [(D2 & B2)|(-> & B2)].
  - destruct U as (U1 & U2 & U3). exact (is_dyadic_unique _ _ _ _ _ _ _ k U2 U3 E D1 D2).
  - specialize (B1 k ltac:(lia) ltac:(lia)). specialize (B2 k ltac:(lia) ltac:(lia)). lia.
  - specialize (B1 k ltac:(lia) ltac:(lia)). specialize (B2 k ltac:(lia) ltac:(lia)). lia.
  - reflexivity.
Qed.
Lemma below_pow p q emax k : nbits p + q <= emax -> 0 <= q + k -> 0 <= emax + k -> Zpos p * 2 ^ (q + k) < 2 ^ (emax + k).
Proof.
  intros H Hq He. pose proof (nbits_bound p) as (_ & B). pose proof (nbits_pos p). pose proof (pow2_pos _ Hq).
  apply Z.lt_le_trans with (2 ^ nbits p * 2 ^ (q + k)); [nia|]. rewrite <- Z.pow_add_r by lia. apply Z.pow_le_mono_r; lia.
Qed.
Lemma above_pow p q emax k : emax < nbits p + q -> 0 <= q + k -> 0 <= emax + k -> 2 ^ (emax + k) <= Zpos p * 2 ^ (q + k).
Proof.
  intros H Hq He. pose proof (nbits_bound p) as (B & _). pose proof (nbits_pos p). pose proof (pow2_pos _ Hq).
  apply Z.le_trans with (2 ^ (nbits p - 1) * 2 ^ (q + k)); [|nia]. rewrite <- Z.pow_add_r by lia. apply Z.pow_le_mono_r; lia.
Qed.
(** The end of [fround]. *)
Definition finish (emax : Z) (s : bool) (q n : Z) : flt :=
  match n with Zpos p => if emax <? nbits p + q then FInf s else fmk s p q | _ => FZero s end.
Lemma finish_rounded prec emin emax x s q n : 0 <= n -> nearest prec emin x n q -> rounded prec emin emax x s (finish emax s q n).
Proof.
  intros H0 HN. exists n, q. split; [exact H0|]. split; [exact HN|]. unfold finish. destruct n as [|p|p]; [| |lia].
  - left. split; [now left|]. intros k Hq He. pose proof (pow2_pos _ He). lia.
  - destruct (emax <? nbits p + q) eqn:E.
    + right. split; [reflexivity|]. intros k Hq He. apply above_pow; lia.
    + left. split; [apply fmk_dyadic|]. intros k Hq He. apply below_pow; lia.
Qed.
Lemma half_even_pow m sh : 1 <= sh -> half_even m (2 ^ sh) =
  (let n := Z.shiftr m sh in let r := m - Z.shiftl n sh in let half := Z.shiftl 1 (sh - 1) in
   if r <? half then n else if half <? r then n + 1 else if Z.even n then n else n + 1).
Proof.
  intros H. unfold half_even. cbv zeta. rewrite Z.shiftr_div_pow2, !Z.shiftl_mul_pow2, Z.mul_1_l by lia.
  pose proof (pow2_pos sh ltac:(lia)) as P. pose proof (Z.div_mod m (2 ^ sh) ltac:(lia)) as E.
  assert (D : 2 ^ sh = 2 * 2 ^ (sh - 1)) by (rewrite <- Z.pow_succ_r by lia; f_equal; lia).
  replace (m - m / 2 ^ sh * 2 ^ sh) with (m mod 2 ^ sh) by lia.
  set (r := m mod 2 ^ sh) in *. clearbody r. replace (2 * r <? 2 ^ sh) with (r <? 2 ^ (sh - 1)) by lia.
  replace (2 ^ sh <? 2 * r) with (2 ^ (sh - 1) <? r) by lia. reflexivity.
Qed.
(** [fround] of [m * 2 ^ e], for any number [x] with the same digits down to
    the last but one that counts. *)
Lemma fround_finish prec emin emax s m e : let q := Z.max (nbits m + e - prec) emin in
  e < q -> fround prec emin emax (FFin s m e) = finish emax s q (half_even (Zpos m) (2 ^ (q - e))).
Proof.
  cbv zeta. intros H. unfold fround. cbv zeta. replace (_ <=? e) with false by lia. rewrite half_even_pow by lia. reflexivity.
Qed.
Lemma fround_rounded prec emin emax s m e : 1 <= prec -> Z.odd (Zpos m) = true ->
  rounded prec emin emax (mkNum (Zpos m) 1 e) s (fround prec emin emax (FFin s m e)).
Proof.
  intros Hp Ho. destruct (Z_lt_le_dec e (Z.max (nbits m + e - prec) emin)) as [L|L].
  - rewrite fround_finish by exact L. set (q := Z.max (nbits m + e - prec) emin) in *.
    pose proof (pow2_pos (q - e) ltac:(lia)) as P. pose proof (nbits_bound m) as B. pose proof (nbits_pos m).
    apply finish_rounded.
    + pose proof (half_even_bounds (Zpos m) (2 ^ (q - e)) P). assert (0 <= Zpos m / 2 ^ (q - e)) by (apply Z.div_pos; lia). lia.
    + apply nearest_intro; cbn [x_num x_den x_exp]; try lia.
      * intros k H1 H2. rewrite Z.mul_1_r, <- Z.mul_assoc, <- Z.pow_add_r by lia. do 2 f_equal. lia.
      * destruct (Z_lt_le_dec emin q) as [Lq|Lq]; [right|left; lia].
        apply Z.div_le_lower_bound; [exact P|]. rewrite <- Z.pow_add_r by lia. replace (q - e + (prec - 1)) with (nbits m - 1) by lia. lia.
      * apply Z.div_lt_upper_bound; [exact P|]. rewrite <- Z.pow_add_r by lia.
        apply Z.lt_le_trans with (2 ^ nbits m); [lia|]. apply Z.pow_le_mono_r; lia.
  - unfold fround. cbv zeta. replace (_ <=? e) with true by lia. pose proof (nbits_bound m) as B. pose proof (nbits_pos m).
    assert (N : nearest prec emin (mkNum (Zpos m) 1 e) (Zpos m) e).
    { assert (F : 2 ^ nbits m <= 2 ^ prec) by (apply Z.pow_le_mono_r; lia). split; [split; lia|].
      intros n2 q2 k _ (U1 & U2 & U3). cbn [x_exp] in *. unfold gap. cbn [x_num x_den x_exp]. rewrite !Z.mul_1_r.
      replace (Zpos m * 2 ^ (e + k) - Zpos m * 2 ^ (e + k)) with 0 by lia. split; [lia|]. intros E. left. lia. }
    exists (Zpos m), e. split; [lia|]. split; [exact N|]. destruct (emax <? nbits m + e) eqn:E.
    + right. split; [reflexivity|]. intros k Hq He. apply above_pow; lia.
    + left. split; [|intros k Hq He; apply below_pow; lia]. right. exists m, e. rewrite Z.sub_diag, Z.mul_1_r. repeat split; trivial; lia.
Qed.

(* ---- decimal numbers ---- *)
Lemma half_even_scale a b c : 0 < b -> 0 < c -> half_even (a * c) (b * c) = half_even a b.
Proof.
  intros Hb Hc. unfold half_even. cbv zeta. rewrite Z.div_mul_cancel_r, Z.mul_mod_distr_r by lia.
  set (r := a mod b). replace (2 * (r * c) <? b * c) with (2 * r <? b) by (destruct (2 * r <? b) eqn:E; symmetry; [apply Z.ltb_lt|apply Z.ltb_ge]; nia).
  replace (b * c <? 2 * (r * c)) with (b <? 2 * r) by (destruct (b <? 2 * r) eqn:E; symmetry; [apply Z.ltb_lt|apply Z.ltb_ge]; nia). reflexivity.
Qed.
Lemma half_even_exact a b : 0 < b -> half_even (a * b) b = a.
Proof. intros H. unfold half_even. cbv zeta. rewrite Z.mod_mul, Z.div_mul by lia. now replace (2 * 0 <? b) with true by lia. Qed.
Lemma nbits_mul p m j : 0 <= j -> Zpos p = Zpos m * 2 ^ j -> nbits p = nbits m + j.
Proof. intros Hj E. rewrite !nbits_log2, E, Z.log2_mul_pow2 by lia. lia. Qed.
Lemma fround_fmk prec emin emax s p e : let q := Z.max (nbits p + e - prec) emin in
  e < q -> fround prec emin emax (fmk s p e) = finish emax s q (half_even (Zpos p) (2 ^ (q - e))).
Proof.
  cbv zeta. intros H. destruct (fmk_fin s p e) as (m & e' & E & O & L & HP). rewrite E. pose proof (nbits_mul p m (e' - e) ltac:(lia) HP) as NB.
  set (q := Z.max (nbits p + e - prec) emin) in *. assert (Q : q = Z.max (nbits m + e' - prec) emin) by lia.
  pose proof (pow2_pos (e' - e) ltac:(lia)) as P1.
  destruct (Z_lt_le_dec e' q) as [L2|L2].
  - rewrite fround_finish by lia. rewrite <- Q. f_equal. rewrite HP. replace (q - e) with ((q - e') + (e' - e)) by lia.
    rewrite Z.pow_add_r by lia. rewrite half_even_scale; [reflexivity|apply pow2_pos; lia|lia].
  - unfold fround. cbv zeta. rewrite <- Q. replace (q <=? e') with true by lia.
    replace (Zpos p) with (Zpos m * 2 ^ (e' - q) * 2 ^ (q - e)) by (rewrite HP, <- Z.mul_assoc, <- Z.pow_add_r by lia; do 2 f_equal; lia).
    rewrite half_even_exact by (apply pow2_pos; lia). unfold finish.
    destruct (Zpos m * 2 ^ (e' - q)) as [|c|c] eqn:C; [pose proof (pow2_pos (e' - q) ltac:(lia)); lia| |pose proof (pow2_pos (e' - q) ltac:(lia)); lia].
    rewrite (nbits_mul c m (e' - q)) by (lia || congruence). replace (nbits m + (e' - q) + q) with (nbits m + e') by lia.
    destruct (_ <? _); [reflexivity|]. symmetry. apply fmk_spec; [exact O|lia|congruence].
Qed.
(** The digits of [m / d] down to [2 ^ (- sh)], and whether more follow. *)
Lemma half_even_sticky q d r j : 0 <= q -> 0 < d -> 0 <= r < d -> 1 <= j ->
  half_even (2 * q + (if r =? 0 then 0 else 1)) (2 ^ (j + 1)) = half_even (q * d + r) (d * 2 ^ j).
Proof.
  intros Hq Hd Hr Hj. unfold half_even. cbv zeta. pose proof (pow2_pos j ltac:(lia)) as P.
  assert (PJ : 2 ^ j = 2 * 2 ^ (j - 1)) by (rewrite <- Z.pow_succ_r by lia; f_equal; lia).
  rewrite Z.pow_add_r by lia. change (2 ^ 1) with 2. set (st := if r =? 0 then 0 else 1). assert (0 <= st <= 1) by (unfold st; destruct (r =? 0); lia).
  pose proof (Z.div_mod q (2 ^ j) ltac:(lia)) as E. pose proof (Z.mod_pos_bound q (2 ^ j) P) as B.
  set (n := q / 2 ^ j) in *. set (u := q mod 2 ^ j) in *. set (h := 2 ^ (j - 1)) in *.
  assert (A1 : (2 * q + st) / (2 ^ j * 2) = n /\ (2 * q + st) mod (2 ^ j * 2) = 2 * u + st).
  { split; [symmetry; apply (Z.div_unique_pos _ _ _ (2 * u + st)); lia|symmetry; apply (Z.mod_unique_pos _ _ n); lia]. }
  assert (A2 : (q * d + r) / (d * 2 ^ j) = n /\ (q * d + r) mod (d * 2 ^ j) = u * d + r).
  { assert (0 <= u * d + r < d * 2 ^ j) by nia. assert (q * d + r = d * 2 ^ j * n + (u * d + r)) by (rewrite E; ring).
    split; [symmetry; apply (Z.div_unique_pos _ _ _ (u * d + r)); lia|symmetry; apply (Z.mod_unique_pos _ _ n); lia]. }
  destruct A1 as (-> & ->). destruct A2 as (-> & ->).
  replace (2 * (u * d + r) <? d * 2 ^ j) with (2 * (2 * u + st) <? 2 ^ j * 2).
  2:{ rewrite PJ. unfold st. destruct (Z_lt_le_dec u h).
      - assert (u * d + r < h * d) by nia. replace (2 * (u * d + r) <? d * (2 * h)) with true by lia. destruct (r =? 0); lia.
      - assert (h * d <= u * d) by nia. replace (2 * (u * d + r) <? d * (2 * h)) with false by lia. destruct (r =? 0); lia. }
  replace (d * 2 ^ j <? 2 * (u * d + r)) with (2 ^ j * 2 <? 2 * (2 * u + st)); [reflexivity|].
  rewrite PJ. unfold st. destruct (Z_lt_le_dec u h); [|destruct (Z.eq_dec u h) as [->|]].
  - assert (u * d + r < h * d) by nia. replace (d * (2 * h) <? 2 * (u * d + r)) with false by lia. destruct (r =? 0); lia.
  - replace (d * (2 * h) <? 2 * (h * d + r)) with (0 <? r) by lia. destruct (r =? 0) eqn:R; lia.
  - assert (h * d + d <= u * d) by nia. replace (d * (2 * h) <? 2 * (u * d + r)) with true by lia. destruct (r =? 0); lia.
Qed.
Lemma zero_rounded prec emin emax d s : 0 <= prec -> 0 < d -> rounded prec emin emax (mkNum 0 d 0) s (FZero s).
Proof.
  intros Hp Hd. exists 0, (Z.max emin 0). split; [lia|]. split.
  - split; [split; [pose proof (pow2_pos prec Hp); lia|lia]|]. intros n2 q2 k F (U1 & U2 & U3). unfold gap. cbn [x_num x_den x_exp] in *.
    rewrite !Z.mul_0_l. split; [lia|]. intros E. left. pose proof (pow2_pos _ U3). assert (n2 = 0) by nia. lia.
  - left. split; [now left|]. intros k _ He. pose proof (pow2_pos _ He). lia.
Qed.
Lemma rounded_shift prec emin emax m d e j s f : 0 <= j -> rounded prec emin emax (mkNum m d (e + j)) s f -> rounded prec emin emax (mkNum (m * 2 ^ j) d e) s f.
Proof.
  intros Hj (n & q & H0 & (F & H) & R). exists n, q. split; [exact H0|]. split; [|exact R]. split; [exact F|]. intros n2 q2 k F2 (U1 & U2 & U3). cbn [x_exp] in U1.
  assert (G : forall a b, gap k (mkNum (m * 2 ^ j) d e) a b = gap k (mkNum m d (e + j)) a b).
  { intros a b. unfold gap. cbn [x_num x_den x_exp]. do 2 f_equal. rewrite <- Z.mul_assoc, <- Z.pow_add_r by lia. do 2 f_equal. lia. }
  rewrite !G. apply H; [exact F2|]. unfold units. cbn [x_exp]. lia.
Qed.
Lemma dec_core s p d sh N q k st Q : 0 < d -> 0 <= sh -> N = Zpos p * 2 ^ sh -> 0 <= N -> q = N / d -> 0 <= st <= 1 -> 2 * q + st = Zpos k -> 1 <= Q + sh -> -1074 <= Q ->
  nbits k <= 54 + (Q + sh) -> (Q = -1074 \/ Q + sh + 1 + (53 - 1) = nbits k - 1) -> 2 ^ (nbits k - 1) <= Zpos k < 2 ^ nbits k ->
  rounded64 (mkNum (Zpos p) d 0) s (finish 1024 s Q (half_even N (d * 2 ^ (Q + sh)))).
Proof.
  intros Hd Hsh EN HN Eq Hst K HQ1 HQ2 HQ3 HQ4 BK. pose proof (pow2_pos (Q + sh) ltac:(lia)) as PD.
  assert (0 < d * 2 ^ (Q + sh)) as DD by (apply Z.mul_pos_pos; assumption).
  pose proof (pow2_pos (Q + sh + 1) ltac:(lia)) as PD1.
  assert (FL : N / (d * 2 ^ (Q + sh)) = Zpos k / 2 ^ (Q + sh + 1)).
  { rewrite <- Z.div_div by lia. rewrite <- Eq, <- K, (Z.pow_add_r 2 (Q + sh) 1), (Z.mul_comm _ (2 ^ 1)) by lia. change (2 ^ 1) with 2. rewrite <- Z.div_div by lia.
    f_equal. apply (Z.div_unique_pos _ _ _ st); lia. }
  assert (BL : N / (d * 2 ^ (Q + sh)) < 2 ^ 53).
  { rewrite FL. clear FL. apply Z.div_lt_upper_bound; [exact PD1|]. rewrite <- Z.pow_add_r by lia. apply Z.lt_le_trans with (2 ^ nbits k); [apply BK|]. apply Z.pow_le_mono_r; lia. }
  assert (N0 : 0 <= N / (d * 2 ^ (Q + sh))) by (apply Z.div_pos; assumption).
  apply finish_rounded.
  - eapply Z.le_trans; [exact N0|]. apply (half_even_bounds N _ DD).
  - apply nearest_intro; cbn [x_num x_den x_exp]; try assumption; try (clear; lia).
    + intros i H1 H2. rewrite Z.add_0_l in *. subst N. clear - Hsh HQ1 H1 H2.
      transitivity (Zpos p * d * (2 ^ i * 2 ^ (Q + sh))); [ring|].
      transitivity (Zpos p * d * (2 ^ sh * 2 ^ (Q + i))); [|ring]. rewrite <- !Z.pow_add_r by lia. do 2 f_equal. lia.
    + destruct HQ4 as [->|HQ4]; [left; reflexivity|right]. rewrite FL. apply Z.div_le_lower_bound; [exact PD1|].
      rewrite <- Z.pow_add_r by (clear - HQ1; lia). rewrite HQ4. apply BK.
Qed.
(** The decimal number [m * 10 ^ x]. *)
Theorem dec_to_flt_rounded s m x : 0 <= m -> rounded64 (dec_number m x) s (dec_to_flt s m x).
Proof.
  intros Hm. unfold dec_to_flt, dec_number. destruct m as [|p|p]; [| |lia].
  { destruct (0 <=? x) eqn:X; [|apply zero_rounded; [lia|apply Z.pow_pos_nonneg; lia]]. rewrite Z.mul_0_l. apply zero_rounded; lia. }
  destruct (0 <=? x) eqn:X.
  - assert (0 < 10 ^ x) by (apply Z.pow_pos_nonneg; lia). destruct (Zpos p * 10 ^ x) as [|c|c] eqn:C; [lia| |lia].
    destruct (fmk_fin s c 0) as (m & e & E & O & L & HP). unfold round64. rewrite E. rewrite Z.sub_0_r in HP. rewrite HP.
    apply rounded_shift; [lia|]. rewrite Z.add_0_l. apply fround_rounded; [lia|exact O].
  - cbv zeta. set (d := 10 ^ (- x)). assert (Hd : 0 < d) by (apply Z.pow_pos_nonneg; lia).
    set (sh := Z.max 0 (56 + Z.log2 d - Z.log2 (Zpos p))). rewrite Z.shiftl_mul_pow2 by lia. set (N := Zpos p * 2 ^ sh).
    pose proof (pow2_pos sh ltac:(lia)) as Psh. set (q := N / d). set (r := N - q * d).
    pose proof (Z.div_mod N d ltac:(lia)) as DM. pose proof (Z.mod_pos_bound N d Hd) as RB.
    assert (R : r = N mod d) by (unfold r, q; lia). 
    assert (HQ : 2 ^ 55 <= q).
    { unfold q. apply Z.div_le_lower_bound; [exact Hd|]. pose proof (Z.log2_spec d Hd) as (_ & D2). pose proof (Z.log2_spec (Zpos p) ltac:(lia)) as (D1 & _).
      pose proof (Z.log2_nonneg d). pose proof (Z.log2_nonneg (Zpos p)). unfold N.
      apply Z.le_trans with (2 ^ (Z.log2 (Zpos p)) * 2 ^ sh); [|apply Z.mul_le_mono_nonneg_r; lia]. rewrite <- Z.pow_add_r by lia.
      apply Z.le_trans with (2 ^ (Z.succ (Z.log2 d)) * 2 ^ 55); [apply Z.mul_le_mono_nonneg_r; lia|]. rewrite <- Z.pow_add_r by lia. apply Z.pow_le_mono_r; lia. }
    set (st := if r =? 0 then 0 else 1). assert (0 <= st <= 1) by (unfold st; destruct (r =? 0); lia).
    destruct (2 * q + st) as [|k|k] eqn:K; [lia| |lia].
    assert (NK : 57 <= nbits k).
    { rewrite nbits_log2. assert (56 <= Z.log2 (Zpos k)); [|lia]. rewrite <- (Z.log2_pow2 56) by lia. apply Z.log2_le_mono. change (2 ^ 56) with (2 * 2 ^ 55). lia. }
    unfold round64. set (Q := Z.max (nbits k + (- sh - 1) - 53) (-1074)).
    assert (HQ1 : 1 <= Q + sh) by lia. assert (HQ2 : -1074 <= Q) by lia. assert (HQ3 : nbits k <= 54 + (Q + sh)) by lia.
    assert (HQ4 : Q = -1074 \/ Q + sh + 1 + (53 - 1) = nbits k - 1) by lia. assert (HQ5 : - sh - 1 < Q) by lia.
    rewrite fround_fmk by exact HQ5. fold Q. rewrite <- K. replace (Q - (- sh - 1)) with (Q + sh + 1) by lia. unfold st. rewrite R in *. fold q in DM.
    pose proof (Z.div_pos N d ltac:(unfold N; lia) Hd) as Q0. fold q in Q0.
    rewrite (half_even_sticky q d (N mod d) (Q + sh) Q0 Hd RB HQ1). replace (q * d + N mod d) with N by lia.
    pose proof (nbits_bound k) as BK. apply dec_core with (q := q) (k := k) (st := st); try assumption; try reflexivity; [lia|unfold N; lia].
Qed.
