(** * FltOrder: the order of floats. *)
From Verif Require Import Base Flt H5 Schema Data Nd Hydro HydroSpec.
Open Scope Z_scope.
Open Scope list_scope.

(** A float is -inf, a finite number, +inf or NaN; finite ones are compared as
    multiples of a common power of two. *)
Definition rank (f : flt) : Z := match f with FInf true => -1 | FInf false => 1 | FNan => 2 | _ => 0 end.
Lemma scaled_shift f e k : e <= fexp f -> 0 <= k -> scaled f (e - k) = scaled f e * 2 ^ k.
Proof.
  intros He Hk. destruct f as [|s|s|s m x]; cbn [scaled fexp] in *; try lia.
  rewrite !Z.shiftl_mul_pow2 by lia. replace (x - (e - k)) with ((x - e) + k) by lia. rewrite Z.pow_add_r by lia. destruct s; ring.
Qed.
Lemma fcmp_at a b e : rank a = 0 -> rank b = 0 -> e <= fexp a -> e <= fexp b -> fcmp a b = Some (scaled a e ?= scaled b e).
Proof.
  intros Ha Hb Ea Eb. set (e0 := Z.min (fexp a) (fexp b)).
  assert (E : fcmp a b = Some (scaled a e0 ?= scaled b e0)) by (destruct a as [|[]|[]|]; cbn in Ha; try lia; destruct b as [|[]|[]|]; cbn in Hb; try lia; reflexivity).
  rewrite E. f_equal. replace e with (e0 - (e0 - e)) by lia. rewrite !scaled_shift by lia.
  assert (0 < 2 ^ (e0 - e)) by (apply Z.pow_pos_nonneg; lia).
  destruct (Z.compare_spec (scaled a e0) (scaled b e0)) as [->|L|L]; symmetry.
  - apply Z.compare_refl.
  - apply Z.compare_lt_iff. nia.
  - apply Z.compare_gt_iff. nia.
Qed.
(** Below both exponents *)
Definition key (e : Z) (f : flt) : Z := if rank f =? 0 then scaled f e else 0.
Ltac split_ := split; [intros [H|[H1 H2]]; try discriminate; try congruence; try (left; lia); try (right; lia); lia|intros [H|[H H']]; first [left; reflexivity|right; split; [discriminate|reflexivity]|exfalso; lia|discriminate H'|idtac]].
Lemma less_key a b e : e <= fexp a -> e <= fexp b -> (less a b <-> rank a < rank b \/ rank a = rank b /\ key e a < key e b).
Proof.
  intros Ea Eb. unfold less, key. destruct (Z.eqb_spec (rank a) 0) as [Ra|Ra]; [destruct (Z.eqb_spec (rank b) 0) as [Rb|Rb]|].
  - rewrite (fcmp_at a b e Ra Rb Ea Eb). rewrite Ra, Rb. split.
    + intros [H|[_ ->]]; [|discriminate]. injection H as H. right. split; [reflexivity|]. now apply Z.compare_lt_iff.
    + intros [H|[_ H]]; [discriminate H|]. left. f_equal. now apply Z.compare_lt_iff.
  - rewrite Ra. destruct b as [|[]|[]|]; cbn [rank] in *; try lia; (destruct a as [|[]|[]|]; cbn [rank] in Ra; try lia; cbn [fcmp]; split_).
  - destruct a as [|[]|[]|]; cbn [rank] in *; try lia; (destruct b as [|[]|[]|]; cbn [rank fcmp Bool.eqb]; split_).
Qed.
Lemma same_key a b e : e <= fexp a -> e <= fexp b -> (same a b <-> rank a = rank b /\ key e a = key e b).
Proof.
  intros Ea Eb. unfold same, key. destruct (Z.eqb_spec (rank a) 0) as [Ra|Ra]; [destruct (Z.eqb_spec (rank b) 0) as [Rb|Rb]|].
  - rewrite (fcmp_at a b e Ra Rb Ea Eb). rewrite Ra, Rb. split.
    + intros [H|[-> _]]; [|discriminate]. injection H as H. split; [reflexivity|]. now apply Z.compare_eq_iff.
    + intros [_ H]. left. f_equal. now apply Z.compare_eq_iff.
  - split; [|intros [H _]; congruence]. intros [H|[-> _]]; [|discriminate].
    destruct b as [|[]|[]|]; cbn [rank] in *; try lia; (destruct a as [|[]|[]|]; cbn [rank] in Ra; try lia; discriminate).
  - destruct a as [|[]|[]|]; cbn [rank] in *; try lia; (destruct b as [|[]|[]|]; cbn; (split; [intros [H|[H1 H2]]; try discriminate; try congruence; lia|intros [H _]; first [lia|left; reflexivity|right; split; reflexivity]])).
Qed.

Lemma np_lt_less a b : np_lt a b = true <-> less a b.
Proof.
  unfold np_lt, less, flt_lt. destruct (fcmp a b) as [[]|] eqn:E; destruct a, b; cbn in *; split; intro H; try discriminate; auto;
    try (left; reflexivity); try (right; split; [discriminate|reflexivity]); destruct H as [H|[H1 H2]]; congruence.
Qed.
Lemma np_same_same a b : np_same a b = true <-> same a b.
Proof.
  unfold np_same, same, flt_eq. destruct (fcmp a b) as [[]|] eqn:E; destruct a, b; cbn in *; split; intro H; try discriminate; auto;
    try (left; reflexivity); try (right; split; reflexivity); destruct H as [H|[H1 H2]]; congruence.
Qed.

Lemma bound3 a b c : exists e, e <= fexp a /\ e <= fexp b /\ e <= fexp c.
Proof. exists (Z.min (fexp a) (Z.min (fexp b) (fexp c))). lia. Qed.
Lemma same_refl a : same a a.
Proof. apply (same_key a a (fexp a)); lia. Qed.
Lemma same_sym a b : same a b -> same b a.
Proof. destruct (bound3 a b b) as (e & A & B & _). rewrite (same_key a b e A B), (same_key b a e B A). lia. Qed.
Lemma same_trans a b c : same a b -> same b c -> same a c.
Proof. destruct (bound3 a b c) as (e & A & B & C). rewrite (same_key a b e A B), (same_key b c e B C), (same_key a c e A C). lia. Qed.
Lemma less_trans a b c : less a b -> less b c -> less a c.
Proof. destruct (bound3 a b c) as (e & A & B & C). rewrite (less_key a b e A B), (less_key b c e B C), (less_key a c e A C). lia. Qed.
Lemma less_not a b : less a b -> ~ same a b.
Proof. destruct (bound3 a b b) as (e & A & B & C). rewrite (less_key a b e A B), (same_key a b e A B). lia. Qed.
Lemma less_asym a b : less a b -> ~ less b a.
Proof. destruct (bound3 a b b) as (e & A & B & C). rewrite (less_key a b e A B), (less_key b a e B A). lia. Qed.
Lemma less_same_l a b c : same a b -> less b c -> less a c.
Proof. destruct (bound3 a b c) as (e & A & B & C). rewrite (same_key a b e A B), (less_key b c e B C), (less_key a c e A C). lia. Qed.
Lemma less_same_r a b c : less a b -> same b c -> less a c.
Proof. destruct (bound3 a b c) as (e & A & B & C). rewrite (same_key b c e B C), (less_key a b e A B), (less_key a c e A C). lia. Qed.
Lemma less_total a b : less a b \/ same a b \/ less b a.
Proof. destruct (bound3 a b b) as (e & A & B & C). rewrite (less_key a b e A B), (same_key a b e A B), (less_key b a e B A). lia. Qed.
Lemma not_less a b : ~ less a b -> same b a \/ less b a.
Proof. intro H. destruct (less_total a b) as [L|[L|L]]; [contradiction|left; now apply same_sym|now right]. Qed.
