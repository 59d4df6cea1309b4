(** * SeqTerm: the loops of the sequential file model finish on any content. *)
From Verif Require Import Base Flt SeqFile ListFacts.
From Coq Require Import ZifyBool ZifyNat.
Open Scope string_scope.
Open Scope Z_scope.
Open Scope list_scope.
Open Scope monad_scope.

Definition nof {A} (r : Res A) : Prop := r <> Err OutOfFuel.

Lemma Ok_pair_inj {A B} (a c : A) (b d : B) : Ok (a, b) = Ok (c, d) -> a = c /\ b = d.
Proof. intro H. injection H. auto. Qed.

Lemma nof_ok {A} (a : A) : nof (Ok a).
Proof. unfold nof. discriminate. Qed.
Lemma nof_err {A} e : e <> OutOfFuel -> nof (@Err A e).
Proof. unfold nof. congruence. Qed.
#[export] Hint Resolve nof_ok : nof.
#[export] Hint Extern 1 (nof (Err _)) => apply nof_err; discriminate : nof.

Lemma nof_rmap {A B} (f : A -> Res B) l : (forall x, nof (f x)) -> nof (rmap f l).
Proof.
  intro H. induction l as [|x l IH]; cbn; [apply nof_ok|].
  specialize (H x). destruct (f x); [|unfold nof in *; congruence].
  destruct (rmap f l); [apply nof_ok|unfold nof in *; congruence].
Qed.

Lemma nof_parse_float l : nof (parse_float l).
Proof.
  unfold parse_float.
  repeat (match goal with
          | |- nof (if ?b then _ else _) => destruct b
          | |- nof (match ?x with _ => _ end) => destruct x
          | |- nof (let '(_, _) := ?x in _) => destruct x
          end; auto with nof).
Qed.
Lemma nof_int_of f : nof (int_of f).
Proof. destruct f; cbn; auto with nof. Qed.
Lemma nof_pyget {A} (l : list A) i : nof (pyget l i).
Proof. unfold pyget. destruct (nth_error l i); auto with nof. Qed.
Lemma nof_tofloatrec k l : nof (tofloatrec k l).
Proof.
  unfold tofloatrec. destruct k.
  - destruct (_ =? _); auto with nof.
  - apply nof_rmap. apply nof_parse_float.
Qed.
Lemma nof_strip_recname k l : nof (strip_recname k l).
Proof.
  unfold strip_recname, decode. destruct k; auto with nof.
  destruct (forallb _ _); auto with nof.
Qed.
Lemma nof_as_header k l : nof (as_header k l).
Proof.
  unfold as_header, rbind. pose proof (nof_strip_recname k (firstn 8 l)) as H.
  destruct (strip_recname k (firstn 8 l)); [|unfold nof in *; congruence].
  pose proof (nof_tofloatrec k (skipn 8 l)) as H'.
  destruct (tofloatrec k (skipn 8 l)); auto with nof. unfold nof in *; congruence.
Qed.

Lemma as_header_nil k : as_header k [] = Ok ("", []).
Proof. destruct k; reflexivity. Qed.

Lemma readline_len l a b : readline l = (a, b) -> (length a + length b = length l)%nat /\ (l <> [] -> a <> []).
Proof.
  revert a b. induction l as [|c l IH]; intros a b H; cbn in H.
  - injection H as <- <-. split; [reflexivity|congruence].
  - destruct (Ascii.eqb c nl).
    + injection H as <- <-. split; [reflexivity|discriminate].
    + destruct (readline l) as [x y]. injection H as <- <-.
      destruct (IH x y eq_refl) as [E _]. cbn. split; [lia|discriminate].
Qed.

(** Every physical read uses up at least one character, except at the end of a
    formatted file where it gives the empty record. *)
Lemma read_stringrec_prog s a s' : read_stringrec s = Ok (a, s') ->
  f_kind s' = f_kind s /\
  ((length (f_rest s') < length (f_rest s))%nat \/ (a = [] /\ f_rest s = [] /\ f_rest s' = [])).
Proof.
  unfold read_stringrec. destruct s as [k r h fr]. cbn [f_kind f_rest f_floatrest].
  destruct k.
  - destruct r as [|b r]; [discriminate|]. intro H. apply Ok_pair_inj in H as [_ <-]. cbn [f_kind f_rest].
    split; [reflexivity|left]. rewrite !skipn_length. cbn [length]. lia.
  - destruct (readline r) as [x y] eqn:E. intro H. injection H as <- <-. cbn [f_kind f_rest].
    apply readline_len in E as [E1 E2]. split; [reflexivity|].
    destruct r as [|c r].
    + right. destruct x; [|cbn in E1; lia]. destruct y; [|cbn in E1; lia]. auto.
    + left. destruct x; [now destruct E2|]. cbn in *. lia.
Qed.
Lemma nof_read_stringrec s : nof (read_stringrec s).
Proof.
  unfold read_stringrec. destruct (f_kind s).
  - destruct (f_rest s); auto with nof.
  - destruct (readline (f_rest s)); auto with nof.
Qed.

(** ** Monotonicity and fuel-safety of computations *)

Definition mono {A} (m : F A) : Prop := forall s a s', m s = Ok (a, s') ->
  f_kind s' = f_kind s /\ (length (f_rest s') <= length (f_rest s))%nat.
Definition safe {A} (m : F A) : Prop := forall s, nof (m s).

Lemma mono_ret {A} (a : A) : mono (sret a).
Proof. intros s b s' H. injection H as <- <-. auto. Qed.
Lemma mono_raise {A} e : mono (@sraise infile A e).
Proof. intros s b s' H. discriminate. Qed.
Lemma mono_lift {A} (r : Res A) : mono (slift r).
Proof. intros s b s' H. unfold slift in H. destruct r; [|discriminate]. injection H as <- <-. auto. Qed.
Lemma mono_bind {A B} (m : F A) (k : A -> F B) : mono m -> (forall a, mono (k a)) -> mono (sbind m k).
Proof.
  intros Hm Hk s b s' H. unfold sbind in H. destruct (m s) as [[a s1]|] eqn:E; [|discriminate].
  apply Hm in E as [E1 E2]. apply Hk in H as [H1 H2]. split; [congruence|lia].
Qed.
Lemma safe_ret {A} (a : A) : safe (sret a).
Proof. intro s. apply nof_ok. Qed.
Lemma safe_lift {A} (r : Res A) : nof r -> safe (slift r).
Proof. intros H s. unfold slift. destruct r; auto with nof. unfold nof in *; congruence. Qed.
Lemma safe_bind {A B} (m : F A) (k : A -> F B) : safe m -> (forall a, safe (k a)) -> safe (sbind m k).
Proof.
  intros Hm Hk s. unfold sbind. specialize (Hm s). destruct (m s) as [[a s1]|e]; [apply Hk|].
  unfold nof in *. congruence.
Qed.

Lemma mono_read_stringrec : mono read_stringrec.
Proof.
  intros s a s' H. apply read_stringrec_prog in H as [E [H|(_ & H1 & H2)]]; split; auto; try lia.
  rewrite H1, H2. cbn. lia.
Qed.
Lemma safe_read_stringrec : safe read_stringrec.
Proof. exact nof_read_stringrec. Qed.

Lemma mono_read_floatrec n : mono (read_floatrec n).
Proof.
  intros s a s' H. unfold read_floatrec in H.
  eapply mono_bind in H; [exact H|apply mono_read_stringrec|].
  intro. destruct (f_kind s); apply mono_lift.
Qed.
Lemma safe_read_floatrec n : safe (read_floatrec n).
Proof.
  intro s. unfold read_floatrec.
  apply (safe_bind read_stringrec (fun l => match f_kind s with
    | Unf => slift (tofloatrec Unf (skipn n l)) | Fmt => slift (tofloatrec Fmt (skipn 8 l)) end)).
  - apply safe_read_stringrec.
  - intro a. destruct (f_kind s); apply safe_lift, nof_tofloatrec.
Qed.

(** A header read makes progress or returns the empty name. *)
Definition prog (m : F (string * list flt)) : Prop := forall s n r s', m s = Ok ((n, r), s') ->
  f_kind s' = f_kind s /\ (length (f_rest s') <= length (f_rest s))%nat /\
  ((length (f_rest s') < length (f_rest s))%nat \/ n = "").

Lemma prog_mono m : prog m -> mono m.
Proof. intros H s [n r] s' E. apply H in E. tauto. Qed.

Lemma prog_read_headerrec : prog read_headerrec.
Proof.
  intros s n r s' H. unfold read_headerrec, sbind, slift in H.
  destruct (read_stringrec s) as [[l s1]|] eqn:E; [|discriminate].
  destruct (as_header (f_kind s) l) as [[n1 r1]|] eqn:Ea; [|discriminate].
  injection H as <- <- <-. apply read_stringrec_prog in E as [E1 [E2|(E2 & E3 & E4)]].
  - repeat split; auto; lia.
  - subst l. rewrite as_header_nil in Ea. injection Ea as <- <-. rewrite E3, E4. auto.
Qed.
Lemma safe_read_headerrec : safe read_headerrec.
Proof.
  intro s. unfold read_headerrec.
  apply (safe_bind read_stringrec (fun l => slift (as_header (f_kind s) l))).
  - apply safe_read_stringrec.
  - intro. apply safe_lift, nof_as_header.
Qed.

Lemma prog_bind {A} (m : F A) k : mono m -> (forall a, prog (k a)) -> prog (sbind m k).
Proof.
  intros Hm Hk s n r s' H. unfold sbind in H. destruct (m s) as [[a s1]|] eqn:E; [|discriminate].
  apply Hm in E as [E1 E2]. apply Hk in H as (H1 & H2 & H3). repeat split; try congruence; try lia.
  destruct H3; auto. left. lia.
Qed.

Lemma mono_read_until sk : forall fuel need, mono (read_until fuel need sk).
Proof.
  induction fuel; intro need; cbn [read_until]; destruct (need <=? 0);
    try apply mono_ret; try apply mono_raise.
  apply mono_bind; [apply mono_read_floatrec|]. intro a.
  apply mono_bind; [apply IHfuel|]. intro. apply mono_ret.
Qed.

Lemma nof_read_until sk : forall fuel need s,
  f_kind s = Unf -> (length (f_rest s) < fuel)%nat -> nof (read_until fuel need sk s).
Proof.
  induction fuel; intros need s Hk Hf; [lia|]. cbn [read_until].
  destruct (need <=? 0); [apply nof_ok|].
  unfold sbind at 1. pose proof (safe_read_floatrec sk s) as Hs.
  destruct (read_floatrec sk s) as [[a s1]|e] eqn:E; [|unfold nof in *; congruence].
  assert (P : f_kind s1 = Unf /\ (length (f_rest s1) < length (f_rest s))%nat).
  { unfold read_floatrec, sbind in E. rewrite Hk in E.
    destruct (read_stringrec s) as [[l s2]|] eqn:E2; [|discriminate].
    unfold slift in E. destruct (tofloatrec _ _); [|discriminate]. injection E as _ <-.
    pose proof E2 as E3. apply read_stringrec_prog in E2 as [E4 [E5|(_ & E5 & _)]].
    - split; congruence.
    - unfold read_stringrec in E3. rewrite Hk, E5 in E3. discriminate. }
  unfold sbind. specialize (IHfuel (need - Zlen a) s1).
  assert (N : nof (read_until fuel (need - Zlen a) sk s1)) by (apply IHfuel; [tauto|lia]).
  destruct (read_until fuel (need - Zlen a) sk s1) as [[b s2]|e]; [apply nof_ok|].
  unfold nof in *; congruence.
Qed.

Lemma mono_read_lines sk : forall n, mono (read_lines n sk).
Proof.
  induction n; cbn [read_lines]; [apply mono_ret|].
  apply mono_bind; [apply mono_read_floatrec|]. intro a.
  apply mono_bind; [apply IHn|]. intro. apply mono_ret.
Qed.
Lemma safe_read_lines sk : forall n, safe (read_lines n sk).
Proof.
  induction n; cbn [read_lines]; [apply safe_ret|].
  apply safe_bind; [apply safe_read_floatrec|]. intro a.
  apply safe_bind; [apply IHn|]. intro. apply safe_ret.
Qed.

Lemma mono_read_floats n sk : mono (read_floats n sk).
Proof.
  intros s a s' H. unfold read_floats in H. cbv zeta in H.
  destruct (n =? 0). { injection H as <- <-. auto. }
  set (buf := if f_hasrest s then f_floatrest s else []) in *.
  destruct (0 <? n - Zlen buf).
  - unfold sbind, sret in H.
    set (m := match f_kind s return StM infile (list flt) with
        | Unf => read_until (S (length (f_rest s))) (n - Zlen buf) sk
        | Fmt => read_lines (Z.to_nat (ceil4 (n - Zlen buf))) sk end) in *.
    assert (Hm : mono m) by (unfold m; destruct (f_kind s); [apply mono_read_until|apply mono_read_lines]).
    destruct (m s) as [[fl s1]|] eqn:E; [|discriminate].
    injection H as _ <-. cbn. now apply Hm in E.
  - injection H as _ <-. cbn. auto.
Qed.
Lemma safe_read_floats n sk : safe (read_floats n sk).
Proof.
  intro s. unfold read_floats. cbv zeta.
  destruct (n =? 0); [apply nof_ok|].
  set (buf := if f_hasrest s then f_floatrest s else []).
  destruct (0 <? n - Zlen buf); [|apply nof_ok].
  unfold sbind, sret.
  set (m := match f_kind s return StM infile (list flt) with
      | Unf => read_until (S (length (f_rest s))) (n - Zlen buf) sk
      | Fmt => read_lines (Z.to_nat (ceil4 (n - Zlen buf))) sk end).
  assert (Hm : nof (m s)).
  { unfold m. destruct (f_kind s) eqn:Ek; [apply nof_read_until; [exact Ek|lia]|apply safe_read_lines]. }
  destruct (m s) as [[fl s1]|e]; [apply nof_ok|]. unfold nof in *; congruence.
Qed.

Lemma mono_at_headerrec : mono at_headerrec.
Proof. intros s a s' H. injection H as _ <-. auto. Qed.
Lemma safe_at_headerrec : safe at_headerrec.
Proof. intro s. apply nof_ok. Qed.

Lemma mono_read_stringrecs n : mono (read_stringrecs n).
Proof.
  induction n; cbn [read_stringrecs]; [apply mono_ret|].
  apply mono_bind; [apply mono_read_stringrec|]. intro a.
  apply mono_bind; [apply IHn|]. intro. apply mono_ret.
Qed.
Lemma safe_read_stringrecs n : safe (read_stringrecs n).
Proof.
  induction n; cbn [read_stringrecs]; [apply safe_ret|].
  apply safe_bind; [apply safe_read_stringrec|]. intro a.
  apply safe_bind; [apply IHn|]. intro. apply safe_ret.
Qed.

Lemma skip_contrecs_prog : forall fuel l s n r s',
  skip_contrecs fuel l s = Ok ((n, r), s') ->
  f_kind s' = f_kind s /\ (length (f_rest s') <= length (f_rest s))%nat.
Proof.
  induction fuel; intros l s n r s' H; cbn [skip_contrecs] in H;
    destruct (lascii_eqb (firstn 8 l) blanks8); try discriminate.
  1, 3: unfold slift in H; destruct (as_header _ _); [|discriminate]; injection H as _ <-; auto.
  unfold sbind in H. destruct (read_stringrec s) as [[l' s1]|] eqn:E; [|discriminate].
  apply mono_read_stringrec in E as [E1 E2]. apply IHfuel in H as [H1 H2].
  split; [congruence|lia].
Qed.
Lemma nof_skip_contrecs : forall fuel l s, (length (f_rest s) < fuel)%nat -> nof (skip_contrecs fuel l s).
Proof.
  induction fuel; intros l s Hf; [lia|]. cbn [skip_contrecs].
  destruct (lascii_eqb (firstn 8 l) blanks8).
  - unfold sbind. pose proof (nof_read_stringrec s) as Hs.
    destruct (read_stringrec s) as [[l' s1]|] eqn:E; [|unfold nof in *; congruence].
    apply read_stringrec_prog in E as [E1 [E2|(-> & E2 & E3)]].
    + apply IHfuel. lia.
    + assert (X : forall f, skip_contrecs f [] s1 = slift (as_header (f_kind s1) []) s1) by (now destruct f).
      rewrite X. apply safe_lift, nof_as_header.
  - apply safe_lift, nof_as_header.
Qed.

Lemma prog_skip_restofrecord n r : prog (skip_restofrecord n r).
Proof.
  unfold skip_restofrecord.
  apply prog_bind; [apply mono_lift|]. intro r0.
  destruct (flt_lt r0 f0).
  { destruct (flt_eq r0 fm5).
    - apply prog_bind; [apply mono_read_floatrec|]. intro. apply prog_read_headerrec.
    - apply prog_read_headerrec. }
  destruct (String.eqb (substring 0 2 n) "TD").
  { repeat (apply prog_bind; [first [apply mono_lift|apply mono_read_stringrecs]|intro]).
    apply prog_read_headerrec. }
  intros s nm r' s' H. unfold sbind in H.
  destruct (read_stringrec s) as [[l s1]|] eqn:E; [|discriminate].
  pose proof E as E0. apply read_stringrec_prog in E0 as [Ek Ep].
  destruct (lascii_eqb (firstn 8 l) blanks8) eqn:Eb.
  { apply skip_contrecs_prog in H as [H1 H2].
    destruct Ep as [Ep|(-> & _)]; [|discriminate].
    repeat split; try congruence; try lia. }
  destruct (name_allowed (f_kind s) l).
  { unfold slift in H. destruct (as_header (f_kind s) l) as [[n1 r1]|] eqn:Ea; [|discriminate].
    injection H as <- <- <-. destruct Ep as [Ep|(-> & E1 & E2)].
    - repeat split; try congruence; try lia.
    - rewrite as_header_nil in Ea. injection Ea as <- <-. rewrite E1, E2. auto. }
  unfold slift in H. destruct (int_of r0) as [n0|]; [|discriminate].
  set (s2 := mkIn (f_kind s1) (f_rest s) (f_hasrest s1) (f_floatrest s1)) in H.
  destruct (read_floats (n0 - 4) 0 s2) as [[fl s3]|] eqn:E3; [|discriminate].
  apply mono_read_floats in E3 as [K3 L3]. apply prog_read_headerrec in H as (K4 & L4 & P4).
  cbn in K3, L3. repeat split; try congruence; try lia. destruct P4; auto. left. lia.
Qed.

Lemma safe_skip_restofrecord n r : safe (skip_restofrecord n r).
Proof.
  unfold skip_restofrecord.
  apply safe_bind; [apply safe_lift, nof_pyget|]. intro r0.
  destruct (flt_lt r0 f0).
  { destruct (flt_eq r0 fm5).
    - apply safe_bind; [apply safe_read_floatrec|]. intro. apply safe_read_headerrec.
    - apply safe_read_headerrec. }
  destruct (String.eqb (substring 0 2 n) "TD").
  { repeat (apply safe_bind;
      [first [apply safe_lift; first [apply nof_pyget|apply nof_int_of]|apply safe_read_stringrecs]|intro]).
    apply safe_read_headerrec. }
  intro s. unfold sbind at 1. pose proof (nof_read_stringrec s) as Hs.
  destruct (read_stringrec s) as [[l s1]|] eqn:E; [|unfold nof in *; congruence].
  apply mono_read_stringrec in E as [_ El].
  destruct (lascii_eqb (firstn 8 l) blanks8).
  { apply nof_skip_contrecs. lia. }
  destruct (name_allowed (f_kind s) l); [apply safe_lift, nof_as_header|].
  unfold sbind, slift. pose proof (nof_int_of r0) as Hi.
  destruct (int_of r0) as [n0|]; [|unfold nof in *; congruence].
  set (s2 := mkIn (f_kind s1) (f_rest s) (f_hasrest s1) (f_floatrest s1)).
  pose proof (safe_read_floats (n0 - 4) 0 s2) as Hf.
  destruct (read_floats (n0 - 4) 0 s2) as [[fl s3]|]; [apply safe_read_headerrec|].
  unfold nof in *; congruence.
Qed.

Lemma nof_count_loop : forall fuel n r d s,
  (length (f_rest s) + 1 < fuel)%nat -> nof (count_loop fuel n r d s).
Proof.
  induction fuel; intros n r d s Hf; [lia|]. cbn [count_loop].
  destruct (String.eqb n ""); [apply nof_ok|].
  unfold sbind. pose proof (safe_skip_restofrecord n r s) as Hs.
  destruct (skip_restofrecord n r s) as [[[n1 r1] s1]|] eqn:E; [|unfold nof in *; congruence].
  apply prog_skip_restofrecord in E as (_ & E1 & [E2| ->]).
  - apply IHfuel. lia.
  - destruct fuel; [lia|]. cbn. apply nof_ok.
Qed.

Theorem nof_get_recordcount s : nof (get_recordcount s).
Proof.
  unfold get_recordcount, sbind. pose proof (safe_read_headerrec s) as Hs.
  destruct (read_headerrec s) as [[[n r] s1]|] eqn:E; [|unfold nof in *; congruence].
  apply prog_read_headerrec in E as (_ & E1 & [E2| ->]).
  - apply nof_count_loop. lia.
  - cbn. apply nof_ok.
Qed.
