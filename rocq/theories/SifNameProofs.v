(** * SifNameProofs: the expression finds the reading with the shortest prefix *)
From Verif Require Import Base DecFacts SifName SifNameSpec.
Open Scope string_scope.
Open Scope Z_scope.
Open Scope list_scope.

(* ---- characters ---- *)
Lemma all_chars (P : ascii -> bool) : forallb P (map ascii_of_nat (seq 0 256)) = true -> forall c, P c = true.
Proof.
  intros H c. rewrite forallb_forall in H. apply H. apply in_map_iff. exists (nat_of_ascii c).
  split; [apply ascii_nat_embedding|]. apply in_seq. pose proof (nat_ascii_bounded c). lia.
Qed.
Definition memb (l : list ascii) (c : ascii) : bool := existsb (Ascii.eqb c) l.
Lemma memb_spec l c : memb l c = true <-> In c l.
Proof.
  unfold memb. rewrite existsb_exists. split.
  - intros (x & Hx & E). apply Ascii.eqb_eq in E. now subst.
  - intros H. exists c. split; [exact H|apply Ascii.eqb_refl].
Qed.
Ltac class s := intros c; unfold any_of; rewrite <- memb_spec;
  match goal with |- ?a = true <-> ?b = true => cut (Bool.eqb a b = true); [let G := fresh in intros G; apply Bool.eqb_prop in G; rewrite G; tauto|] end;
  revert c; apply all_chars; vm_compute; reflexivity.
Lemma digit_class : forall c, SifName.is_digit c = true <-> digit_char c.
Proof. unfold digit_char. class 1. Qed.
Lemma digit1_class : forall c, is_digit1 c = true <-> first_digit c.
Proof. unfold first_digit. class 1. Qed.
Lemma word_class : forall c, is_word c = true <-> word_char c.
Proof. unfold word_char. class 1. Qed.
Lemma type_class : forall c, letter_in ["R"; "T"; "G"; "L"]%char c = true <-> type_letter c.
Proof. unfold type_letter. class 1. Qed.
Lemma h_class : forall c, letter_in ["H"%char] c = true <-> any_of "Hh" c.
Proof. class 1. Qed.

(* ---- matches ---- *)
Lemma in_char p s a b : In (a, b) (m_char p s) <-> exists c, a = [c] /\ p c = true /\ s = c :: b.
Proof.
  destruct s as [|c r]; cbn.
  - split; [tauto|]. intros (c & _ & _ & E). discriminate.
  - destruct (p c) eqn:E; cbn.
    + split.
      * intros [H|[]]. injection H as <- <-. now exists c.
      * intros (d & -> & _ & H). injection H as -> ->. now left.
    + split; [tauto|]. intros (d & -> & Hd & H). injection H as -> ->. congruence.
Qed.
Lemma in_star p : forall s a b, In (a, b) (m_star p s) <-> s = a ++ b /\ forallb p a = true.
Proof.
  induction s as [|c r IH]; intros a b; cbn [m_star].
  - split.
    + intros [H|[]]. injection H as <- <-. now split.
    + intros [H _]. destruct a; [|discriminate]. cbn in H. subst. now left.
  - destruct (p c) eqn:E.
    + rewrite in_app_iff, in_map_iff. split.
      * intros [((a', b') & H & Hi)|[H|[]]].
        -- injection H as <- <-. apply IH in Hi. cbn. destruct Hi as [-> Hf]. now rewrite E, Hf.
        -- injection H as <- <-. now split.
      * intros [H Hf]. destruct a as [|x a]; cbn in H; [subst; right; now left|].
        injection H as -> ->. left. cbn in Hf. exists (a, b). split; [reflexivity|]. apply IH. rewrite E in Hf. now split.
    + split.
      * intros [H|[]]. injection H as <- <-. now split.
      * intros [H Hf]. destruct a as [|x a]; cbn in H; [subst; now left|].
        injection H as -> ->. cbn in Hf. rewrite E in Hf. discriminate.
Qed.
Lemma in_lazy p : forall s a b, In (a, b) (m_lazy p s) <-> s = a ++ b /\ forallb p a = true.
Proof.
  induction s as [|c r IH]; intros a b; cbn [m_lazy].
  - split.
    + intros [H|[]]. injection H as <- <-. now split.
    + intros [H _]. destruct a; [|discriminate]. cbn in H. subst. now left.
  - cbn [In]. split.
    + intros [H|H].
      * injection H as <- <-. now split.
      * destruct (p c) eqn:E; [|easy]. apply in_map_iff in H. destruct H as ((a', b') & H & Hi).
        injection H as <- <-. apply IH in Hi. cbn. destruct Hi as [-> Hf]. now rewrite E, Hf.
    + intros [H Hf]. destruct a as [|x a]; cbn in H; [subst; now left|]. right.
      injection H as -> ->. cbn in Hf. destruct (p x) eqn:E; [|discriminate].
      apply in_map_iff. exists (a, b). split; [reflexivity|]. apply IH. now split.
Qed.
Lemma lazy_sorted p : forall s l1 y l2, m_lazy p s = l1 ++ y :: l2 ->
  forall z, In z l2 -> (length (fst y) < length (fst z))%nat.
Proof.
  induction s as [|c r IH]; intros l1 y l2 E z Hz; cbn [m_lazy] in E.
  - destruct l1 as [|? [|? ?]]; try discriminate. injection E as <- <-. easy.
  - destruct l1 as [|x l1]; cbn in E.
    + injection E as <- E. cbn. destruct (p c); [|subst; easy].
      rewrite <- E in Hz. apply in_map_iff in Hz. destruct Hz as (? & <- & _). cbn. lia.
    + injection E as _ E. destruct (p c); [|destruct l1; discriminate].
      apply map_eq_app in E. destruct E as (m1 & m2 & E & <- & E2). destruct m2 as [|y' m2]; [discriminate|].
      injection E2 as <- <-. apply in_map_iff in Hz. destruct Hz as (z' & <- & Hz). cbn.
      specialize (IH m1 y' m2 E z' Hz). unfold text in *. lia.
Qed.
Lemma in_seq_m m1 m2 s a b : In (a, b) (m_seq m1 m2 s) <-> exists a1 a2 t, a = a1 ++ a2 /\ In (a1, t) (m1 s) /\ In (a2, b) (m2 t).
Proof.
  unfold m_seq. rewrite in_flat_map. split.
  - intros ((a1, t) & H1 & H2). apply in_map_iff in H2. destruct H2 as ((a2, b') & H2 & H3).
    injection H2 as <- <-. now exists a1, a2, t.
  - intros (a1 & a2 & t & -> & H1 & H2). exists (a1, t). split; [exact H1|]. apply in_map_iff. now exists (a2, b).
Qed.
Lemma forallb_Forall {A} (f : A -> bool) (P : A -> Prop) l : (forall c, f c = true <-> P c) -> (forallb f l = true <-> Forall P l).
Proof.
  intros H. induction l as [|c l IH]; cbn; [split; constructor|].
  rewrite andb_true_iff, IH, H. split; [intros [? ?]; now constructor|intros G; inversion G; now split].
Qed.
Lemma in_number s a b : In (a, b) (m_number s) <-> number a /\ s = a ++ b.
Proof.
  unfold m_number. rewrite in_seq_m. split.
  - intros (a1 & a2 & t & -> & H1 & H2). apply in_char in H1. destruct H1 as (c & -> & Hc & ->).
    apply in_star in H2. destruct H2 as [-> Hf]. split; [|reflexivity].
    exists c, a2. split; [reflexivity|]. split; [now apply digit1_class|]. now apply (forallb_Forall _ _ _ digit_class).
  - intros [(c & ds & -> & Hc & Hf) ->]. exists [c], ds, (ds ++ b). split; [reflexivity|]. split.
    + apply in_char. exists c. split; [reflexivity|]. split; [now apply digit1_class|reflexivity].
    + apply in_star. split; [reflexivity|]. now apply (forallb_Forall _ _ _ digit_class).
Qed.
Lemma in_hier s a b : In (a, b) (m_hier s) <-> hierarchy_part a /\ s = a ++ b.
Proof.
  unfold m_hier, m_opt. rewrite in_app_iff, in_seq_m. split.
  - intros [(a1 & a2 & t & -> & H1 & H2)|[H|[]]].
    + apply in_char in H1. destruct H1 as (c & -> & Hc & ->). apply in_number in H2. destruct H2 as [Hn ->].
      split; [|reflexivity]. right. exists c, a2. split; [reflexivity|]. split; [now apply h_class|exact Hn].
    + injection H as <- <-. split; [now left|reflexivity].
  - intros [[->|(c & n & -> & Hc & Hn)] ->]; [right; now left|]. left.
    exists [c], n, (n ++ b). split; [reflexivity|]. split.
    + apply in_char. exists c. split; [reflexivity|]. split; [now apply h_class|reflexivity].
    + now apply in_number.
Qed.
Lemma in_three f g h s a b : In (a, b) (m_seq (m_char f) (m_seq (m_char g) (m_char h)) s) <->
  exists x y z, a = [x; y; z] /\ f x = true /\ g y = true /\ h z = true /\ s = a ++ b.
Proof.
  rewrite in_seq_m. split.
  - intros (a1 & a2 & t & -> & H1 & H2). apply in_char in H1. destruct H1 as (x & -> & Hx & ->).
    apply in_seq_m in H2. destruct H2 as (a3 & a4 & t' & -> & H1 & H2).
    apply in_char in H1. destruct H1 as (y & -> & Hy & ->). apply in_char in H2. destruct H2 as (z & -> & Hz & ->).
    now exists x, y, z.
  - intros (x & y & z & -> & Hx & Hy & Hz & ->). exists [x], [y; z], (y :: z :: b). split; [reflexivity|]. split.
    + apply in_char. now exists x.
    + apply in_seq_m. exists [y], [z], (z :: b). split; [reflexivity|]. split; apply in_char; [now exists y|now exists z].
Qed.
Lemma spelled3 u1 u2 u3 l1 l2 l3 e : spelled (String u1 (String u2 (String u3 ""))) (String l1 (String l2 (String l3 ""))) e <->
  exists x y z, e = [x; y; z] /\ (x = u1 \/ x = l1) /\ (y = u2 \/ y = l2) /\ (z = u3 \/ z = l3).
Proof.
  unfold spelled. cbn. split.
  - intros H. inversion H as [|x ? e1 ? Hx H1]; subst. inversion H1 as [|y ? e2 ? Hy H2]; subst.
    inversion H2 as [|z ? e3 ? Hz H3]; subst. inversion H3; subst. now exists x, y, z.
  - intros (x & y & z & -> & Hx & Hy & Hz). constructor; [exact Hx|]. constructor; [exact Hy|]. constructor; [exact Hz|]. constructor.
Qed.
Lemma letter_class : forall u, In u (s2l "SIFUNEM") -> forall c, letter_in [u] c = true <-> c = u \/ c = chr (code u + 32).
Proof.
  intros u Hu c. enough (E : Bool.eqb (letter_in [u] c) (Ascii.eqb c u || Ascii.eqb c (chr (code u + 32))) = true).
  - apply Bool.eqb_prop in E. rewrite E, orb_true_iff, !Ascii.eqb_eq. tauto.
  - revert c. apply all_chars. cbn in Hu. destruct Hu as [<-|[<-|[<-|[<-|[<-|[<-|[<-|[]]]]]]]]; vm_compute; reflexivity.
Qed.
Lemma letter3_class c : letter_in ["F"; "U"; "N"]%char c = true <->
  (c = "F"%char \/ c = "f"%char) \/ (c = "U"%char \/ c = "u"%char) \/ (c = "N"%char \/ c = "n"%char).
Proof.
  enough (E : Bool.eqb (letter_in ["F"; "U"; "N"]%char c)
    ((Ascii.eqb c "F" || Ascii.eqb c "f") || ((Ascii.eqb c "U" || Ascii.eqb c "u") || (Ascii.eqb c "N" || Ascii.eqb c "n"))) = true).
  - apply Bool.eqb_prop in E. rewrite E, !orb_true_iff, !Ascii.eqb_eq. tauto.
  - revert c. apply all_chars. vm_compute. reflexivity.
Qed.
Lemma lc_S c : letter_in ["S"%char] c = true <-> c = "S"%char \/ c = "s"%char. Proof. apply letter_class. cbn. tauto. Qed.
Lemma lc_I c : letter_in ["I"%char] c = true <-> c = "I"%char \/ c = "i"%char. Proof. apply letter_class. cbn. tauto. Qed.
Lemma lc_F c : letter_in ["F"%char] c = true <-> c = "F"%char \/ c = "f"%char. Proof. apply letter_class. cbn. tauto. Qed.
Lemma lc_E c : letter_in ["E"%char] c = true <-> c = "E"%char \/ c = "e"%char. Proof. apply letter_class. cbn. tauto. Qed.
Lemma lc_M c : letter_in ["M"%char] c = true <-> c = "M"%char \/ c = "m"%char. Proof. apply letter_class. cbn. tauto. Qed.
Lemma extension_iff e : extension e <-> exists x y z, e = [x; y; z] /\
  ((letter_in ["S"%char] x = true /\ letter_in ["I"%char] y = true /\ letter_in ["F"; "U"; "N"]%char z = true) \/
   (letter_in ["F"%char] x = true /\ letter_in ["E"%char] y = true /\ letter_in ["M"%char] z = true)).
Proof.
  unfold extension, sif_ext, siu_ext, sin_ext, fem_ext. rewrite !spelled3. split.
  - intros [(x & y & z & -> & Hx & Hy & Hz)|[(x & y & z & -> & Hx & Hy & Hz)|[(x & y & z & -> & Hx & Hy & Hz)|(x & y & z & -> & Hx & Hy & Hz)]]];
      exists x, y, z; rewrite lc_S, lc_I, lc_F, lc_E, lc_M, letter3_class; (split; [reflexivity|tauto]).
  - intros (x & y & z & -> & H). rewrite lc_S, lc_I, lc_F, lc_E, lc_M, letter3_class in H.
    destruct H as [(Hx & Hy & [Hz|[Hz|Hz]])|(Hx & Hy & Hz)];
      [left|right; left|right; right; left|right; right; right]; exists x, y, z; tauto.
Qed.
Lemma in_ext s a b : In (a, b) (m_ext s) <-> extension a /\ s = a ++ b.
Proof.
  unfold m_ext. rewrite in_app_iff, !in_three, extension_iff. split.
  - intros [(x & y & z & -> & H)|(x & y & z & -> & H)]; (split; [exists x, y, z; tauto|tauto]).
  - intros [(x & y & z & -> & [H|H]) ->]; [left|right]; exists x, y, z; tauto.
Qed.

(* ---- the whole expression ---- *)
Definition m_rest (p : text * text) : list sifname :=
  flat_map (fun l =>
  flat_map (fun n =>
  flat_map (fun h =>
  flat_map (fun a =>
  map (fun e => (fst p, fst l, fst n, fst e)) (m_ext (snd a)))
    (m_any (snd h)))
    (m_hier (snd n)))
    (m_number (snd l)))
    (m_char (letter_in ["R"; "T"; "G"; "L"]%char) (snd p)).
Lemma m_name_eq s : m_name s = flat_map m_rest (m_lazy is_word s).
Proof. reflexivity. Qed.
Lemma in_rest p s q l n e : In (q, l, n, e) (m_rest (p, s)) <->
  q = p /\ exists c h d r, l = [c] /\ type_letter c /\ number n /\ hierarchy_part h /\ extension e /\ d <> nl /\
  s = l ++ n ++ h ++ [d] ++ e ++ r.
Proof.
  unfold m_rest. cbn [fst snd]. rewrite in_flat_map. split.
  - intros ((l' & t1) & H1 & H). apply in_char in H1. destruct H1 as (c & -> & Hc & ->). cbn [fst snd] in H.
    apply in_flat_map in H. destruct H as ((n' & t2) & H1 & H). apply in_number in H1. destruct H1 as [Hn ->]. cbn [fst snd] in H.
    apply in_flat_map in H. destruct H as ((h & t3) & H1 & H). apply in_hier in H1. destruct H1 as [Hh ->]. cbn [fst snd] in H.
    apply in_flat_map in H. destruct H as ((a & t4) & H1 & H). apply in_char in H1. destruct H1 as (d & -> & Hd & ->). cbn [fst snd] in H.
    apply in_map_iff in H. destruct H as ((e' & r) & H & H1). apply in_ext in H1. destruct H1 as [He ->].
    cbn [fst] in H. injection H as <- <- <- <-. split; [reflexivity|]. exists c, h, d, r.
    apply type_class in Hc. apply negb_true_iff, Ascii.eqb_neq in Hd. now repeat (split; [assumption || reflexivity|]).
  - intros (-> & c & h & d & r & -> & Hc & Hn & Hh & He & Hd & ->).
    exists ([c], n ++ h ++ [d] ++ e ++ r). split; [apply in_char; exists c; split; [reflexivity|split; [now apply type_class|reflexivity]]|].
    apply in_flat_map. exists (n, h ++ [d] ++ e ++ r). split; [now apply in_number|].
    apply in_flat_map. exists (h, [d] ++ e ++ r). split; [now apply in_hier|].
    apply in_flat_map. exists ([d], e ++ r). split; [apply in_char; exists d; split; [reflexivity|split; [|reflexivity]]; apply negb_true_iff; now apply Ascii.eqb_neq|].
    apply in_map_iff. exists (e, r). split; [reflexivity|]. now apply in_ext.
Qed.
Lemma in_name s x : In x (m_name s) <-> reading s x.
Proof.
  destruct x as [[[p l] n] e]. rewrite m_name_eq, in_flat_map. unfold reading. split.
  - intros ((p', t) & H1 & H2). apply in_lazy in H1. destruct H1 as [-> Hw]. apply in_rest in H2.
    destruct H2 as (-> & c & h & d & r & -> & Hc & Hn & Hh & He & Hd & ->). exists c, h, d, r.
    apply (forallb_Forall _ _ _ word_class) in Hw. now repeat (split; [assumption || reflexivity|]).
  - intros (c & h & d & r & -> & Hc & Hp & Hn & Hh & He & Hd & ->).
    exists (p, [c] ++ n ++ h ++ [d] ++ e ++ r). split.
    + apply in_lazy. split; [reflexivity|]. now apply (forallb_Forall _ _ _ word_class).
    + apply in_rest. split; [reflexivity|]. now exists c, h, d, r.
Qed.
Lemma flat_map_head {A B} (f : A -> list B) : forall l x r, flat_map f l = x :: r ->
  exists l1 y l2, l = l1 ++ y :: l2 /\ (forall z, In z l1 -> f z = []) /\ In x (f y).
Proof.
  induction l as [|y l IH]; intros x r E; [discriminate|]. cbn in E. destruct (f y) as [|x' r'] eqn:F.
  - destruct (IH x r E) as (l1 & y' & l2 & -> & H & Hi). exists (y :: l1), y', l2. split; [reflexivity|].
    split; [|exact Hi]. intros z [<-|Hz]; [exact F|now apply H].
  - cbn in E. injection E as <- _. exists [], y, l. split; [reflexivity|]. split; [easy|]. rewrite F. now left.
Qed.
Lemma head_first s x r : m_name s = x :: r -> first_reading s x.
Proof.
  intros E. split; [apply in_name; rewrite E; now left|].
  intros y Hy. rewrite m_name_eq in E. apply flat_map_head in E. destruct E as (l1 & z & l2 & E & H1 & Hx).
  apply in_name in Hy. rewrite m_name_eq in Hy. apply in_flat_map in Hy. destruct Hy as (z' & Hz & Hy).
  destruct x as [[[xp xl] xn] xe], y as [[[yp yl] yn] ye], z as [zp zs], z' as [zp' zs'].
  apply in_rest in Hx. destruct Hx as [-> _]. pose proof Hy as Hy'. apply in_rest in Hy'. destruct Hy' as [-> _]. cbn.
  rewrite E in Hz. apply in_app_iff in Hz. destruct Hz as [Hz|[Hz|Hz]].
  - rewrite (H1 _ Hz) in Hy. easy.
  - injection Hz as <- _. lia.
  - pose proof (lazy_sorted _ _ _ _ _ E _ Hz). cbn in *. lia.
Qed.

(* ---- one reading for a prefix ---- *)
Lemma any_disjoint s t : forallb (fun c => negb (memb (s2l t) c)) (s2l s) = true -> forall c, any_of s c -> any_of t c -> False.
Proof.
  intros H c Hs Ht. rewrite forallb_forall in H. specialize (H c Hs). apply negb_true_iff in H.
  unfold any_of in Ht. apply memb_spec in Ht. congruence.
Qed.
Lemma first_is_digit c : first_digit c -> digit_char c.
Proof. unfold first_digit, digit_char, any_of. cbn. tauto. Qed.
Definition ext1 := any_of "SsFf".
Definition ext2 := any_of "IiEe".
Definition ext3 := any_of "FfUuNnMm".
Lemma ext_chars e : extension e -> exists x y z, e = [x; y; z] /\ ext1 x /\ ext2 y /\ ext3 z.
Proof.
  intros H. apply extension_iff in H. destruct H as (x & y & z & -> & H). rewrite lc_S, lc_I, lc_F, lc_E, lc_M, letter3_class in H.
  exists x, y, z. split; [reflexivity|]. unfold ext1, ext2, ext3, any_of. cbn.
  destruct H as [(Hx & Hy & Hz)|(Hx & Hy & Hz)]; (split; [|split]); intuition congruence.
Qed.
Lemma run_unique (P : ascii -> Prop) : forall a b x y ra rb, Forall P a -> Forall P b -> ~ P x -> ~ P y ->
  a ++ x :: ra = b ++ y :: rb -> a = b.
Proof.
  induction a as [|c a IH]; intros [|d b] x y ra rb Ha Hb Hx Hy E; cbn in E.
  - reflexivity.
  - injection E as -> _. inversion Hb; subst. easy.
  - injection E as <- _. inversion Ha; subst. easy.
  - injection E as -> E. inversion Ha; inversion Hb; subst. f_equal. now apply (IH b x y ra rb).
Qed.
Lemma number_digits n : number n -> Forall digit_char n.
Proof. intros (d & ds & -> & H & H2). constructor; [now apply first_is_digit|exact H2]. Qed.
Ltac disj t H1 H2 := exfalso; revert H1 H2; apply (any_disjoint _ _ t).
Lemma dig_ext1 c : digit_char c -> ext1 c -> False. Proof. apply any_disjoint. reflexivity. Qed.
Lemma dig_ext2 c : digit_char c -> ext2 c -> False. Proof. apply any_disjoint. reflexivity. Qed.
Lemma dig_h c : digit_char c -> any_of "Hh" c -> False. Proof. apply any_disjoint. reflexivity. Qed.
Lemma h_ext1 c : any_of "Hh" c -> ext1 c -> False. Proof. apply any_disjoint. reflexivity. Qed.
Lemma ext12 c : ext1 c -> ext2 c -> False. Proof. apply any_disjoint. reflexivity. Qed.
(** digits, then the character in place of the dot, then the extension: one way only *)
Lemma tail_unique : forall a b d1 d2 e1 e2 r1 r2, Forall digit_char a -> Forall digit_char b ->
  extension e1 -> extension e2 -> a ++ d1 :: e1 ++ r1 = b ++ d2 :: e2 ++ r2 -> a = b /\ e1 = e2.
Proof.
  intros a b d1 d2 e1 e2 r1 r2 Ha Hb He1 He2.
  apply ext_chars in He1. destruct He1 as (x1 & y1 & z1 & -> & X1 & Y1 & Z1).
  apply ext_chars in He2. destruct He2 as (x2 & y2 & z2 & -> & X2 & Y2 & Z2). cbn.
  revert b Hb. induction a as [|c a IH]; intros [|c' b] Hb E; cbn in E.
  - injection E as _ -> -> -> _. now split.
  - exfalso. injection E as _ E. inversion Hb as [|? ? _ Hb']; subst. destruct b as [|c2 b]; cbn in E.
    + injection E as _ -> _ _. now apply (ext12 x2).
    + injection E as -> _. inversion Hb'; subst. now apply (dig_ext1 c2).
  - exfalso. injection E as _ E. inversion Ha as [|? ? _ Ha']; subst. destruct a as [|c2 a]; cbn in E.
    + injection E as _ <- _ _. now apply (ext12 x1).
    + injection E as <- _. inversion Ha'; subst. now apply (dig_ext1 c2).
  - injection E as -> E. inversion Ha; inversion Hb; subst. destruct (IH ltac:(assumption) b ltac:(assumption) E) as [-> ->]. now split.
Qed.
(** a number with and without hierarchy part *)
Lemma tail_mixed : forall a b d1 d2 e1 e2 r1 r2 hc m, Forall digit_char a -> Forall digit_char b -> any_of "Hh" hc -> number m ->
  extension e1 -> extension e2 -> a ++ d1 :: e1 ++ r1 = b ++ hc :: m ++ d2 :: e2 ++ r2 -> False.
Proof.
  intros a b d1 d2 e1 e2 r1 r2 hc m Ha Hb Hh Hm He1 He2.
  apply ext_chars in He1. destruct He1 as (x1 & y1 & z1 & -> & X1 & Y1 & Z1). cbn.
  revert b Hb. induction a as [|c a IH]; intros [|c' b] Hb E; cbn in E.
  - injection E as _ E. destruct Hm as (d & ds & -> & Hd & _). cbn in E. injection E as -> _.
    apply (dig_ext1 d); [now apply first_is_digit|exact X1].
  - injection E as _ E. inversion Hb as [|? ? _ Hb']; subst. destruct b as [|c2 b]; cbn in E.
    + injection E as -> _. now apply (h_ext1 hc).
    + injection E as -> _. inversion Hb'; subst. now apply (dig_ext1 c2).
  - injection E as -> _. inversion Ha; subst. now apply (dig_h hc).
  - injection E as -> E. inversion Ha; inversion Hb; subst. now apply (IH ltac:(assumption) b).
Qed.
Lemma reading_unique s p l n e l' n' e' : reading s (p, l, n, e) -> reading s (p, l', n', e') -> l = l' /\ n = n' /\ e = e'.
Proof.
  intros (c & h & d & r & -> & Hc & Hp & Hn & Hh & He & Hd & E) (c' & h' & d' & r' & -> & Hc' & _ & Hn' & Hh' & He' & Hd' & E').
  rewrite E in E'. apply app_inv_head in E'. cbn [app] in E'. injection E' as -> E'. split; [reflexivity|].
  apply number_digits in Hn, Hn'.
  destruct Hh as [->|(hc & m & -> & Hhc & Hm)], Hh' as [->|(hc' & m' & -> & Hhc' & Hm')]; cbn [app] in E'.
  - now apply (tail_unique _ _ d d' _ _ r r').
  - exfalso. now apply (tail_mixed _ _ _ _ _ _ _ _ _ _ Hn Hn' Hhc' Hm' He He' E').
  - exfalso. now apply (tail_mixed _ _ _ _ _ _ _ _ _ _ Hn' Hn Hhc Hm He' He (eq_sym E')).
  - assert (n = n') as ->.
    { apply (run_unique digit_char n n' hc hc' _ _ Hn Hn' (fun G => dig_h _ G Hhc) (fun G => dig_h _ G Hhc') E'). }
    split; [reflexivity|]. apply app_inv_head in E'. injection E' as _ E'.
    apply number_digits in Hm, Hm'. now apply (tail_unique m m' d d' _ _ r r').
Qed.
Lemma prefix_determined s x y : reading s x -> reading s y -> length (prefix_of x) = length (prefix_of y) -> x = y.
Proof.
  intros Hx Hy L. destruct x as [[[p l] n] e], y as [[[p' l'] n'] e']. cbn in L.
  assert (p = p') as ->.
  { destruct Hx as (c & h & d & r & _ & _ & _ & _ & _ & _ & _ & E), Hy as (c' & h' & d' & r' & _ & _ & _ & _ & _ & _ & _ & E').
    rewrite E in E'. apply (f_equal (firstn (length p))) in E'. rewrite firstn_app, Nat.sub_diag, firstn_O, app_nil_r, firstn_all in E'.
    rewrite L in E'. now rewrite firstn_app, Nat.sub_diag, firstn_O, app_nil_r, firstn_all in E'. }
  destruct (reading_unique _ _ _ _ _ _ _ _ Hx Hy) as (-> & -> & ->). reflexivity.
Qed.

Theorem parse_sifname_ok s x : parse_sifname s = Ok x <-> first_reading s x.
Proof.
  unfold parse_sifname. split.
  - destruct (m_name s) as [|y r] eqn:E; [discriminate|]. intros H. injection H as <-. now apply (head_first s y r).
  - intros [Hx Hmin]. destruct (m_name s) as [|y r] eqn:E.
    + apply in_name in Hx. rewrite E in Hx. easy.
    + f_equal. destruct (head_first s y r E) as [Hy Hmin']. apply (prefix_determined s); [exact Hy|exact Hx|].
      specialize (Hmin _ Hy). specialize (Hmin' _ Hx). lia.
Qed.
Theorem parse_sifname_err s : parse_sifname s = Err ValueError <-> forall x, ~ reading s x.
Proof.
  unfold parse_sifname. split.
  - destruct (m_name s) as [|y r] eqn:E; [|discriminate]. intros _ x Hx. apply in_name in Hx. rewrite E in Hx. easy.
  - intros H. destruct (m_name s) as [|y r] eqn:E; [reflexivity|]. exfalso. apply (H y). apply in_name. rewrite E. now left.
Qed.
Lemma sesam_reading s x : sesam_name s x -> reading s x.
Proof.
  destruct x as [[[p l] n] e]. intros (c & h & -> & Hc & Hp & Hn & Hh & He & ->). exists c, h, "."%char, [].
  rewrite app_nil_r. now repeat (split; [assumption || reflexivity || discriminate|]).
Qed.

(* ---- a prefix without an extension in it ---- *)
Definition exta := any_of "SsFfIiEeUuNnMm".
Lemma ext_all e : extension e -> Forall exta e /\ length e = 3%nat.
Proof.
  intros H. apply ext_chars in H. destruct H as (x & y & z & -> & X & Y & Z). split; [|reflexivity].
  assert (I : forall s c, any_of s c -> incl (s2l s) (s2l "SsFfIiEeUuNnMm") -> exta c) by (intros s c Hc Hi; now apply Hi).
  constructor; [|constructor; [|constructor; [|constructor]]]; (eapply I; [eassumption|]);
    intros a Ha; apply memb_spec; revert a Ha; apply forallb_forall; reflexivity.
Qed.
Lemma exta_type c : exta c -> type_letter c -> False. Proof. apply any_disjoint. reflexivity. Qed.
Lemma exta_digit c : exta c -> digit_char c -> False. Proof. apply any_disjoint. reflexivity. Qed.
Lemma exta_h c : exta c -> any_of "Hh" c -> False. Proof. apply any_disjoint. reflexivity. Qed.
Lemma exta_dot c : exta c -> c = "."%char -> False. Proof. intros H ->. unfold exta, any_of in H. cbn in H. intuition discriminate. Qed.
Lemma type_digit c : type_letter c -> digit_char c -> False. Proof. apply any_disjoint. reflexivity. Qed.
Lemma type_h c : type_letter c -> any_of "Hh" c -> False. Proof. apply any_disjoint. reflexivity. Qed.
Definition middle (c : ascii) : Prop := digit_char c \/ any_of "Hh" c.
Lemma hier_middle h : hierarchy_part h -> Forall middle h.
Proof.
  intros [->|(c & n & -> & Hc & Hn)]; [constructor|]. constructor; [now right|].
  apply number_digits in Hn. eapply Forall_impl; [|exact Hn]. intros a Ha. now left.
Qed.
Lemma number_middle n : number n -> Forall middle n.
Proof. intros H. apply number_digits in H. eapply Forall_impl; [|exact H]. intros a Ha. now left. Qed.
(** where an extension can be in a proper name *)
Lemma app_split {A} : forall (a b c d : list A), a ++ b = c ++ d -> (length a <= length c)%nat -> exists m, c = a ++ m /\ b = m ++ d.
Proof.
  induction a as [|x a IH]; intros b c d E L; [exists c; now split|].
  destruct c as [|y c]; [cbn in L; lia|]. cbn in E. injection E as -> E. destruct (IH b c d E) as (m & -> & ->); [cbn in L; lia|].
  now exists m.
Qed.
Lemma ext_place : forall a e' b m e, Forall (fun c => ~ exta c) m -> (0 < length m)%nat -> extension e' -> length e = 3%nat ->
  a ++ e' ++ b = m ++ e -> a = m /\ e' = e /\ b = [].
Proof.
  intros a e' b m e Hm Lm He' Le E.
  destruct (ext_all _ He') as [Hx L3]. assert (L : length (a ++ e' ++ b) = length (m ++ e)) by now rewrite E.
  rewrite !app_length in L.
  destruct (le_lt_dec (length m) (length a)) as [Hl|Hl].
  - symmetry in E. destruct (app_split _ _ _ _ E Hl) as (k & -> & ->). rewrite !app_length in *.
    destruct k; [|cbn in *; lia]. destruct b; [|cbn in *; lia]. cbn. rewrite !app_nil_r. now repeat split.
  - exfalso. destruct (app_split _ _ _ _ E) as (k & -> & E2); [lia|]. destruct e' as [|x e']; [discriminate|].
    destruct k as [|y k]; [rewrite app_nil_r in Hl; lia|]. cbn in E2. injection E2 as -> _.
    apply Forall_app in Hm. destruct Hm as [_ Hm]. inversion Hm; subst. inversion Hx; subst. easy.
Qed.
Lemma proper_first s p l n e : sesam_name s (p, l, n, e) -> no_extension p -> first_reading s (p, l, n, e).
Proof.
  intros Hs Hno. pose proof (sesam_reading _ _ Hs) as Hr. split; [exact Hr|]. intros [[[p' l'] n'] e'] Hy. cbn.
  destruct (le_lt_dec (length p) (length p')) as [L|L]; [exact L|exfalso].
  destruct Hs as (c & h & -> & Hc & Hp & Hn & Hh & He & E).
  destruct Hy as (c' & h' & d' & r' & -> & Hc' & Hp' & Hn' & Hh' & He' & Hd' & E').
  rewrite E in E'. symmetry in E'.
  destruct (app_split _ _ _ _ E') as (k & -> & E2); [lia|]. destruct k as [|k0 k]; [rewrite app_nil_r in L; lia|].
  cbn [app] in E2. injection E2 as -> E2.
  (* what follows the letter taken in the prefix *)
  set (mid := n' ++ h') in *. assert (Hmid : Forall middle mid).
  { unfold mid. apply Forall_app. split; [now apply number_middle|now apply hier_middle]. }
  rewrite app_assoc in E2. fold mid in E2.
  assert (Hl : ~ middle c).
  { intros [G|G]; [now apply (type_digit c)|now apply (type_h c)]. }
  assert (Lk : (length mid <= length k)%nat).
  { destruct (le_lt_dec (length mid) (length k)) as [G|G]; [exact G|exfalso].
    symmetry in E2. destruct (app_split _ _ _ _ E2) as (q & Em & E3); [lia|]. destruct q as [|q0 q]; [rewrite Em, app_nil_r in G; lia|].
    cbn in E3. injection E3 as -> _. rewrite Em in Hmid. apply Forall_app in Hmid. destruct Hmid as [_ Hmid]. inversion Hmid; subst. easy. }
  destruct (app_split _ _ _ _ E2 Lk) as (q & -> & E3).
  destruct (ext_all _ He') as [Hx L3]. destruct (ext_all _ He) as [_ L3'].
  (* the extension found is in q or at the end, the latter too far *)
  destruct (le_lt_dec 4 (length q)) as [Lq|Lq].
  - (* within the prefix *)
    assert (G : exists t, q = (d' :: e') ++ t).
    { cbn [app] in E3. change (d' :: e' ++ r') with ((d' :: e') ++ r') in E3. destruct (app_split _ _ _ _ E3) as (t & -> & _); [cbn; lia|]. now exists t. }
    destruct G as (t & ->). apply (Hno (p' ++ k0 :: mid ++ [d']) e' t); [|exact He'].
    rewrite <- !app_assoc. cbn. rewrite <- !app_assoc. reflexivity.
  - (* overlapping the letter, the number or the dot *)
    assert (G : (d' :: e') ++ r' = (q ++ [c] ++ n ++ h ++ ["."%char]) ++ e).
    { cbn [app]. cbn [app] in E3. rewrite E3. rewrite <- !app_assoc. cbn [app]. rewrite <- !app_assoc. reflexivity. }
    destruct Hn as (nd & nds & -> & Hnd & Hnds).
    assert (Hm : Forall (fun c => ~ exta c) ([c] ++ (nd :: nds) ++ h ++ ["."%char])).
    { apply Forall_app. split; [constructor; [intros X; now apply (exta_type c)|constructor]|].
      apply Forall_app. split.
      - constructor; [intros X; apply (exta_digit nd X); now apply first_is_digit|]. eapply Forall_impl; [|exact Hnds].
        intros a Ha X. now apply (exta_digit a).
      - apply Forall_app. split.
        + eapply Forall_impl; [|apply (hier_middle _ Hh)]. intros a [Ha|Ha] X; [now apply (exta_digit a)|now apply (exta_h a)].
        + constructor; [intros X; now apply (exta_dot _ X)|constructor]. }
    destruct q as [|q0 q].
    + (* d' = c *)
      cbn [app] in G. injection G as -> G. change (e' ++ r' = nd :: nds ++ h ++ "."%char :: e) in G || idtac.
      destruct e' as [|x e']; [discriminate|]. cbn in G. injection G as -> _. inversion Hx; subst.
      apply (exta_digit nd); [assumption|now apply first_is_digit].
    + cbn [app] in G. injection G as -> G. rewrite <- app_assoc in G.
      (* e' starts in q or at c *)
      assert (Hq : (length q <= 2)%nat) by (cbn in Lq; lia).
      assert (In c e').
      { destruct (ext_chars _ He') as (x & y & z & -> & _). cbn in G.
        destruct q as [|a1 [|a2 [|]]]; cbn in G, Hq; try lia; injection G; intros; subst; cbn; tauto. }
      rewrite Forall_forall in Hx. now apply (exta_type c); [apply Hx|].
Qed.
Theorem proper_parsed s p l n e : sesam_name s (p, l, n, e) -> no_extension p -> parse_sifname s = Ok (p, l, n, e).
Proof. intros H Hn. apply parse_sifname_ok. now apply proper_first. Qed.

(* ---- the check for SIN ---- *)
Lemma sin_upper e : extension e -> (lascii_eqb (upper_text e) (s2l "SIN") = true <-> sin_ext e).
Proof.
  unfold extension, sif_ext, siu_ext, sin_ext, fem_ext. intros H. rewrite !spelled3 in H. rewrite spelled3.
  assert (N : forall x y z, [x; y; z] = e -> (exists x y z, e = [x; y; z] /\ (x = "S" \/ x = "s") /\ (y = "I" \/ y = "i") /\ (z = "N" \/ z = "n"))%char ->
    (x = "S" \/ x = "s")%char /\ (z = "N" \/ z = "n")%char).
  { intros x y z E (x' & y' & z' & E' & ? & ? & ?). rewrite E' in E. injection E as -> -> ->. tauto. }
  destruct H as [(x & y & z & E & Hx & Hy & Hz)|[(x & y & z & E & Hx & Hy & Hz)|[(x & y & z & E & Hx & Hy & Hz)|(x & y & z & E & Hx & Hy & Hz)]]];
    (split; [intros G|intros G; apply (N x y z) in G; [destruct G|now symmetry]]); subst e;
    destruct Hx as [->| ->], Hy as [->| ->], Hz as [->| ->]; try (vm_compute in G; discriminate G);
    try (vm_compute; reflexivity); try (exfalso; intuition discriminate); eexists _, _, _; (split; [reflexivity|]); tauto.
Qed.
Theorem sif_checked_ok s x : sif_checked s = Ok x <-> first_reading s x /\ ~ sin_ext (snd x).
Proof.
  unfold sif_checked. destruct (parse_sifname s) as [y|er] eqn:E.
  - cbn [rbind]. apply parse_sifname_ok in E. assert (He : extension (snd y)).
    { destruct y as [[[p l] n] e]. destruct E as [(c & h & d & r & _ & _ & _ & _ & _ & He & _) _]. exact He. }
    pose proof (sin_upper _ He) as G. destruct (lascii_eqb (upper_text (snd y)) (s2l "SIN")).
    + split; [discriminate|]. intros [Hx Hn]. exfalso. apply Hn. apply parse_sifname_ok in Hx, E. rewrite Hx in E. injection E as <-. now apply G.
    + split.
      * intros H. injection H as <-. split; [exact E|]. intros X. apply G in X. discriminate.
      * intros [Hx _]. apply parse_sifname_ok in Hx, E. rewrite Hx in E. injection E as <-. reflexivity.
  - cbn. split; [discriminate|]. intros [Hx _]. apply parse_sifname_ok in Hx. congruence.
Qed.
Theorem sif_checked_err s : sif_checked s = Err ValueError <-> (forall x, ~ reading s x) \/ exists x, first_reading s x /\ sin_ext (snd x).
Proof.
  destruct (sif_checked s) as [x|er] eqn:E.
  - split; [discriminate|]. intros H. exfalso. apply sif_checked_ok in E. destruct E as [Hf Hn]. destruct H as [H|(y & Hy & Hs)].
    + apply (H x), Hf.
    + apply parse_sifname_ok in Hf, Hy. rewrite Hf in Hy. injection Hy as <-. easy.
  - assert (er = ValueError) as ->.
    { unfold sif_checked, parse_sifname in E. destruct (m_name s); cbn in E; [congruence|]. destruct (lascii_eqb _ _); congruence. }
    split; [intros _|reflexivity]. unfold sif_checked in E. destruct (parse_sifname s) as [y|er'] eqn:F.
    + right. exists y. apply parse_sifname_ok in F. split; [exact F|]. cbn [rbind] in E.
      destruct (lascii_eqb (upper_text (snd y)) (s2l "SIN")) eqn:G; [|discriminate].
      assert (He : extension (snd y)).
      { destruct y as [[[p l] n] e]. destruct F as [(c & h & d & r & _ & _ & _ & _ & _ & He & _) _]. exact He. }
      now apply sin_upper.
    + left. apply parse_sifname_err. rewrite F. destruct er'; cbn in E; congruence.
Qed.
