(** * VtuText: base64 round trip; rendered trees are XML text. *)
From Verif Require Import Base DecFacts Vtu VtuSpec.
From Coq Require Import ZifyBool FinFun.
Open Scope string_scope.
Open Scope Z_scope.
Open Scope list_scope.

(** ** Base64 *)
Lemma b64val_char z : 0 <= z < 64 -> b64val (b64char z) = Some z.
Proof.
  intro H. assert (G : forallb (fun n => match b64val (b64char (Z.of_nat n)) with Some v => v =? Z.of_nat n | None => false end) (seq 0 64) = true) by (vm_compute; reflexivity).
  rewrite forallb_forall in G. specialize (G (Z.to_nat z)). rewrite Z2Nat.id in G by lia.
  assert (In (Z.to_nat z) (seq 0 64)) as HI by (apply in_seq; lia). apply G in HI.
  destruct (b64val (b64char z)) as [v|]; [|discriminate]. apply Z.eqb_eq in HI. now subst.
Qed.
Lemma b64val_pad : b64val "=" = None. Proof. reflexivity. Qed.
Ltac euc := Z.to_euclidean_division_equations; lia.
Lemma b64_roundtrip_len k : forall bs, (length bs <= k)%nat -> b64decode (b64encode bs) = Some bs.
Proof.
  induction k as [|k IH]; intros bs Hk; [destruct bs; [reflexivity|cbn in Hk; lia]|].
  destruct bs as [|a [|b [|c r]]]; [reflexivity| | |].
  - cbn [b64encode]. set (n := code a * 16). pose proof (code_range a). cbn [b64decode].
    rewrite !b64val_char, b64val_pad by (unfold n; euc). rewrite !Ascii.eqb_refl. cbn [andb].
    assert (E : n / 64 * 64 + n mod 64 = n) by euc. rewrite E. replace (n mod 16 =? 0) with true by (unfold n; symmetry; apply Z.eqb_eq; euc).
    replace (n / 16) with (code a) by (unfold n; euc). now rewrite chr_code.
  - cbn [b64encode]. set (n := (code a * 256 + code b) * 4). pose proof (code_range a). pose proof (code_range b). cbn [b64decode].
    rewrite !b64val_char, b64val_pad by (unfold n; euc). rewrite Ascii.eqb_refl. cbn [andb].
    assert (E : (n / 4096 * 64 + n / 64 mod 64) * 64 + n mod 64 = n) by euc. rewrite E. replace (n mod 4 =? 0) with true by (unfold n; symmetry; apply Z.eqb_eq; euc).
    replace (n / 1024) with (code a) by (unfold n; euc). replace (n / 4 mod 256) with (code b) by (unfold n; euc). now rewrite !chr_code.
  - cbn [b64encode]. set (n := (code a * 256 + code b) * 256 + code c). pose proof (code_range a). pose proof (code_range b). pose proof (code_range c). cbn [b64decode].
    rewrite !b64val_char by (unfold n; euc). rewrite IH by (cbn in Hk; lia). cbn [option_map].
    assert (E : ((n / 262144 * 64 + n / 4096 mod 64) * 64 + n / 64 mod 64) * 64 + n mod 64 = n) by euc. rewrite E.
    replace (n / 65536) with (code a) by (unfold n; euc). replace (n / 256 mod 256) with (code b) by (unfold n; euc). replace (n mod 256) with (code c) by (unfold n; euc).
    now rewrite !chr_code.
Qed.
Lemma b64_roundtrip bs : b64decode (b64encode bs) = Some bs.
Proof. exact (b64_roundtrip_len (length bs) bs (le_n _)). Qed.

Lemma le_bytes_length n z : length (le_bytes n z) = n.
Proof. revert z. induction n; intro z; cbn; auto. Qed.
Lemma le_bytes_unsigned n : forall z, 0 <= z < 256 ^ Z.of_nat n -> unsigned (le_bytes n z) z.
Proof.
  induction n as [|n IH]; intros z Hz; cbn [le_bytes].
  - change (256 ^ Z.of_nat 0) with 1 in Hz. assert (z = 0) as -> by lia. constructor.
  - rewrite Nat2Z.inj_succ, Z.pow_succ_r in Hz by lia.
    assert (E : code (chr (z mod 256)) = z mod 256) by (apply code_chr, Z.mod_pos_bound; lia).
    assert (G : unsigned (chr (z mod 256) :: le_bytes n (z / 256)) (code (chr (z mod 256)) + 256 * (z / 256))).
    { constructor. apply IH. split; [apply Z.div_pos; lia|]. apply Z.div_lt_upper_bound; lia. }
    rewrite E in G. replace (z mod 256 + 256 * (z / 256)) with z in G by (pose proof (Z.div_mod z 256); lia). exact G.
Qed.

(** ** Characters *)
Lemma index_of_in c l v : index_of c l = Some v -> In c l.
Proof. revert v. induction l as [|x l IH]; intros v H; [discriminate|]. cbn in H. destruct (Ascii.eqb_spec c x) as [->|]; [now left|]. destruct (index_of c l); [right; eapply IH; reflexivity|discriminate]. Qed.
Lemma b64val_text c v : b64val c = Some v -> text_char c = true.
Proof.
  intro H. apply index_of_in in H. assert (G : forallb text_char alphabet = true) by (vm_compute; reflexivity). rewrite forallb_forall in G. apply G. exact H.
Qed.
Lemma b64_text_len k : forall t x, (length t <= k)%nat -> b64decode t = Some x -> forallb text_char t = true.
Proof.
  induction k as [|k IH]; intros t x Hk H; [destruct t; [reflexivity|cbn in Hk; lia]|].
  destruct t as [|a [|b [|c [|d r]]]]; [reflexivity|discriminate|discriminate|discriminate|]. cbn [b64decode] in H.
  destruct (b64val a) as [va|] eqn:Ea; [|discriminate]. destruct (b64val b) as [vb|] eqn:Eb; [|destruct (b64val c), (b64val d); discriminate].
  cbn [forallb]. rewrite (b64val_text _ _ Ea), (b64val_text _ _ Eb). cbn [andb].
  destruct (b64val c) as [vc|] eqn:Ec, (b64val d) as [vd|] eqn:Ed; try discriminate.
  - rewrite (b64val_text _ _ Ec), (b64val_text _ _ Ed). cbn [andb]. destruct (b64decode r) eqn:Er; [|discriminate]. eapply IH; [cbn in Hk; lia|exact Er].
  - rewrite (b64val_text _ _ Ec). cbn [andb]. destruct (Ascii.eqb_spec d "=") as [->|]; [|discriminate]. destruct (andb _ _); [|discriminate]. destruct r; [reflexivity|discriminate].
  - destruct (Ascii.eqb_spec c "=") as [->|]; [|discriminate]. destruct (Ascii.eqb_spec d "=") as [->|]; [|discriminate]. destruct (andb _ _); [|discriminate]. destruct r; [reflexivity|discriminate].
Qed.
Lemma b64_text t x : b64decode t = Some x -> forallb text_char t = true.
Proof. exact (b64_text_len (length t) t x (le_n _)). Qed.

(** ** Rendered trees *)
Lemma content_text t r : forallb text_char t = true -> content r -> content (t ++ r).
Proof. induction t as [|c t IH]; intros H Hr; [exact Hr|]. cbn in H. apply andb_prop in H as [H1 H2]. cbn. constructor; [exact H1|now apply IH]. Qed.
Lemma margin_text d : forallb text_char (margin d) = true.
Proof. unfold margin. induction d as [|d IH]; [reflexivity|]. cbn [repeat concat]. rewrite forallb_app, IH. reflexivity. Qed.
Definition good_attrs (attrs : list (string * bytes)) : Prop :=
  Forall (fun kv => xml_name (B (fst kv)) /\ forallb value_char (snd kv) = true) attrs /\ NoDup (map fst attrs).
Inductive good_xml : xml -> Prop :=
| good_node tag attrs kids : xml_name (B tag) -> good_attrs attrs -> Forall good_xml kids -> good_xml (Node tag attrs kids)
| good_text tag attrs text : xml_name (B tag) -> good_attrs attrs -> forallb text_char text = true -> good_xml (Text tag attrs text).
Lemma B_inj s t : B s = B t -> s = t.
Proof. unfold B, s2l. intro H. rewrite <- (string_of_list_ascii_of_string s), <- (string_of_list_ascii_of_string t). now rewrite H. Qed.
Lemma attributes_of attrs : Forall (fun kv => xml_name (B (fst kv)) /\ forallb value_char (snd kv) = true) attrs ->
  attributes (concat (map (fun kv : string * bytes => B " " ++ B (fst kv) ++ B "=" ++ B """" ++ snd kv ++ B """") attrs)) (map (fun kv => B (fst kv)) attrs).
Proof.
  induction 1 as [|kv attrs [H1 H2] _ IH]; cbn [map concat]; [constructor|].
  pose proof (att_cons _ _ _ _ H1 H2 IH) as G. rewrite <- !app_assoc. exact G.
Qed.
Lemma NoDup_B (l : list (string * bytes)) : NoDup (map fst l) -> NoDup (map (fun kv => B (fst kv)) l).
Proof.
  intro H. rewrite <- (map_map fst B). apply Injective_map_NoDup; [|exact H]. intros a b. apply B_inj.
Qed.
Section xml_ind.
  Variable P : xml -> Prop.
  Hypothesis HN : forall tag attrs kids, Forall P kids -> P (Node tag attrs kids).
  Hypothesis HT : forall tag attrs text, P (Text tag attrs text).
  Fixpoint xml_ind2 (x : xml) : P x :=
    match x with
    | Node tag attrs kids => HN tag attrs kids ((fix go (l : list xml) : Forall P l := match l with [] => Forall_nil P | k :: r => Forall_cons k (xml_ind2 k) (go r) end) kids)
    | Text tag attrs text => HT tag attrs text
    end.
End xml_ind.
Lemma nl_text : text_char nl = true. Proof. reflexivity. Qed.
Lemma render_element x : good_xml x -> forall d, exists e, render d x = margin d ++ e ++ [nl] /\ element e.
Proof.
  induction x as [tag attrs kids IH|tag attrs text] using xml_ind2; intros HG d; inversion HG as [? ? ? H1 [H2 H3] H4|? ? ? H1 [H2 H3] H4]; subst; cbn [render]; unfold open_tag, close_tag.
  - set (body := [nl] ++ concat (map (render (S d)) kids) ++ margin d).
    exists (B "<" ++ B tag ++ concat (map (fun kv : string * bytes => B " " ++ B (fst kv) ++ B "=" ++ B """" ++ snd kv ++ B """") attrs) ++ B ">" ++ body ++ B "</" ++ B tag ++ B ">").
    split; [unfold body; now rewrite <- !app_assoc|]. apply elem with (ns := map (fun kv => B (fst kv)) attrs); [exact H1|now apply attributes_of|now apply NoDup_B|].
    unfold body. cbn [app]. constructor; [exact nl_text|]. clear HG H2 H3.
    induction kids as [|k kids IHk]; cbn [map concat app].
    + rewrite <- (app_nil_r (margin d)). apply content_text; [apply margin_text|constructor].
    + inversion IH; subst. inversion H4; subst. destruct (H2 H5 (S d)) as (e & -> & He). rewrite <- !app_assoc. apply content_text; [apply margin_text|].
      apply cont_elem; [exact He|]. cbn [app]. constructor; [exact nl_text|]. apply IHk; assumption.
  - set (body := [nl] ++ margin (S d) ++ text ++ [nl] ++ margin d).
    exists (B "<" ++ B tag ++ concat (map (fun kv : string * bytes => B " " ++ B (fst kv) ++ B "=" ++ B """" ++ snd kv ++ B """") attrs) ++ B ">" ++ body ++ B "</" ++ B tag ++ B ">").
    split; [unfold body; now rewrite <- !app_assoc|]. apply elem with (ns := map (fun kv => B (fst kv)) attrs); [exact H1|now apply attributes_of|now apply NoDup_B|].
    unfold body. cbn [app]. constructor; [exact nl_text|]. apply content_text; [apply margin_text|]. apply content_text; [exact H4|].
    constructor; [exact nl_text|]. rewrite <- (app_nil_r (margin d)). apply content_text; [apply margin_text|constructor].
Qed.
Lemma render_document x : good_xml x -> xml_document (render 0 x).
Proof.
  intro H. destruct (render_element x H 0) as (e & -> & He). exists e, [nl]. repeat split. exact He.
Qed.

(** ** The trees of calls are good *)
Lemma numbered_fst i ns kv : In kv (numbered i ns) -> exists j, i <= j /\ fst kv = ("ComponentName" ++ str_of_Z j)%string /\ In (snd kv) ns.
Proof.
  revert i. induction ns as [|n ns IH]; intros i H; cbn in H; [contradiction|]. destruct H as [<-|H].
  - exists i. repeat split; [lia|now left].
  - destruct (IH _ H) as (j & H1 & H2 & H3). exists j. repeat split; [lia|exact H2|now right].
Qed.
Lemma app_inv_string a b c : (a ++ b = a ++ c)%string -> b = c.
Proof. induction a as [|x a IH]; intro H; [exact H|]. cbn in H. injection H as H. now apply IH. Qed.
Lemma numbered_NoDup ns : forall i, 0 <= i -> NoDup (map fst (numbered i ns)).
Proof.
  induction ns as [|n ns IH]; intros i Hi; cbn [numbered map]; [constructor|]. constructor; [|apply IH; lia].
  intro H. apply in_map_iff in H as (kv & E & H). destruct (numbered_fst _ _ _ H) as (j & H1 & H2 & _). rewrite E in H2. cbn [fst] in H2.
  apply app_inv_string, str_of_Z_inj in H2; lia.
Qed.
Lemma digit_value c : is_digit c = true -> value_char c = true /\ name_char c = true.
Proof.
  unfold is_digit. intro H. split.
  - unfold value_char, xml_char. destruct (Ascii.eqb_spec c "<") as [->|]; [discriminate|]. destruct (Ascii.eqb_spec c "&") as [->|]; [discriminate|]. destruct (Ascii.eqb_spec c """") as [->|]; [discriminate|]. lia.
  - unfold name_char. lia.
Qed.
Lemma forallb_impl {A} (f g : A -> bool) l : (forall x, f x = true -> g x = true) -> forallb f l = true -> forallb g l = true.
Proof. intros H. rewrite !forallb_forall. auto. Qed.
Lemma num_value n : 0 <= n -> forallb value_char (B (str_of_Z n)) = true.
Proof. intro H. destruct (str_of_Z_facts n H) as (ds & E & _ & D & _). unfold B. rewrite E. eapply forallb_impl; [|exact D]. intros c Hc. now apply digit_value. Qed.
Lemma comp_name n : 0 <= n -> xml_name (B ("ComponentName" ++ str_of_Z n)).
Proof.
  intro H. destruct (str_of_Z_facts n H) as (ds & E & _ & D & _). exists "C"%char, (B ("omponentName" ++ str_of_Z n)). split; [reflexivity|]. split; [reflexivity|].
  assert (EB : B ("omponentName" ++ str_of_Z n) = B "omponentName" ++ s2l (str_of_Z n)) by reflexivity. rewrite EB, E, forallb_app.
  apply andb_true_intro. split; [reflexivity|]. eapply forallb_impl; [|exact D]. intros c Hc. now apply digit_value.
Qed.
Lemma vtk_name_value a t : vtk_name a t -> forallb value_char (B t) = true.
Proof. intros [b H|b H|b H]; cbn in H; repeat (destruct H as [<-|H]; [reflexivity|]); destruct H. Qed.
Lemma xname s : (match B s with c :: r => letter c && forallb name_char r | [] => false end) = true -> xml_name (B s).
Proof. destruct (B s) as [|c r] eqn:E; [discriminate|]. intro H. apply andb_prop in H as [H1 H2]. exists c, r. auto. Qed.
Lemma array_good a n cs x : array_xml a n cs x -> forallb value_char n = true -> Forall (fun m => forallb value_char m = true) cs -> good_xml x.
Proof.
  intros (t & nc & hd & pl & H1 & H2 & -> & H4 & H5 & H6) Hn Hc. constructor; [now apply xname| |now apply b64_text in H4]. split.
  - apply Forall_app. split.
    + repeat constructor; cbn [fst snd]; try (now apply xname); [now apply vtk_name_value in H1|exact Hn|apply num_value; lia].
    + apply Forall_forall. intros [k v] H. destruct (numbered_fst _ _ _ H) as (j & J1 & J2 & J3). cbn [fst snd] in *. rewrite J2. split; [now apply comp_name|]. rewrite Forall_forall in Hc. now apply Hc.
  - rewrite map_app. cbn [map fst].
    assert (NI : forall s, (forall j, s <> ("ComponentName" ++ str_of_Z j)%string) -> ~ In s (map fst (numbered 0 cs))).
    { intros s Hs H. apply in_map_iff in H as (kv & E & H). destruct (numbered_fst _ _ _ H) as (j & _ & J2 & _). apply (Hs j). congruence. }
    cbn [app]. do 4 (constructor; [intro K; cbn [In] in K; repeat (destruct K as [K|K]; [discriminate K|]); revert K; apply NI; intros j; discriminate|]).
    apply numbered_NoDup. lia.
Qed.
