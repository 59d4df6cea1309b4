(** * VtfNodes: blocks of nodes and of elements written and read *)
From Coq Require Import ZifyBool.
From Verif Require Import Base ListFacts Flt RoundSpec Write Vtf VtfSpec VtfText.
Open Scope string_scope.
Open Scope Z_scope.
Open Scope list_scope.
Open Scope monad_scope.

Fixpoint foldm {A B} (f : B -> A -> Res A) (l : list B) (a : A) : Res A :=
  match l with
  | [] => Ok a
  | x :: r => match f x a with Ok a' => foldm f r a' | Err e => Err e end
  end.
Lemma next_nonblank l r : split l <> [] -> next_line (l :: r) = Some (l, r).
Proof. intro H. destruct (split l) as [|w ws] eqn:E; [now elim H|]. now apply (next_solid l w ws). Qed.
Lemma while_lines {A} (f : text -> A -> Res A) (cond : text -> bool) : forall L fuel a a' l rest,
  Forall (fun x => cond x = true /\ split x <> []) L -> split l <> [] -> cond l = false -> foldm f L a = Ok a' -> (length L < fuel)%nat ->
  exists x r, next_line (L ++ l :: rest) = Some (x, r) /\ while fuel cond (plain f) a x r = LEnd a' l rest.
Proof.
  induction L as [|y L IH]; intros fuel a a' l rest HL Hl Hc HF Hn; (destruct fuel as [|k]; [inversion Hn|]); cbn [app foldm length] in *.
  - exists l, rest. split; [now apply next_nonblank|]. cbn [while]. rewrite Hc. now injection HF as ->.
  - inversion HL as [|? ? (Cy & Sy) HL']; subst. exists y, (L ++ l :: rest). split; [now apply next_nonblank|]. cbn [while]. rewrite Cy. unfold plain at 1.
    destruct (f y a) as [a1|]; [|discriminate]. destruct (IH k a1 a' l rest HL' Hl Hc HF ltac:(lia)) as (x & r & -> & E). exact E.
Qed.

(** ** First words *)
Lemma starts_iff words l w ws : split l = w :: ws -> starts words l = str_in (l2s w) words.
Proof. intro E. unfold starts. now rewrite E. Qed.
Lemma word0_is l w ws : split l = w :: ws -> word0 l = l2s w.
Proof. intro E. unfold word0. now rewrite E. Qed.
Lemma no_star c w l ws : split l = (c :: w) :: ws -> c <> "*"%char -> starts block_types l = false.
Proof.
  intros E H. rewrite (starts_iff _ _ _ _ E). unfold str_in, l2s. cbn [existsb block_types string_of_list_ascii String.eqb]. apply Ascii.eqb_neq in H. now rewrite H.
Qed.
Lemma no_percent c w l ws words : split l = (c :: w) :: ws -> c <> "%"%char -> Forall (fun s => exists r, s = String "%"%char r) words -> starts words l = false.
Proof.
  intros E H W. rewrite (starts_iff _ _ _ _ E). unfold str_in, l2s. apply Ascii.eqb_neq in H. induction W as [|s words (r & ->) W IH]; [reflexivity|].
  cbn [existsb string_of_list_ascii String.eqb]. rewrite H. exact IH.
Qed.
Lemma split_line s l w r : s2l s = w ++ [blank] -> word w -> split (line_of s l) = w :: split (l ++ [nl]) /\ (r = r :> unit).
Proof. intros E W. split; [|reflexivity]. unfold line_of. rewrite E, <- app_assoc. cbn [app]. now rewrite split_word. Qed.
Lemma solid_s2l s : forallb (fun c => negb (is_space_s c)) (s2l s) = true -> solid (s2l s).
Proof. intro H. apply Forall_forall. intros c Hc. rewrite forallb_forall in H. specialize (H c Hc). destruct (is_space_s c); [discriminate|reflexivity]. Qed.
(** A line of a word, a blank and a text; a line of one word. *)
Lemma split_two s w l : s2l s = s2l w ++ [blank] -> word (s2l w) -> split (line_of s l) = s2l w :: split (l ++ [nl]).
Proof. intros E W. unfold line_of. rewrite E, <- app_assoc. cbn [app]. now rewrite split_word. Qed.
Lemma split_one s : word (s2l s) -> split (line_of s []) = [s2l s].
Proof. intros W. unfold line_of. cbn [app]. rewrite split_word by (exact W || reflexivity). reflexivity. Qed.
Lemma split_num n : 0 <= n -> split (znum n ++ [nl]) = [znum n].
Proof. intro H. rewrite split_word; [reflexivity|now apply znum_word|reflexivity]. Qed.
Ltac wordly := split; [discriminate|apply solid_s2l; reflexivity].
Lemma line_is s l : forallb (fun c => negb (Ascii.eqb c nl)) (s2l s) = true -> ~ In nl l -> is_line (line_of s l).
Proof.
  intros H N. exists (s2l s ++ l). split; [unfold line_of; now rewrite app_assoc|]. intro K. apply in_app_or in K as [K|K]; [|now apply N].
  rewrite forallb_forall in H. specialize (H _ K). discriminate.
Qed.
Lemma znum_no_nl n : 0 <= n -> ~ In nl (znum n).
Proof. intro H. apply space_not_nl. now destruct (znum_word n H). Qed.

(** ** Rows of coordinates *)
Lemma word_nonempty w : word w -> exists c r, w = c :: r /\ is_space_s c = false.
Proof. intros [N S]. destruct w as [|c r]; [now elim N|]. inversion S; subst. eauto. Qed.
Definition number_char (c : ascii) : Prop := 48 <= code c <= 57 \/ c = "-"%char.
Lemma number_not_special c : number_char c -> c <> "*"%char /\ c <> "%"%char.
Proof. intros [H| ->]; [|split; discriminate]. split; intros ->; destruct H as [H _]; apply H; reflexivity. Qed.
Lemma znum_head n : 0 <= n -> exists c r, znum n = c :: r /\ number_char c.
Proof.
  intro H. destruct (znum_digits n H) as [D N]. destruct (znum n) as [|c r]; [now elim N|]. exists c, r. split; [reflexivity|]. left.
  apply SeqProofs.digits_chars in D. now inversion D.
Qed.
Lemma fixed5_head v : finite v -> exists c r, fixed5 v = c :: r /\ number_char c.
Proof.
  intro F. rewrite fixed5_finite by exact F. destruct (hundred_nearest v F) as [P _]. destruct (znum_head (hundred_thousandths v / 10 ^ 5)) as (c & r & -> & H); [apply Z.div_pos; lia|].
  destruct (flt_sign v); cbn [sign_text app]; [exists "-"%char; eexists; split; [reflexivity|now right]|eauto].
Qed.
Lemma fits_finite v : fits_column v -> finite v.
Proof. destruct v; cbn; tauto. Qed.

Definition coord_line (c : list flt) : text :=
  match c with x :: y :: z :: _ => format_f5 x ++ format_f5 y ++ format_f5 z ++ [nl] | _ => [] end.
Lemma three {A} (c : list A) : length c = 3%nat -> exists x y z, c = [x; y; z].
Proof. destruct c as [|x [|y [|z [|? ?]]]]; try discriminate. eauto. Qed.
Lemma format_no_nl v : finite v -> ~ In nl (format_f5 v).
Proof.
  intros F H. unfold format_f5, rjust in H. apply in_app_or in H as [H|H]; [apply repeat_spec in H; discriminate|]. revert H. apply space_not_nl. now destruct (fixed5_word v F).
Qed.
Lemma coords_is_line p c : length c = 3%nat -> Forall fits_column c -> ~ In nl p -> is_line (p ++ coord_line c).
Proof.
  intros L H N. destruct (three c L) as (x & y & z & ->). inversion H as [|? ? Hx H1]; subst. inversion H1 as [|? ? Hy H2]; subst. inversion H2 as [|? ? Hz _]; subst.
  exists (p ++ format_f5 x ++ format_f5 y ++ format_f5 z). split; [cbn [coord_line]; now rewrite !app_assoc|].
  assert (X : forall v, fits_column v -> ~ In nl (format_f5 v)) by (intros; now apply format_no_nl, fits_finite).
  intro K. apply in_app_or in K as [K|K]; [now apply N|]. apply in_app_or in K as [K|K]; [now apply (X x)|]. apply in_app_or in K as [K|K]; [now apply (X y)|now apply (X z)].
Qed.
Lemma write_coords_ok c : length c = 3%nat -> write_coords c = Ok (coord_line c).
Proof. intro L. now destruct (three c L) as (x & y & z & ->). Qed.
Lemma coords_split c : length c = 3%nat -> Forall fits_column c -> split (coord_line c) = map fixed5 c /\ exists r, coord_line c = blank :: r.
Proof.
  intros L H. destruct (three c L) as (x & y & z & ->). inversion H as [|? ? Hx H1]; subst. inversion H1 as [|? ? Hy H2]; subst. inversion H2 as [|? ? Hz _]; subst.
  cbn [coord_line map]. now apply split_coords.
Qed.
Lemma coords_read c : Forall fits_column c -> exists w, rmap parse_float (map fixed5 c) = Ok w /\ Forall2 same_coord c w.
Proof.
  induction 1 as [|v c H _ (w & E & F)]; [exists []; split; [reflexivity|constructor]|].
  destruct (fixed5_reads v (fits_finite v H)) as (x & Ex & Sx). exists (x :: w). split; [|now constructor]. cbn [map rmap]. now rewrite Ex, E.
Qed.
Lemma rmap_ok {A B} (f : A -> Res B) (g : A -> B) l : Forall (fun x => f x = Ok (g x)) l -> rmap f l = Ok (map g l).
Proof. induction 1 as [|x l H _ IH]; [reflexivity|]. cbn [rmap map]. now rewrite H, IH. Qed.

(** Rows without numbers. *)
Lemma rows_plain arr : Forall (fun c => length c = 3%nat /\ Forall fits_column c) arr -> exists brr, Forall2 (Forall2 same_coord) arr brr /\
  forall a0, foldm (node_line false) (map coord_line arr) (a0, []) = Ok (a0 ++ brr, []).
Proof.
  induction 1 as [|c arr (L & H) _ (brr & F & E)]; [exists []; split; [constructor|intro a0; now rewrite app_nil_r]|].
  destruct (coords_read c H) as (w & Ew & Fw). destruct (coords_split c L H) as [S _]. exists (w :: brr). split; [now constructor|]. intro a0. cbn [map foldm].
  unfold node_line at 1. rewrite S, Ew. cbn [rbind fst snd]. rewrite E. now rewrite <- app_assoc.
Qed.
Definition id_line (p : Z * list flt) : text := ljust 8 (znum (fst p)) ++ coord_line (snd p).
Lemma id_split p : 0 <= fst p < 10 ^ 7 -> length (snd p) = 3%nat -> Forall fits_column (snd p) -> split (id_line p) = znum (fst p) :: map fixed5 (snd p).
Proof.
  intros I L H. unfold id_line. rewrite split_ljust; [|apply znum_word; lia|].
  - now rewrite (proj1 (coords_split _ L H)).
  - pose proof (znum_length (fst p) 7 I). lia.
Qed.
Lemma rows_ids ids arr : length ids = length arr -> Forall (fun i => 0 <= i < 10 ^ 7) ids -> Forall (fun c => length c = 3%nat /\ Forall fits_column c) arr ->
  exists brr, Forall2 (Forall2 same_coord) arr brr /\
  forall a0 n0, foldm (node_line true) (map id_line (combine ids arr)) (a0, n0) = Ok (a0 ++ brr, n0 ++ ids).
Proof.
  revert arr. induction ids as [|i ids IH]; intros [|c arr] EL HI HA; try discriminate.
  - exists []. split; [constructor|]. intros. now rewrite !app_nil_r.
  - injection EL as EL. inversion HI as [|? ? Hi HI']; subst. inversion HA as [|? ? (L & H) HA']; subst. destruct (IH arr EL HI' HA') as (brr & F & E).
    destruct (coords_read c H) as (w & Ew & Fw). exists (w :: brr). split; [now constructor|]. intros a0 n0. cbn [combine map foldm].
    unfold node_line at 1. rewrite id_split by assumption. cbn [tl fst snd pyget nth_error]. rewrite Ew. cbn [rbind]. rewrite int_znum by lia. cbn [rbind]. rewrite E. now rewrite <- !app_assoc.
Qed.

(** ** Blocks of nodes *)
Definition block_start (l : text) : Prop := split l <> [] /\ starts block_types l = true /\ elem_type_line l = false.
(** A block written as lines, read as an update of the object. *)
Definition heads (l : text) (b : string) (k : Z) : Prop := split l = [s2l b; znum k].

Lemma nodes_block b k : good_nodes b -> fst b = Some k -> exists (l0 : text) (ls : list text) b', Forall is_line (l0 :: ls) /\ write_nodes b = Ok (concat (l0 :: ls)) /\ (heads l0 "*NODES" k /\ exists r, l0 = "*"%char :: r) /\
  (n_ids (snd b) = n_ids b' /\ Forall2 (Forall2 same_coord) (n_arr (snd b)) (n_arr b')) /\
  forall fuel v l rest, block_start l -> (length ls < fuel)%nat ->
    read_nodes fuel k (ls ++ l :: rest) v = More l rest (set_nodes v (oset oz_eqb (Some k) b' (v_nodes v))).
Proof.
  destruct b as [key [arr nids]]. intros ((k' & Hk & E) & HA & HN) E'. cbn [fst snd n_arr n_ids] in *. rewrite E' in E. injection E as <-. subst key.
  assert (H0 : is_line (line_of "*NODES " (znum k))) by (apply line_is; [reflexivity|now apply znum_no_nl]).
  assert (S0 : heads (line_of "*NODES " (znum k)) "*NODES" k) by (unfold heads; rewrite (split_two _ "*NODES") by (reflexivity || wordly); now rewrite split_num).
  destruct nids as [ids|].
  - destruct HN as (EL & HI). destruct (rows_ids ids arr EL HI HA) as (brr & F & E).
    assert (HC : Forall (fun p => 0 <= fst p < 10 ^ 7 /\ length (snd p) = 3%nat /\ Forall fits_column (snd p)) (combine ids arr)).
    { apply Forall_forall. intros [i c] Hin. pose proof (in_combine_l _ _ _ _ Hin) as H1. pose proof (in_combine_r _ _ _ _ Hin) as H2. rewrite Forall_forall in HI, HA. cbn [fst snd]. split; [now apply HI|now apply HA]. }
    exists (line_of "*NODES " (znum k)), (line_of "%WITH_ID" [] :: map id_line (combine ids arr)), (mkNodes brr (Some ids)). split; [|split; [|split; [|split]]].
    + constructor; [exact H0|]. constructor; [apply line_is; [reflexivity|intros []]|]. apply Forall_map. eapply Forall_impl; [|exact HC]. intros p (I & L & H). apply coords_is_line; [exact L|exact H|].
      unfold ljust. intro K. apply in_app_or in K as [K|K]; [revert K; apply znum_no_nl; lia|apply repeat_spec in K; discriminate].
    + unfold write_nodes. cbn [n_ids n_arr]. rewrite (rmap_ok _ id_line).
      * reflexivity.
      * eapply Forall_impl; [|exact HC]. intros p (I & L & H). cbn beta. now rewrite write_coords_ok.
    + split; [exact S0|eexists; reflexivity].
    + now split.
    + intros fuel v l rest (Sl & Bl & _) HF. unfold read_nodes. cbn [app]. assert (S1 : split (line_of "%WITH_ID" []) = [s2l "%WITH_ID"]) by (apply split_one; wordly).
      rewrite (next_solid _ _ _ _ S1). cbv beta iota zeta. rewrite (word0_is _ _ _ S1). change (String.eqb (l2s (s2l "%WITH_ID")) "%NO_ID") with false. change (String.eqb (l2s (s2l "%WITH_ID")) "%WITH_ID") with true. cbv zeta; cbn iota.
      destruct (while_lines (node_line true) not_block (map id_line (combine ids arr)) fuel ([], []) (brr, ids) l rest) as (x & r & -> & ->).
      * apply Forall_map. eapply Forall_impl; [|exact HC]. intros p (I & L & H). pose proof (id_split p I L H) as Sp. rewrite Sp. split; [|discriminate].
        destruct (znum_head (fst p) ltac:(lia)) as (c & w & Ec & Nc). rewrite Ec in Sp. unfold not_block. rewrite (no_star _ _ _ _ Sp); [reflexivity|]. now apply number_not_special.
      * exact Sl.
      * unfold not_block. now rewrite Bl.
      * apply (E [] []).
      * cbn [length] in HF. lia.
      * reflexivity.
  - destruct (rows_plain arr HA) as (brr & F & E).
    exists (line_of "*NODES " (znum k)), (line_of "%NO_ID" [] :: map coord_line arr), (mkNodes brr None). split; [|split; [|split; [|split]]].
    + constructor; [exact H0|]. constructor; [apply line_is; [reflexivity|intros []]|]. apply Forall_map. eapply Forall_impl; [|exact HA]. intros c (L & H). now apply (coords_is_line []).
    + unfold write_nodes. cbn [n_ids n_arr]. rewrite (rmap_ok _ coord_line).
      * reflexivity.
      * eapply Forall_impl; [|exact HA]. intros c (L & H). now apply write_coords_ok.
    + split; [exact S0|eexists; reflexivity].
    + now split.
    + intros fuel v l rest (Sl & Bl & _) HF. unfold read_nodes. cbn [app]. assert (S1 : split (line_of "%NO_ID" []) = [s2l "%NO_ID"]) by (apply split_one; wordly).
      rewrite (next_solid _ _ _ _ S1). cbv beta iota zeta. rewrite (word0_is _ _ _ S1). change (String.eqb (l2s (s2l "%NO_ID")) "%NO_ID") with true. cbv zeta; cbn iota.
      destruct (while_lines (node_line false) not_block (map coord_line arr) fuel ([], []) (brr, []) l rest) as (x & r & -> & ->).
      * apply Forall_map. eapply Forall_impl; [|exact HA]. intros c (L & H). destruct (coords_split c L H) as [Sp _]. destruct (three c L) as (x & y & z & ->). inversion H; subst. cbn [map] in Sp. rewrite Sp. split; [|discriminate].
        destruct (fixed5_head x) as (d & w & Ed & Nd); [now apply fits_finite|]. rewrite Ed in Sp. unfold not_block. rewrite (no_star _ _ _ _ Sp); [reflexivity|]. now apply number_not_special.
      * exact Sl.
      * unfold not_block. now rewrite Bl.
      * apply (E []).
      * cbn [length] in HF. lia.
      * reflexivity.
Qed.
