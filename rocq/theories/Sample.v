(** * Sample: concrete formatted files for the examples beside the theorems. *)
From Verif Require Import Base Flt SeqFile H5 Schema Parsers SeqSpec StoreSpec ParserSpec LayoutSpec FileSpec DataSpec
  ListFacts SeqProofs FltProofs NumProofs SeqMore StoreProofs ParserRun FileProofs.
Open Scope string_scope.
Open Scope Z_scope.
Open Scope list_scope.

(** ** Lines of whole numbers *)
Fixpoint mag (fuel : nat) (a e : Z) : Z :=
  match fuel with
  | O => e
  | S n => if a <? 10 ^ (e + 1) then e else mag n a (e + 1)
  end.
Definition num16 (n : Z) : list ascii :=
  let e := mag 8 (Z.abs n) 0 in
  [blank; if n <? 0 then "-"%char else blank]
    ++ firstn 1 (decimal 9 (Z.abs n * 10 ^ (8 - e))) ++ ["."%char]
    ++ skipn 1 (decimal 9 (Z.abs n * 10 ^ (8 - e))) ++ s2l "E+0" ++ [chr (48 + e)].
Definition pad8 (n : string) : list ascii := s2l n ++ repeat blank (8 - length (s2l n)).
Definition fline (n : string) (zs : list Z) : list ascii := (pad8 n ++ concat (map num16 zs)) ++ [nl].
Definition flines (l : list (string * list Z)) : list ascii := flat_map (fun x => fline (fst x) (snd x)) l.

Lemma num16_e16 n : Z.abs n < 10 ^ 9 -> e16 n (num16 n).
Proof.
  intro H. unfold num16.
  assert (G : forall fuel e, 0 <= e <= 8 -> Z.of_nat fuel = 8 - e -> (10 ^ e <= Z.abs n \/ e = 0) ->
    0 <= mag fuel (Z.abs n) e <= 8 /\ (10 ^ mag fuel (Z.abs n) e <= Z.abs n < 10 ^ (mag fuel (Z.abs n) e + 1) \/ (n = 0 /\ mag fuel (Z.abs n) e = 0))).
  { induction fuel as [|fuel IH]; intros e E1 E2 E3; cbn [mag].
    - assert (e = 8) as -> by lia. split; [lia|]. left. destruct E3 as [E3|E3]; [|discriminate]. split; [exact E3|exact H].
    - destruct (Z.ltb_spec (Z.abs n) (10 ^ (e + 1))).
      + split; [lia|]. destruct E3 as [E3| ->]; [left; lia|].
        destruct (Z.eq_dec n 0) as [->|]; [right; auto|left]. cbn in *. lia.
      + apply IH; [lia|lia|left; assumption]. }
  destruct (G 8%nat 0 ltac:(lia) ltac:(reflexivity) ltac:(now right)) as [G1 G2].
  exact (e16_intro n _ G1 G2).
Qed.
Lemma nums16 zs : Forall (fun n => Z.abs n < 10 ^ 9) zs -> enc_nums Fmt (map f_of_Z zs) (concat (map num16 zs)).
Proof.
  induction 1 as [|n zs H _ IH]; cbn [map concat]; [constructor|]. constructor; [|exact IH]. apply e16_enc; [exact H|apply num16_e16; exact H].
Qed.
Lemma repeat_graph n : Forall (fun c => graphic c \/ c = blank) (repeat blank n).
Proof. induction n; constructor; auto. Qed.

Definition small (zs : list Z) : bool := forallb (fun n => Z.abs n <? 10 ^ 9) zs.
Lemma small_ok zs : small zs = true -> Forall (fun n => Z.abs n < 10 ^ 9) zs.
Proof. unfold small. rewrite forallb_forall, Forall_forall. intros H x Hx. apply H in Hx. lia. Qed.
Definition good_name (n : string) : bool :=
  negb (String.eqb n "") && forallb (fun c => (33 <=? code c) && (code c <=? 126)) (s2l n) && (length (s2l n) <=? 8)%nat.
Lemma head_line n zs : good_name n = true -> small zs = true -> enc_header Fmt n (map f_of_Z zs) (fline n zs).
Proof.
  unfold good_name. rewrite !andb_true_iff. intros [[H1 H2] H3] H4. apply Nat.leb_le in H3. apply small_ok in H4.
  unfold fline, pad8. pose proof (nums16 _ H4) as HN. eapply enc_header_intro.
  - apply (name8_intro n 0 (8 - length (s2l n))); [|apply graphic_dec; exact H2|lia].
    destruct (String.eqb_spec n ""); [discriminate|assumption].
  - exact HN.
  - cbn [repeat app]. apply frame_fmt. apply graph_nonl. apply Forall_app. split; [|exact (enc_nums_nonl _ _ HN)].
    apply Forall_app. split; [|apply repeat_graph]. apply graphic_dec in H2. eapply Forall_impl; [|exact H2]. auto.
Qed.
Lemma cont_line ld zs : small zs = true -> enc_cont Fmt ld (map f_of_Z zs) (fline "" zs).
Proof.
  intro H. apply small_ok in H. pose proof (nums16 _ H) as HN. unfold fline, pad8. apply enc_cont_intro with (concat (map num16 zs)); [exact HN|].
  apply frame_fmt. apply graph_nonl. apply Forall_app. split; [apply repeat_graph|exact (enc_nums_nonl _ _ HN)].
Qed.
Fixpoint chunk4 (l : list Z) : list (list Z) :=
  match l with
  | a :: b :: c :: d :: r => match r with [] => [l] | _ => [a; b; c; d] :: chunk4 r end
  | [] => []
  | _ => [l]
  end.
(** Continuation lines of four numbers. *)
Definition dlines (l : list Z) : list ascii := flat_map (fline "") (chunk4 l).
Lemma chunk_ind (P : list Z -> Prop) : (forall l, (length l < 4)%nat -> P l) -> (forall a b c d r, P r -> P (a :: b :: c :: d :: r)) -> forall l, P l.
Proof.
  intros H0 H4 l. assert (G : forall n l, (length l <= n)%nat -> P l).
  { induction n as [|n IH]; intros [|a [|b [|c [|d r]]]] L; try (apply H0; cbn; lia); cbn in L; try lia. apply H4. apply IH. lia. }
  apply (G (length l)). lia.
Qed.
Lemma data_lines ld l : small l = true -> enc_data Fmt ld (map f_of_Z l) (dlines l).
Proof.
  intro H. exists [], (map (map f_of_Z) (chunk4 l)). split.
  - assert (G : legal_cut Fmt (map (map f_of_Z) (chunk4 l)) /\ concat (map (map f_of_Z) (chunk4 l)) = map f_of_Z l /\
      (l = [] \/ (0 < length (last (map (map f_of_Z) (chunk4 l)) []))%nat) /\ (l <> [] -> chunk4 l <> [])).
    { clear H. induction l as [l L|a b c d r IH] using chunk_ind.
      - destruct l as [|a [|b [|c [|d r]]]]; cbn in L; try lia; cbn; repeat split; auto; try (right; lia); try congruence; lia.
      - destruct IH as (I1 & I2 & I3 & I4). destruct r as [|e r]; [cbn; repeat split; auto; try (right; lia); congruence|].
        change (chunk4 (a :: b :: c :: d :: e :: r)) with ([a; b; c; d] :: chunk4 (e :: r)).
        specialize (I4 ltac:(discriminate)). destruct (chunk4 (e :: r)) as [|x xs] eqn:E; [congruence|].
        repeat split; auto.
        + cbn [map concat app] in *. rewrite <- I2. reflexivity.
        + destruct I3 as [I3|I3]; [discriminate|]. right. exact I3.
        + discriminate. }
    destruct G as (G1 & G2 & G3 & G4). split; [exact G1|]. split; [now rewrite app_nil_r|].
    destruct G3 as [->|G3]; [now left|right; exact G3].
  - unfold dlines. assert (G : Forall (fun zs => small zs = true) (chunk4 l)).
    { revert H. induction l as [l L|a b c d r IH] using chunk_ind; intro H.
      - destruct l as [|a [|b [|c [|d r]]]]; cbn in L; try lia; [constructor|..]; constructor; auto.
      - destruct r as [|e r]; [constructor; auto|].
        change (chunk4 (a :: b :: c :: d :: e :: r)) with ([a; b; c; d] :: chunk4 (e :: r)).
        unfold small in *. rewrite forallb_forall in H. constructor.
        + apply forallb_forall. intros x Hx. apply H. cbn in *. intuition.
        + apply IH. apply forallb_forall. intros x Hx. apply H. cbn in *. intuition. }
    induction G as [|x xs G1 _ IH]; cbn [map flat_map]; constructor; [apply cont_line; exact G1|exact IH].
Qed.

(** ** Storing, computed *)
Lemma dropwhile_split (p : ascii -> bool) l : exists a, l = a ++ dropwhile p l /\ Forall (fun c => p c = true) a /\
  match dropwhile p l with [] => True | c :: _ => p c = false end.
Proof.
  induction l as [|c l (a & E & F & G)]; [exists []; repeat split; constructor|]. cbn [dropwhile].
  destruct (p c) eqn:P; [|exists []; repeat split; [constructor|exact P]].
  exists (c :: a). repeat split; [cbn; now rewrite <- E|constructor; assumption|exact G].
Qed.
Lemma fix_bytes_is n s : text_of n s (fix_bytes n s).
Proof.
  unfold fix_bytes. destruct (dropwhile_split (fun c => Ascii.eqb c nul) (rev (firstn n s))) as (a & E & F & G).
  exists (length a). split.
  - apply (f_equal (@rev ascii)) in E. rewrite rev_involutive, rev_app_distr in E. rewrite E at 1. f_equal.
    clear -F. induction F as [|c a Hc _ IH]; [reflexivity|]. cbn [rev length]. apply Ascii.eqb_eq in Hc. subst c. rewrite IH.
    change [nul] with (repeat nul 1). rewrite <- repeat_app. f_equal. lia.
  - destruct (dropwhile _ _) as [|c r]; [now left|right]. cbn [rev]. rewrite last_last. now apply Ascii.eqb_neq.
Qed.
Fixpoint cellf (t : ctype) (v : pyval) : option cell :=
  match t, v with
  | TI, PF f => match int_of f with Ok z => if (-2147483648 <=? z) && (z <=? 2147483647) then Some (CI z) else None | Err _ => None end
  | TI, PI z => if (-2147483648 <=? z) && (z <=? 2147483647) then Some (CI z) else None
  | TF, PF f => Some (CF (round32 f))
  | TC, PF f => Some (CC (round32 f) f0)
  | TC, PC a b => Some (CC (round32 a) (round32 b))
  | TS n, PS s => if forallb (fun c => code c <? 128) s then Some (CS (fix_bytes n s)) else None
  | TV n t', PT l => if Nat.eqb (length l) n then
      match (fix go l := match l with [] => Some [] | v :: r => match cellf t' v, go r with Some c, Some cs => Some (c :: cs) | _, _ => None end end) l with
      | Some cs => Some (CV cs) | None => None end
    else None
  | _, _ => None
  end.
Definition cellsf (t : ctype) : list pyval -> option (list cell) :=
  fix go l := match l with [] => Some [] | v :: r => match cellf t v, go r with Some c, Some cs => Some (c :: cs) | _, _ => None end end.
Lemma cellf_ok t : forall v c, cellf t v = Some c -> stored t v c.
Proof.
  induction t as [| |n| |n t IH]; intros v c H; destruct v; cbn [cellf] in H; try discriminate.
  - destruct (int_of f) eqn:E; [|discriminate]. destruct (_ && _) eqn:B; [|discriminate]. injection H as <-. apply int_of_trunc in E.
    split; [exact E|unfold int32; lia].
  - destruct (_ && _) eqn:B; [|discriminate]. injection H as <-. split; [reflexivity|unfold int32; lia].
  - injection H as <-. reflexivity.
  - destruct (forallb _ s) eqn:B; [|discriminate]. injection H as <-. split.
    + rewrite forallb_forall in B. apply Forall_forall. intros x Hx. apply B in Hx. lia.
    + apply fix_bytes_is.
  - injection H as <-. split; reflexivity.
  - injection H as <-. split; reflexivity.
  - destruct (Nat.eqb_spec (length l) n) as [E|]; [|discriminate]. change (match cellsf t l with Some cs => Some (CV cs) | None => None end = Some c) in H.
    destruct (cellsf t l) as [cs|] eqn:EC; [|discriminate]. injection H as <-. split; [exact E|]. clear E.
    revert cs EC. induction l as [|v l IL]; intros cs EC; cbn [cellsf] in EC; [injection EC as <-; constructor|].
    destruct (cellf t v) eqn:E1; [|discriminate]. change ((match cellsf t l with Some cs => Some (c :: cs) | None => None end) = Some cs) in EC.
    destruct (cellsf t l); [|discriminate]. injection EC as <-. constructor; [apply IH; exact E1|apply IL; reflexivity].
Qed.
Lemma cellsf_ok t : forall l cs, cellsf t l = Some cs -> Forall2 (stored t) l cs.
Proof.
  induction l as [|v l IL]; intros cs EC; cbn [cellsf] in EC; [injection EC as <-; constructor|].
  destruct (cellf t v) eqn:E1; [|discriminate]. change ((match cellsf t l with Some cs => Some (c :: cs) | None => None end) = Some cs) in EC.
  destruct (cellsf t l); [|discriminate]. injection EC as <-. constructor; [apply cellf_ok; exact E1|apply IL; reflexivity].
Qed.
Fixpoint rowf (ts : list ctype) (vs : list pyval) : option (list cell) :=
  match ts, vs with
  | [], [] => Some []
  | t :: ts', v :: vs' => match cellf t v, rowf ts' vs' with Some c, Some cs => Some (c :: cs) | _, _ => None end
  | _, _ => None
  end.
Lemma rowf_ok ts : forall vs cs, rowf ts vs = Some cs ->
  Forall2 (fun tv c => stored (fst tv) (snd tv) c) (combine ts vs) cs /\ length ts = length vs.
Proof.
  induction ts as [|t ts IH]; intros [|v vs] cs H; try discriminate; cbn [rowf] in H.
  - injection H as <-. split; [constructor|reflexivity].
  - destruct (cellf t v) eqn:E; [|discriminate]. destruct (rowf ts vs) eqn:E2; [|discriminate]. injection H as <-.
    destruct (IH _ _ E2) as [A B]. split; [constructor; [apply cellf_ok; exact E|exact A]|cbn; now rewrite B].
Qed.
Fixpoint dataf (ts : list ctype) (ds : list (list pyval)) : option (list (list cell)) :=
  match ts, ds with
  | [], [] => Some []
  | t :: ts', d :: ds' => match cellsf t d, dataf ts' ds' with Some c, Some cs => Some (c :: cs) | _, _ => None end
  | _, _ => None
  end.
Lemma dataf_ok ts : forall ds cs, dataf ts ds = Some cs ->
  Forall2 (fun td cs => Forall2 (stored (fst td)) (snd td) cs) (combine ts ds) cs /\ length ds = length ts /\ length cs = length ts.
Proof.
  induction ts as [|t ts IH]; intros [|v vs] cs H; try discriminate; cbn [dataf] in H.
  - injection H as <-. repeat split; constructor.
  - destruct (cellsf t v) eqn:E; [|discriminate]. destruct (dataf ts vs) eqn:E2; [|discriminate]. injection H as <-.
    destruct (IH _ _ E2) as (A & B & C). split; [constructor; [apply cellsf_ok; exact E|exact A]|cbn; now rewrite B, C].
Qed.
Fixpoint app2f (a b : list (list cell)) : list (list cell) :=
  match a, b with x :: a', y :: b' => (x ++ y) :: app2f a' b' | _, _ => [] end.
Lemma app2f_ok : forall a b, length a = length b -> app2 a b (app2f a b).
Proof. induction a as [|x a IH]; intros [|y b] H; try discriminate; cbn [app2f]; constructor. apply IH. now injection H. Qed.
Fixpoint putf (cols elts : list ctype) (c : content) (es : list entry) : option content :=
  match es with
  | [] => Some c
  | e :: r =>
      if Nat.eqb (length (c_arrs c)) (length elts) then
      match rowf cols (e_row e ++ ranges (map Zlen (c_arrs c)) (e_data e)), dataf elts (e_data e) with
      | Some cs, Some ds => putf cols elts (mkC (c_rows c ++ [cs]) (app2f (c_arrs c) ds)) r
      | _, _ => None
      end else None
  end.
Lemma putf_ok cols elts : forall es c c', putf cols elts c es = Some c' -> put_entries cols elts c es c'.
Proof.
  induction es as [|e es IH]; intros c c' H; cbn [putf] in H; [injection H as <-; constructor|].
  destruct (Nat.eqb_spec (length (c_arrs c)) (length elts)) as [L|]; [|discriminate].
  destruct (rowf _ _) as [cs|] eqn:E1; [|discriminate]. destruct (dataf _ _) as [ds|] eqn:E2; [|discriminate].
  apply rowf_ok in E1 as [A1 A2]. apply dataf_ok in E2 as (B1 & B2 & B3). destruct c as [rows arrs]. cbn [c_rows c_arrs] in *.
  econstructor; [|apply IH; exact H]. econstructor; eauto. apply app2f_ok. congruence.
Qed.
