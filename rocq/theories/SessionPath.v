(** * SessionPath: paths as text and links *)
From Verif Require Import Base Flt SeqFile H5 Schema Parsers Data Files SifName Convert Session SessionSpec SessionProofs SessionMore ListFacts ConvertProofs.
Open Scope string_scope.
Open Scope Z_scope.
Open Scope list_scope.
Open Scope monad_scope.

Lemma parts_nonempty s : parts s <> [].
Proof. destruct s as [|c s]; [discriminate|]. cbn [parts]. destruct (slash c); [discriminate|]. now destruct (parts s). Qed.
Lemma between_parts s : between ["/"%char] (parts s) = s.
Proof.
  induction s as [|c s IH]; [reflexivity|]. cbn [parts]. destruct (slash c) eqn:S.
  - unfold slash in S. apply Ascii.eqb_eq in S. subst c. pose proof (parts_nonempty s) as N. destruct (parts s) as [|x l]; [contradiction|]. cbn [between app] in *. now rewrite IH.
  - pose proof (parts_nonempty s) as N. destruct (parts s) as [|x l]; [contradiction|]. destruct l as [|y l]; cbn [between app] in *; now rewrite IH.
Qed.
Lemma parts_between ns : ns <> [] -> Forall (fun x => ~ In "/"%char x) ns -> parts (between ["/"%char] ns) = ns.
Proof.
  induction ns as [|x ns IH]; intros N F; [contradiction|]. inversion F as [|? ? Fx Fr]; subst. destruct ns as [|y ns]; [cbn [between]; now apply parts_one|].
  change (between ["/"%char] (x :: y :: ns)) with (x ++ "/"%char :: between ["/"%char] (y :: ns)). rewrite parts_app by exact Fx. f_equal. apply IH; [discriminate|exact Fr].
Qed.
Lemma walk_go ns : Forall (fun n => ~ In "/"%char (s2l n)) ns -> forall p q, walk p ns q <-> fold_left go ns p = q.
Proof.
  induction 1 as [|n ns N F IH]; intros p q; [split; [intro H; now inversion H|intros <-; constructor]|]. cbn [fold_left]. split.
  - intro H. inversion H as [|? ? ? ? X W|? ? ? ? W|? ? W|? ? ? ? P W]; subst.
    + apply IH in W. unfold go. destruct X as [->| ->]; exact W.
    + apply IH in W. unfold go. cbn [String.eqb Ascii.eqb Bool.eqb orb]. now rewrite removelast_last.
    + apply IH in W. exact W.
    + apply IH in W. now rewrite go_part.
  - intro H. unfold go in H. destruct (String.eqb_spec n ""); [cbn [orb] in H; apply walk_stay; [now left|now apply IH]|]. destruct (String.eqb_spec n "."); [cbn [orb] in H; apply walk_stay; [now right|now apply IH]|].
    cbn [orb] in H. destruct (String.eqb_spec n "..").
    + subst n. destruct p as [|x p] using rev_ind; [apply walk_top; now apply IH|]. rewrite removelast_last in H. apply walk_up. now apply IH.
    + apply walk_down; [now repeat split|now apply IH].
Qed.
Lemma map_l2s_s2l ns : map l2s (map s2l ns) = ns.
Proof. induction ns as [|n ns IH]; [reflexivity|]. cbn [map]. now rewrite l2s_s2l, IH. Qed.
Lemma map_s2l_l2s ns : map s2l (map l2s ns) = ns.
Proof. induction ns as [|n ns IH]; [reflexivity|]. cbn [map]. now rewrite s2l_l2s, IH. Qed.
Lemma starts_slash s : match s with c :: _ => slash c | [] => false end = match parts s with [] :: _ :: _ => true | _ => false end.
Proof.
  destruct s as [|c s]; [reflexivity|]. cbn [parts]. destruct (slash c); [|destruct (parts s); reflexivity]. pose proof (parts_nonempty s) as N. now destruct (parts s).
Qed.
Lemma leads_abs cwd path q : leads cwd path q <-> abs_path cwd path = q.
Proof.
  assert (ST : match s2l path with c :: _ => if slash c then [] else cwd | [] => cwd end = if match parts (s2l path) with [] :: _ :: _ => true | _ => false end then [] else cwd).
  { rewrite <- starts_slash. now destruct (s2l path). }
  unfold abs_path. cbv zeta. rewrite ST. split.
  - intros (ns & N & F & E & W).
    assert (FS : Forall (fun x => ~ In "/"%char x) (map s2l ns)) by (apply Forall_map; exact F).
    assert (P : parts (s2l path) = map s2l ns) by (rewrite E; apply parts_between; [now destruct ns|exact FS]). rewrite P, map_l2s_s2l.
    destruct W as [(r & -> & R & W)|(H & W)].
    + destruct r as [|y r]; [contradiction|]. cbn [map s2l]. apply walk_go in W; [exact W|exact F].
    + apply walk_go in W; [|exact F]. destruct ns as [|x ns]; [contradiction|]. destruct ns as [|y ns]; [cbn [map]; now destruct (s2l x)|]. cbn [map]. destruct H as [H|H]; [|discriminate]. cbn [hd] in H.
      destruct (s2l x) eqn:X; [|exact W]. exfalso. apply H. rewrite <- (l2s_s2l x), X. reflexivity.
  - intro H. exists (map l2s (parts (s2l path))).
    assert (F : Forall (fun n => ~ In "/"%char (s2l n)) (map l2s (parts (s2l path)))).
    { apply Forall_map. eapply Forall_impl; [|apply parts_plain]. intros x X. now rewrite s2l_l2s. }
    split; [pose proof (parts_nonempty (s2l path)); now destruct (parts (s2l path))|]. split; [exact F|]. split; [now rewrite map_s2l_l2s, between_parts|].
    destruct (parts (s2l path)) as [|x l] eqn:P; [now apply parts_nonempty in P|]. destruct x as [|c x]; [destruct l as [|y l]|].
    + right. split; [now right|]. now apply walk_go.
    + left. exists (map l2s (y :: l)). split; [reflexivity|]. split; [discriminate|]. now apply walk_go.
    + right. split; [left; discriminate|]. now apply walk_go.
Qed.
Lemma found_at fs p v : found fs p = Some v <-> is_at fs p v.
Proof.
  unfold found, is_at. induction fs as [|[q w] fs IH]; cbn [dget].
  - split; [discriminate|]. intros (a & b & E & _). now destruct a.
  - destruct (here_eqb p q) eqn:H.
    + apply here_spec in H. subst q. split; [intro E; injection E as ->; exists [], fs; split; [reflexivity|intros []]|]. intros (a & b & E & N). destruct a as [|x a]; [now injection E as <- _|].
      injection E as <- _. exfalso. apply N. now left.
    + rewrite IH. split.
      * intros (a & b & -> & N). exists ((q, w) :: a), b. split; [reflexivity|]. intros [X|X]; [|contradiction]. cbn in X. subst q. now rewrite here_refl in H.
      * intros (a & b & E & N). destruct a as [|x a]; [injection E as -> _ _; now rewrite here_refl in H|]. injection E as <- ->. exists a, b. split; [reflexivity|]. intro X. apply N. now right.
Qed.
(** The places on the way. *)
Fixpoint chain (fs : files) (l : list place_of) (p q : place_of) : Prop :=
  match l with
  | [] => p = q /\ forall t, found fs p <> Some (Link t)
  | x :: r => p = x /\ exists t, found fs p = Some (Link t) /\ chain fs r (abs_path (removelast p) t) q
  end.
Lemma links_chain fs p q : links_to fs p q <-> exists l, chain fs l p q.
Proof.
  split.
  - induction 1 as [p N|p t q r A L K (l & C)].
    + exists []. split; [reflexivity|]. intros t F. apply (N t). now apply found_at.
    + exists (p :: l). split; [reflexivity|]. exists t. split; [now apply found_at|]. apply leads_abs in L. now rewrite L.
  - intros (l & C). revert p C. induction l as [|x l IH]; intros p C.
    + destruct C as (-> & N). apply links_here. intros t A. apply (N t). now apply found_at.
    + destruct C as (-> & t & F & C). eapply links_on; [apply found_at; exact F|apply leads_abs; reflexivity|now apply IH].
Qed.
Lemma chain_suffix fs a : forall x b p q, chain fs (a ++ x :: b) p q -> chain fs (x :: b) x q.
Proof. induction a as [|y a IH]; intros x b p q C; cbn [app] in C; [destruct C as (-> & C); now split|]. destruct C as (_ & t & _ & C). exact (IH _ _ _ _ C). Qed.
Lemma chain_unique fs l : forall l' p q q', chain fs l p q -> chain fs l' p q' -> l = l' /\ q = q'.
Proof.
  induction l as [|x l IH]; intros [|y l'] p q q' C C'.
  - destruct C as (<- & _), C' as (<- & _). now split.
  - destruct C as (<- & N), C' as (_ & t & F & _). now apply N in F.
  - destruct C as (_ & t & F & _), C' as (<- & N). now apply N in F.
  - destruct C as (-> & t & F & C), C' as (<- & t' & F' & C'). assert (t' = t) by congruence. subst t'. destruct (IH _ _ _ _ C C') as (-> & ->). now split.
Qed.
Lemma chain_nodup fs l : forall p q, chain fs l p q -> NoDup l.
Proof.
  induction l as [|x l IH]; intros p q C; [constructor|]. pose proof C as C0. destruct C as (-> & t & F & C). constructor; [|exact (IH _ _ C)].
  intro I. apply in_split in I as (a & b & ->). pose proof (chain_suffix fs a x b _ q C) as C1. destruct (chain_unique fs _ _ _ _ _ C0 C1) as (E & _).
  assert (L : length (x :: a ++ x :: b) = length (x :: b)) by now rewrite E. cbn [length] in L. rewrite app_length in L. cbn [length] in L. lia.
Qed.
Lemma chain_found fs l : forall p q, chain fs l p q -> incl l (map fst fs).
Proof.
  induction l as [|x l IH]; intros p q C; [intros y []|]. destruct C as (-> & t & F & C). intros y [<-|I]; [|exact (IH _ _ C y I)].
  apply found_at in F as (a & b & -> & _). rewrite map_app. apply in_or_app. right. now left.
Qed.
Lemma chain_follow fs l : forall p q fuel, chain fs l p q -> (length l <= fuel)%nat -> follow fuel fs p = q.
Proof.
  induction l as [|x l IH]; intros p q fuel C L.
  - destruct C as (<- & N). destruct fuel; [reflexivity|]. cbn [follow]. destruct (found fs p) as [[b|t]|] eqn:F; [reflexivity|exfalso; now apply (N t)|reflexivity].
  - destruct C as (-> & t & F & C). destruct fuel as [|k]; [cbn in L; lia|]. cbn [follow]. rewrite F. apply IH; [exact C|cbn [length] in L; lia].
Qed.
Lemma links_real fs p q : links_to fs p q -> real_path fs p = q.
Proof.
  intro H. apply links_chain in H as (l & C). apply (chain_follow fs l); [exact C|]. rewrite <- (map_length fst fs). apply NoDup_incl_length; [exact (chain_nodup fs l p q C)|exact (chain_found fs l p q C)].
Qed.
Lemma follow_links fs fuel : forall p, (forall t, found fs (follow fuel fs p) <> Some (Link t)) -> links_to fs p (follow fuel fs p).
Proof.
  induction fuel as [|k IH]; intros p N.
  - apply links_here. intros t A. apply (N t). now apply found_at.
  - cbn [follow] in *. destruct (found fs p) as [[b|t]|] eqn:F.
    + apply links_here. intros t A. apply found_at in A. congruence.
    + eapply links_on; [apply found_at; exact F|apply leads_abs; reflexivity|now apply IH].
    + apply links_here. intros t A. apply found_at in A. congruence.
Qed.
Lemma content_links fs p b : content fs p = Some b <-> exists q, links_to fs p q /\ is_at fs q (Body b).
Proof.
  unfold content. split.
  - destruct (found fs (real_path fs p)) as [[c|t]|] eqn:F; try discriminate. intro E. injection E as ->. exists (real_path fs p). split; [|now apply found_at].
    apply follow_links. intros t X. unfold real_path in F. congruence.
  - intros (q & L & A). apply links_real in L. rewrite L. apply found_at in A. now rewrite A.
Qed.
Lemma base_last path n : base_name path = n <-> exists ns, Forall (fun x => ~ In "/"%char (s2l x)) (ns ++ [n]) /\ s2l path = between ["/"%char] (map s2l (ns ++ [n])).
Proof.
  unfold base_name. split.
  - intros <-. exists (map l2s (removelast (parts (s2l path)))). assert (Q : map l2s (parts (s2l path)) = map l2s (removelast (parts (s2l path))) ++ [l2s (last (parts (s2l path)) [])]).
    { rewrite (app_removelast_last [] (parts_nonempty (s2l path))) at 1. now rewrite map_app. }
    rewrite <- Q. split; [|now rewrite map_s2l_l2s, between_parts]. apply Forall_map. eapply Forall_impl; [|apply parts_plain]. intros x X. now rewrite s2l_l2s.
  - intros (ns & F & E). rewrite E, parts_between; [|destruct ns; discriminate|now apply Forall_map]. rewrite map_app. cbn [map]. now rewrite last_last, l2s_s2l.
Qed.
