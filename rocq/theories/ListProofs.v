(** * ListProofs: files list their data sets. *)
From Coq Require Import Sorting.Sorted Permutation.
From Verif Require Import Base Flt H5 Schema Data Files Struc Trans Nd Hydro Handles Listing ListSpec HandlesSpec HandlesProofs ListFacts FilesProofs
  AssemblySpec ConvertProofs AssemblyOpen AssemblyData ConvertSpec.
Open Scope string_scope.
Open Scope Z_scope.
Open Scope list_scope.

(** ** The objects made *)
Definition made (h : h5) (kp : string * path) (e : Files.entry) : Prop :=
  key_of e = fst kp /\ d_group (obj_of e) = snd kp /\ d_open (obj_of e) = true /\
  attr_str h (snd kp) "LEVEL" = Ok (d_level (obj_of e)) /\ attr_str h (snd kp) "DATATYPE" = Ok (d_datatype (obj_of e)).
Lemma attr_at h p a k v : group_with h p a -> sget k a = Some (AStr v) -> attr_str h p k = Ok v.
Proof. unfold group_with, attr_str, attrs_at. intros -> ->. reflexivity. Qed.
Lemma sif_init_attrs h p o t d : sif_init h p o t = Ok d ->
  d_group d = p /\ d_open d = true /\ attr_str h p "LEVEL" = Ok (d_level d) /\ attr_str h p "DATATYPE" = Ok (d_datatype d).
Proof.
  unfold sif_init. destruct (attr_strs h p "RECORDS"); [|discriminate]. cbn [rbind]. destruct (attr_int h p "SELTYP"); [|discriminate]. cbn [rbind].
  destruct (attr_str h p "LEVEL"); [|discriminate]. cbn [rbind]. destruct (attr_str h p "FILETYPE"); [|discriminate]. cbn [rbind].
  destruct (attr_str h p "DATATYPE"); [|discriminate]. cbn [rbind]. intros H. injection H as <-. now repeat split.
Qed.
Lemma first_init_attrs h p o d : first_init h p o = Ok d ->
  d_group d = p /\ d_open d = true /\ attr_str h p "LEVEL" = Ok (d_level d) /\ attr_str h p "DATATYPE" = Ok (d_datatype d).
Proof.
  unfold first_init. destruct (sif_init h p o None) as [d0|] eqn:E; [|discriminate]. cbn [rbind]. apply sif_init_attrs in E.
  destruct (String.eqb (d_filetype d0) "R").
  - destruct (attr_int h p "INDEX"); [|discriminate]. cbn [rbind]. intros H. injection H as <-. exact E.
  - intros H. now injection H as <-.
Qed.
Lemma subs_listed h gr data subs : forall es, sub_objects h gr data subs = Ok es ->
  (forall s, In s subs -> exists l, attr_str h [gr; s] "LEVEL" = Ok l /\ In l ["INTERLEVEL"; "FIRSTLEVEL"]) ->
  Forall2 (made h) (map (fun s => (under gr s, [gr; s])) subs) es.
Proof.
  induction subs as [|s subs IH]; intros es H P; cbn [sub_objects] in H; [injection H as <-; constructor|].
  destruct (P s (or_introl eq_refl)) as (l & L & I). rewrite L in H. cbn [rbind] in H. destruct I as [<-|[<-|[]]].
  - change (String.eqb "INTERLEVEL" "INTERLEVEL") with true in H. cbv iota in H. destruct (sif_init h [gr; s] (OData data) None) as [d|] eqn:E; [|discriminate]. cbn [rbind] in H.
    destruct (sub_objects h gr data subs) as [rest|]; [|discriminate]. cbn [rbind app] in H. injection H as <-. cbn [map]. constructor; [|apply IH; [reflexivity|intros x Hx; apply P; now right]].
    apply sif_init_attrs in E as (E1 & E2 & E3 & E4). now repeat split.
  - change (String.eqb "FIRSTLEVEL" "INTERLEVEL") with false in H. change (String.eqb "FIRSTLEVEL" "FIRSTLEVEL") with true in H. cbv iota in H.
    destruct (first_init h [gr; s] (OData data)) as [d|] eqn:E; [|discriminate]. cbn [rbind] in H.
    destruct (sub_objects h gr data subs) as [rest|]; [|discriminate]. cbn [rbind app] in H. injection H as <-. cbn [map]. constructor; [|apply IH; [reflexivity|intros x Hx; apply P; now right]].
    apply first_init_attrs in E as (E1 & E2 & E3 & E4). now repeat split.
Qed.
Definition keys_at (h : h5) (g : string) : list (string * path) := (g, [g]) :: map (fun s => (under g s, [g; s])) (child_groups h [g]).
Lemma objects_listed h : proper_file h -> forall grs data es, objects h data grs = Ok es -> (forall g, In g grs -> exists a, group_with h [g] a) ->
  Forall2 (made h) (flat_map (keys_at h) grs) es.
Proof.
  intros (P1 & P2). induction grs as [|g grs IH]; intros data es H G; cbn [objects] in H; [injection H as <-; constructor|].
  destruct (G g (or_introl eq_refl)) as (a & A). destruct (P1 g a A) as (_ & T).
  assert (X : forall k d es, (rbind (sub_objects h g (d_group d) (child_groups h [g])) (fun subs => rbind (objects h (Some (k, d)) grs) (fun rest => Ok ((g, k, d) :: subs ++ rest)))) = Ok es ->
    d_group d = [g] -> d_open d = true -> attr_str h [g] "LEVEL" = Ok (d_level d) -> attr_str h [g] "DATATYPE" = Ok (d_datatype d) ->
    Forall2 (made h) (flat_map (keys_at h) (g :: grs)) es).
  { clear H. intros k d es' H D1 D2 D3 D4. destruct (sub_objects h g (d_group d) (child_groups h [g])) as [subs|] eqn:ES; [|discriminate]. cbn [rbind] in H.
    destruct (objects h (Some (k, d)) grs) as [rest|] eqn:ER; [|discriminate]. cbn [rbind] in H. injection H as <-. cbn [flat_map keys_at app]. constructor; [now repeat split|].
    apply Forall2_app.
    - eapply subs_listed; [exact ES|]. intros s Hs. apply child_groups_in in Hs as (b & B). destruct (P2 g s b B) as (_ & l & L1 & L2). exists l. split; [exact (attr_at _ _ _ _ _ B L1)|exact L2].
    - apply (IH (Some (k, d))); [exact ER|]. intros x Hx. apply G. now right. }
  destruct T as [T|(T & l & L & I)]; rewrite (attr_at _ _ _ _ _ A T) in H; cbn [rbind] in H.
  - change (String.eqb "HYDRODYNAMIC" "STRUCTURAL") with false in H. change (String.eqb "HYDRODYNAMIC" "HYDRODYNAMIC") with true in H. cbv iota in H.
    unfold hydro_data in H. destruct (sif_init h [g] OFile None) as [d|] eqn:E; [|discriminate]. cbn [rbind] in H. destruct (hydro_init h d); [|discriminate]. cbn [rbind] in H. apply sif_init_attrs in E as (E1 & E2 & E3 & E4). now apply (X KHydro d).
  - change (String.eqb "STRUCTURAL" "STRUCTURAL") with true in H. cbv iota in H. rewrite (attr_at _ _ _ _ _ A L) in H. cbn [rbind] in H. destruct I as [<-|[<-|[]]].
    + change (String.eqb "TOPLEVEL" "TOPLEVEL") with true in H. cbv iota in H. destruct (sif_init h [g] OFile None) as [d|] eqn:E; [|discriminate]. cbn [rbind] in H.
      apply sif_init_attrs in E as (E1 & E2 & E3 & E4). now apply (X KTop d).
    + change (String.eqb "FIRSTLEVEL" "TOPLEVEL") with false in H. change (String.eqb "FIRSTLEVEL" "FIRSTLEVEL") with true in H. cbv iota in H.
      destruct (first_init h [g] OFile) as [d|] eqn:E; [|discriminate]. cbn [rbind] in H. apply first_init_attrs in E as (E1 & E2 & E3 & E4). now apply (X KFirst d).
Qed.
Lemma file_listed h es : file_data h = Ok es -> proper_file h -> exists ks, listing h ks /\ Forall2 (made h) ks es.
Proof.
  intros H P. exists (flat_map (keys_at h) (child_groups h [])). split.
  - exists (child_groups h []), (fun g => child_groups h [g]). split; [apply str_sort_sorted|]. split; [intros g; apply (child_groups_in h [])|]. split; [|reflexivity].
    intros g _. split; [apply str_sort_sorted|]. intros s. apply (child_groups_in h [g]).
  - unfold file_data in H. eapply objects_listed; [exact P|exact H|]. intros g Hg. now apply child_groups_in in Hg.
Qed.

(** ** Keys are different *)
Lemma str_lt_irrefl s : ~ str_lt s s.
Proof. unfold str_lt. induction s as [|a s IH]; cbn [String.compare]; [discriminate|]. now rewrite ascii_refl. Qed.
Lemma sorted_nodup l : StronglySorted str_lt l -> NoDup l.
Proof.
  induction 1 as [|x l S IH F]; constructor; [|exact IH]. intros I. rewrite Forall_forall in F. exact (str_lt_irrefl x (F x I)).
Qed.
Lemma s2l_under g s : s2l (under g s) = s2l g ++ "/"%char :: s2l s.
Proof. unfold under. rewrite !s2l_app. reflexivity. Qed.
Lemma split_slash a b x y : a ++ "/"%char :: x = b ++ "/"%char :: y -> ~ In "/"%char a -> ~ In "/"%char b -> a = b.
Proof.
  revert b. induction a as [|c a IH]; intros [|d b] E A B; cbn in E; try reflexivity.
  - injection E as E _. exfalso. apply B. now left.
  - injection E as E _. exfalso. apply A. now left.
  - injection E as -> E. f_equal. apply IH; [exact E| |]; intro I; [apply A|apply B]; now right.
Qed.
Lemma s2l_inj a b : s2l a = s2l b -> a = b.
Proof. intros H. rewrite <- (l2s_s2l a), <- (l2s_s2l b). now rewrite H. Qed.
Lemma NoDup_app_intro {A} (l m : list A) : NoDup l -> NoDup m -> (forall x, In x l -> ~ In x m) -> NoDup (l ++ m).
Proof.
  induction 1 as [|x l N ND IH]; intros M D; [exact M|]. cbn [app]. constructor.
  - rewrite in_app_iff. intros [I|I]; [now apply N|]. apply (D x); [now left|exact I].
  - apply IH; [exact M|]. intros y Hy. apply D. now right.
Qed.
Lemma listing_nodup h ks : proper_file h -> listing h ks -> NoDup (map fst ks).
Proof.
  intros (P & _) (tops & subs & S & T & B & ->).
  assert (SL : forall g, In g tops -> ~ In "/"%char (s2l g)) by (intros g Hg; apply T in Hg as (a & A); exact (proj1 (P g a A))).
  assert (ND : NoDup tops) by now apply sorted_nodup. clear S T.
  assert (K : forall g k, In k (map fst ((g, [g]) :: map (fun s => (under g s, [g; s])) (subs g))) -> k = g \/ exists s, k = under g s).
  { intros g k. cbn [map fst]. intros [<-|I]; [now left|]. right. rewrite map_map in I. apply in_map_iff in I as (s & <- & _). now exists s. }
  induction tops as [|g tops IH]; [constructor|]. inversion ND as [|x xs N ND']; subst. cbn [flat_map]. rewrite map_app. apply NoDup_app_intro.
  - cbn [map fst]. rewrite map_map. cbn [fst]. constructor.
    + intros I. apply in_map_iff in I as (s & E & _). now apply under_not in E.
    + apply FinFun.Injective_map_NoDup; [intros a b; apply under_inj|]. apply sorted_nodup. apply B. now left.
  - apply IH; [intros x Hx; apply B; now right|intros x Hx; apply SL; now right|exact ND'].
  - intros k I1 I2. apply K in I1. rewrite flat_map_concat_map, concat_map, map_map in I2. apply in_concat in I2 as (l & L1 & L2). apply in_map_iff in L1 as (g' & <- & G').
    apply K in L2. assert (g <> g') by (intros <-; now apply N). pose proof (SL g (or_introl eq_refl)) as S1. pose proof (SL g' (or_intror G')) as S2.
    destruct I1 as [->|(s & ->)], L2 as [E|(s' & E)].
    + congruence.
    + apply S1. rewrite E, s2l_under. apply in_or_app. right. now left.
    + apply S2. rewrite <- E, s2l_under. apply in_or_app. right. now left.
    + apply (f_equal s2l) in E. rewrite !s2l_under in E. apply split_slash in E; [|exact S1|exact S2]. now apply s2l_inj in E.
Qed.

(** ** Objects of an open file *)
Lemma rmap_keys h es : forall os, rmap (make_obj h) es = Ok os -> map ob_key os = map key_of es /\ map ob_data os = map obj_of es.
Proof.
  induction es as [|e es IH]; intros os H; cbn [rmap] in H; [injection H as <-; now split|].
  destruct (make_obj h e) as [o|] eqn:E; [|discriminate]. cbn [rbind] in H. destruct (rmap (make_obj h) es) as [r|]; [|discriminate]. cbn [rbind] in H. injection H as <-.
  destruct (IH r eq_refl) as [I1 I2]. unfold make_obj in E. cbn [map]. rewrite I1, I2.
  destruct (kind_of e); try (injection E as <-; now split). destruct (hydro_init h (obj_of e)); [|discriminate]. injection E as <-. now split.
Qed.
Definition obj_ok (h : h5) (kp : string * path) (o : hobj) : Prop :=
  ob_key o = fst kp /\ d_group (ob_data o) = snd kp /\ d_open (ob_data o) = true /\
  attr_str h (snd kp) "LEVEL" = Ok (d_level (ob_data o)) /\ attr_str h (snd kp) "DATATYPE" = Ok (d_datatype (ob_data o)).
Lemma open_listed h os : open_objs h = Ok os -> proper_file h -> exists ks, listing h ks /\ Forall2 (obj_ok h) ks os.
Proof.
  unfold open_objs. destruct (file_data h) as [es|] eqn:E; [|discriminate]. cbn [rbind]. intros H P. destruct (file_listed h es E P) as (ks & L & F). exists ks. split; [exact L|].
  apply rmap_keys in H as [H1 H2]. clear E L. revert os H1 H2. induction F as [|kp e ks es M F IH]; intros os H1 H2.
  - destruct os; [constructor|discriminate].
  - destruct os as [|o os]; [discriminate|]. cbn [map] in H1, H2. injection H1 as K1 H1. injection H2 as K2 H2. constructor; [|now apply IH].
    unfold made in M. unfold obj_ok. now rewrite K1, K2.
Qed.
Lemma obj_keys h ks os : Forall2 (obj_ok h) ks os -> map ob_key os = map fst ks /\ map (fun o => d_group (ob_data o)) os = map snd ks.
Proof. induction 1 as [|kp o ks os (M1 & M2 & _) F [IH1 IH2]]; [now split|]. cbn [map]. now rewrite M1, M2, IH1, IH2. Qed.
Lemma key_at_some k : forall os i j, NoDup (map ob_key os) -> nth_error (map ob_key os) j = Some k -> key_at k i os = Some (i + j)%nat.
Proof.
  induction os as [|o os IH]; intros i j ND H; [destruct j; discriminate|]. inversion ND as [|x xs N ND']; subst. cbn [key_at]. destruct j as [|j]; cbn [map nth_error] in H.
  - injection H as <-. rewrite String.eqb_refl. f_equal. lia.
  - destruct (String.eqb_spec k (ob_key o)) as [->|_]; [exfalso; apply N; now apply nth_error_In in H|]. rewrite (IH (S i) j ND' H). f_equal. lia.
Qed.
Lemma key_at_none k : forall os i, ~ In k (map ob_key os) -> key_at k i os = None.
Proof.
  induction os as [|o os IH]; intros i N; [reflexivity|]. cbn [key_at]. destruct (String.eqb_spec k (ob_key o)) as [->|_]; [exfalso; apply N; now left|].
  apply IH. intro I. apply N. now right.
Qed.

(** ** An open file is as it was opened *)
Lemma as_opened tr s : runs tr s -> forall tr1 h tr2 n, tr = tr1 ++ (DoOpen h, Ok (RNew n)) :: tr2 -> Forall (fun e => ~ closes n e) tr2 ->
  exists os, nth_error (st_files s) n = Some (mkF h os true true) /\ open_objs h = Ok os.
Proof.
  induction 1 as [|tr s o HR IH HA]; intros tr1 h tr2 n E F; [destruct tr1; discriminate|].
  destruct tr2 as [|x tr2 _] using rev_ind.
  - apply app_inj_tail in E as [-> E]. injection E as -> E. cbn [step] in E |- *. destruct (open_objs h) as [os|]; [|discriminate]. cbn [snd fst] in E |- *. injection E as <-.
    exists os. split; [|reflexivity]. cbn [st_files]. rewrite nth_error_app2 by lia. now rewrite Nat.sub_diag.
  - rewrite app_comm_cons, app_assoc in E. apply app_inj_tail in E as [E1 E2]. apply Forall_app in F as [F1 F2]. inversion F2 as [|y ys C _]; subst.
    destruct (IH tr1 h tr2 n eq_refl F1) as (os & N & O). exists os. split; [|exact O].
    destruct (step_file s o n _ (runs_inv _ _ HR) HA N) as [[E _]|[_ X]]; [rewrite if_id in E; exact E|]. exfalso. apply C. exact X.
Qed.

(** ** As text *)
Lemma ins_key_perm o : forall l, Permutation (o :: l) (ins_key o l).
Proof.
  induction l as [|p l IH]; cbn [ins_key]; [reflexivity|]. destruct (str_leb (ob_key o) (ob_key p)); [reflexivity|]. etransitivity; [apply perm_swap|]. now constructor.
Qed.
Lemma by_key_perm l : Permutation l (by_key l).
Proof. induction l as [|o l IH]; [constructor|]. cbn [by_key fold_right]. etransitivity; [apply perm_skip, IH|]. apply ins_key_perm. Qed.
Definition key_lt (o p : hobj) : Prop := str_lt (ob_key o) (ob_key p).
Lemma ins_key_sorted o : forall l, ~ In (ob_key o) (map ob_key l) -> StronglySorted key_lt l -> StronglySorted key_lt (ins_key o l).
Proof.
  induction l as [|p l IH]; intros N S; cbn [ins_key]; [now constructor; constructor|]. inversion S as [|x xs S1 S2]; subst. destruct (str_leb (ob_key o) (ob_key p)) eqn:E.
  - apply str_leb_true in E; [|intros X; apply N; left; congruence]. constructor; [exact S|]. constructor; [exact E|]. eapply Forall_impl; [|exact S2]. intros q Q. exact (str_lt_trans _ _ _ E Q).
  - apply str_leb_false in E. constructor; [apply IH; [intro I; apply N; now right|exact S1]|]. apply Forall_forall. intros x Hx.
    apply (Permutation_in _ (Permutation_sym (ins_key_perm o l))) in Hx. destruct Hx as [<-|Hx]; [exact E|]. rewrite Forall_forall in S2. now apply S2.
Qed.
Lemma by_key_sorted l : NoDup (map ob_key l) -> StronglySorted key_lt (by_key l).
Proof.
  induction l as [|o l IH]; intros ND; [constructor|]. cbn [map] in ND. inversion ND as [|x xs N ND']; subst. cbn [by_key fold_right]. apply ins_key_sorted; [|now apply IH].
  intros I. apply N. apply in_map_iff in I as (q & <- & Q). apply in_map. exact (Permutation_in _ (Permutation_sym (by_key_perm l)) Q).
Qed.
Lemma str_app_assoc a b c : ((a ++ b) ++ c = a ++ (b ++ c))%string.
Proof. induction a as [|x a IH]; [reflexivity|]. cbn. now rewrite IH. Qed.
Lemma str_app_nil a : (a ++ "" = a)%string.
Proof. induction a as [|x a IH]; [reflexivity|]. cbn. now rewrite IH. Qed.
Fixpoint joined (l : list string) : string := match l with [] => "" | x :: r => (x ++ joined r)%string end.
Lemma fold_joined {A} (g : A -> string) l : forall s, fold_left (fun s o => s ++ g o)%string l s = (s ++ joined (map g l))%string.
Proof. induction l as [|x l IH]; intros s; cbn [fold_left map joined]; [now rewrite str_app_nil|]. rewrite IH. apply str_app_assoc. Qed.
Lemma hex_ok n : (n < 16)%nat -> hex_of n (hex_digit n).
Proof.
  intros H. destruct (Nat.ltb_spec n 10) as [L|L].
  - replace (hex_digit n) with (chr (48 + n)); [now constructor|]. do 10 (destruct n as [|n]; [reflexivity|]). lia.
  - replace (hex_digit n) with (chr (87 + n)); [constructor; lia|]. do 10 (destruct n as [|n]; [lia|]). do 6 (destruct n as [|n]; [reflexivity|]). lia.
Qed.
Lemma repr_char_ok q c : nat_of_ascii q = 34%nat \/ nat_of_ascii q = 39%nat -> in_quotes q c (repr_char q c).
Proof.
  intros Q. unfold repr_char.
  destruct (Ascii.eqb_spec c q) as [E|N1]; [cbn [orb]; apply (iq_escaped q c); now left|].
  destruct (Ascii.eqb_spec c backslash) as [E|N2]; [cbn [orb]; apply (iq_escaped q c); now right|]. cbn [orb].
  destruct (Ascii.eqb_spec c (ascii_of_nat 9)) as [->|N3]; [apply (iq_letter q 9); cbn; tauto|].
  destruct (Ascii.eqb_spec c (ascii_of_nat 10)) as [->|N4]; [apply (iq_letter q 10); cbn; tauto|].
  destruct (Ascii.eqb_spec c (ascii_of_nat 13)) as [->|N5]; [apply (iq_letter q 13); cbn; tauto|].
  assert (CC : code c = Z.of_nat (nat_of_ascii c)) by (unfold code; now rewrite ?nat_N_Z).
  assert (B : (nat_of_ascii c < 256)%nat) by apply nat_ascii_bounded.
  destruct ((code c <? 32) || (code c =? 127)) eqn:K.
  - apply (iq_hex q c (Nat.div (nat_of_ascii c) 16) (Nat.modulo (nat_of_ascii c) 16)).
    + unfold control. lia.
    + intros I. assert (X : forall n, nat_of_ascii c = n -> c = ascii_of_nat n) by (intros n <-; now rewrite ascii_nat_embedding).
      destruct I as [I|[I|[I|[]]]]; symmetry in I; apply X in I; congruence.
    + apply Nat.div_mod. discriminate.
    + apply hex_ok. apply Nat.div_lt_upper_bound; [discriminate|lia].
    + apply hex_ok. apply Nat.mod_upper_bound. discriminate.
  - apply iq_itself; [unfold control; lia|exact N1|exact N2].
Qed.
Lemma has_char_iff c l : has_char c l = true <-> In c l.
Proof.
  unfold has_char. rewrite existsb_exists. split; [intros (d & H & E); apply Ascii.eqb_eq in E; now subst|]. intros H. exists c. split; [exact H|apply Ascii.eqb_refl].
Qed.
Lemma repr_ok k : literal k (py_repr k).
Proof.
  unfold py_repr. cbv zeta. set (q := if has_char single (s2l k) && negb (has_char double (s2l k)) then double else single).
  exists q, (map (repr_char q) (s2l k)). split; [|split].
  - unfold q. destruct (has_char single (s2l k)) eqn:S, (has_char double (s2l k)) eqn:D; cbn [andb negb].
    + apply qf_single. right. now apply has_char_iff.
    + apply qf_double; [now apply has_char_iff|]. intros H. apply has_char_iff in H. unfold double, chr in *. congruence.
    + apply qf_single. right. now apply has_char_iff.
    + apply qf_single. left. intros H. apply has_char_iff in H. unfold single, chr in *. congruence.
  - assert (Q : nat_of_ascii q = 34%nat \/ nat_of_ascii q = 39%nat) by (unfold q; destruct (_ && _); [now left|now right]).
    clearbody q. induction (s2l k) as [|c l IH]; cbn [map]; constructor; [now apply repr_char_ok|exact IH].
  - rewrite s2l_l2s. cbn [app]. now rewrite flat_map_concat_map.
Qed.
(** A literal determines the text. *)
Lemma hex_same n m a : hex_of n a -> hex_of m a -> n = m.
Proof.
  intros H H'. assert (E : forall n a, hex_of n a -> (n < 10 /\ nat_of_ascii a = 48 + n \/ 10 <= n < 16 /\ nat_of_ascii a = 87 + n)%nat).
  { clear. intros n a [m H|m H]; [left|right]; (split; [exact H|]); unfold chr; apply nat_ascii_embedding; lia. }
  apply E in H, H'. lia.
Qed.
Lemma quotes_inj q l l' ps ps' : quotes_for l q -> quotes_for l' q -> Forall2 (in_quotes q) (s2l l) ps -> Forall2 (in_quotes q) (s2l l') ps' -> concat ps = concat ps' -> l = l'.
Proof.
  intros Q Q' F F' E. apply s2l_inj. assert (Qn : q = chr 34 \/ q = chr 39) by (inversion Q; auto). clear Q Q'. revert F F'. generalize (s2l l) (s2l l'). clear l l'. intros l l' F. revert l' ps' E.
  induction F as [|c p l ps H F IH]; intros l' ps' E F'.
  - destruct F' as [|c' p' l' ps' H' F']; [reflexivity|]. inversion H'; subst; discriminate.
  - destruct F' as [|c' p' l' ps' H' F']; [inversion H; subst; discriminate|]. cbn [concat] in E.
    assert (K : c = c' /\ concat ps = concat ps').
    { destruct H as [c C1 C2 C3|c C1|n a C1|c n m a b C1 C2 C3 C4 C5]; destruct H' as [c' D1 D2 D3|c' D1|n' a' D1|c' n' m' a' b' D1 D2 D3 D4 D5]; cbn [app] in E.
      - injection E as E1 E2. now split.
      - injection E as E1 E2. now elim C3.
      - injection E as E1 E2. subst. now elim C3.
      - injection E as E1 E2. subst. now elim C3.
      - injection E as E1 E2. subst. now elim D3.
      - injection E as E1 E2. now split.
      - injection E as E1 E2. exfalso. subst. destruct D1 as [D|[D|[D|[]]]]; injection D as <- <-; destruct C1 as [K|K]; try discriminate K; destruct Qn as [->| ->]; discriminate K.
      - injection E as E1 E2. exfalso. subst. destruct C1 as [K|K]; try discriminate K; destruct Qn as [->| ->]; discriminate K.
      - injection E as E1 E2. subst. now elim D3.
      - injection E as E1 E2. exfalso. subst. destruct C1 as [D|[D|[D|[]]]]; injection D as <- <-; destruct D1 as [K|K]; try discriminate K; destruct Qn as [->| ->]; discriminate K.
      - injection E as E1 E2. split; [|exact E2]. subst. destruct C1 as [C|[C|[C|[]]]]; injection C as <- <-; destruct D1 as [D|[D|[D|[]]]]; injection D as <-; try discriminate; reflexivity.
      - injection E as E1 E2. exfalso. subst. destruct C1 as [C|[C|[C|[]]]]; injection C as <- C; discriminate C.
      - injection E as E1 E2. subst. now elim D3.
      - injection E as E1 E2. exfalso. subst. destruct D1 as [K|K]; try discriminate K; destruct Qn as [->| ->]; discriminate K.
      - injection E as E1 E2. exfalso. subst. destruct D1 as [C|[C|[C|[]]]]; injection C as <- C; discriminate C.
      - injection E as E1 E2 E3. subst. split; [|exact E3]. pose proof (hex_same _ _ _ C4 D4). pose proof (hex_same _ _ _ C5 D5). subst.
        rewrite <- (ascii_nat_embedding c), <- (ascii_nat_embedding c'). f_equal. lia. }
    destruct K as (-> & K). f_equal. exact (IH _ _ K F').
Qed.
Lemma literal_inj k k' t : literal k t -> literal k' t -> k = k'.
Proof.
  intros (q & ps & Q & F & E) (q' & ps' & Q' & F' & E'). rewrite E in E'. injection E' as <- E'. apply app_inj_tail in E' as [E' _]. exact (quotes_inj q k k' ps ps' Q Q' F F' E').
Qed.
Lemma literal_plain k t : plain_key k -> literal k t -> t = quoted k.
Proof.
  intros P (q & ps & Q & F & E). assert (N : ~ In (chr 39) (s2l k)) by (intros I; destruct (P _ I) as (_ & K & _); now apply K).
  destruct Q as [I _|_]; [now elim N|]. apply s2l_inj. rewrite E. unfold quoted. change (s2l (String (ascii_of_nat 39) ?x)) with (ascii_of_nat 39 :: s2l x).
  f_equal. rewrite s2l_app. f_equal. clear E N. unfold plain_key in P. revert P. induction F as [|c p l ps H F IH]; intros P; [reflexivity|]. cbn [concat].
  destruct (P c (or_introl eq_refl)) as (R & N1 & N2).
  replace p with [c]; [cbn [app]; f_equal; apply IH; intros d Hd; apply P; now right|].
  destruct H as [c C1 C2 C3|c [-> | ->]|n a C1|c n m a b C1]; [reflexivity|now elim N1|now elim N2| |unfold control in C1; lia].
  destruct C1 as [C|[C|[C|[]]]]; injection C as <- <-; vm_compute in R; lia.
Qed.
Definition line (o : hobj) : string := (py_repr (ob_key o) ++ ": " ++ data_str (ob_data o) ++ newline)%string.
Lemma attr_back h p k v : attr_str h p k = Ok v -> exists a, group_with h p a /\ sget k a = Some (AStr v).
Proof.
  unfold attr_str, attrs_at, group_with. destruct (h5_find p h) as [[a|d r|t l]|]; try discriminate. intros H. exists a. split; [reflexivity|]. destruct (sget k a) as [[]|]; try discriminate. now injection H as ->.
Qed.
Lemma words_exist h (kp : string * path) o : proper_file h -> (exists g, snd kp = [g]) \/ (exists g s, snd kp = [g; s]) -> obj_ok h kp o ->
  exists w, in_words h (snd kp) w /\ data_str (ob_data o) = (w ++ " data")%string.
Proof.
  intros (P1 & P2) S (O1 & O2 & O3 & O4 & O5). unfold data_str. rewrite O3.
  destruct (attr_back _ _ _ _ O4) as (a & A & L). assert (D : sget "DATATYPE" a = Some (AStr (d_datatype (ob_data o)))).
  { destruct (attr_back _ _ _ _ O5) as (b & B & D). unfold group_with in A, B. rewrite A in B. injection B as <-. exact D. }
  assert (C : (d_datatype (ob_data o) = "HYDRODYNAMIC") \/ (d_datatype (ob_data o) = "STRUCTURAL" /\ exists w, In (d_level (ob_data o), w) level_words)).
  { destruct S as [(g & S)|(g & s & S)]; rewrite S in A.
    - destruct (P1 g a A) as (_ & [T|(T & l & T2 & I)]); rewrite D in T; injection T as T; [now left|right; split; [exact T|]].
      rewrite L in T2. injection T2 as ->. destruct I as [<-|[<-|[]]]; eexists; cbn; eauto.
    - destruct (P2 g s a A) as (T & l & T2 & I). rewrite D in T. injection T as T. right; split; [exact T|].
      rewrite L in T2. injection T2 as ->. destruct I as [<-|[<-|[]]]; eexists; cbn; eauto. }
  destruct C as [C|(C & w & W)]; rewrite C in D |- *.
  - exists "hydrodynamic". split; [now apply words_hydro with a|]. reflexivity.
  - exists w. split; [now apply words_struc with a (d_level (ob_data o))|]. change (String.eqb "STRUCTURAL" "HYDRODYNAMIC") with false. cbv iota.
    cbn in W. destruct W as [W|[W|[W|[]]]]; injection W as E <-; rewrite <- E; reflexivity.
Qed.
Lemma line_ok h (kp : string * path) o : proper_file h -> (exists g, snd kp = [g]) \/ (exists g s, snd kp = [g; s]) -> obj_ok h kp o -> line_of h kp (line o).
Proof.
  intros P S O. destruct (words_exist h kp o P S O) as (w & W & E). destruct O as (O1 & _). exists (py_repr (fst kp)), w. split; [apply repr_ok|]. split; [exact W|].
  unfold line. rewrite O1, E. now rewrite !str_app_assoc.
Qed.
Lemma listing_paths h ks : listing h ks -> forall kp, In kp ks -> (exists g, snd kp = [g]) \/ (exists g s, snd kp = [g; s]).
Proof.
  intros (tops & subs & _ & _ & _ & ->) kp I. apply in_flat_map in I as (g & _ & [<-|I]); [left; now exists g|]. apply in_map_iff in I as (s & <- & _). right. now exists g, s.
Qed.
Lemma Forall2_perm {A B} (R : A -> B -> Prop) l m : Forall2 R l m -> forall m', Permutation m m' -> exists l', Permutation l l' /\ Forall2 R l' m'.
Proof.
  intros F m' P. revert l F. induction P as [|x m m' P IH|x y m|m m1 m2 P1 IH1 P2 IH2]; intros l F.
  - inversion F; subst. exists []. now split.
  - inversion F as [|a b l0 m0 R1 F1]; subst. destruct (IH _ F1) as (l' & L1 & L2). exists (a :: l'). split; [now constructor|now constructor].
  - inversion F as [|a b l0 m0 R1 F1]; subst. inversion F1 as [|a' b' l1 m1 R2 F2]; subst. exists (a' :: a :: l1). split; [constructor|]. now repeat constructor.
  - destruct (IH1 _ F) as (l1 & L1 & F1). destruct (IH2 _ F1) as (l2 & L2 & F2). exists l2. split; [now transitivity l1|exact F2].
Qed.
Lemma str_ok h os ks : proper_file h -> listing h ks -> Forall2 (obj_ok h) ks os ->
  exists ks' ls, Permutation ks ks' /\ StronglySorted str_lt (map fst ks') /\ Forall2 (line_of h) ks' ls /\ file_str (mkF h os true true) = joined ls.
Proof.
  intros P L F. destruct (Forall2_perm _ _ _ F _ (by_key_perm os)) as (ks' & P' & F'). exists ks', (map line (by_key os)). split; [exact P'|].
  assert (ND : NoDup (map ob_key os)) by (rewrite (proj1 (obj_keys _ _ _ F)); exact (listing_nodup h ks P L)).
  split; [|split].
  - rewrite <- (proj1 (obj_keys _ _ _ F')). pose proof (by_key_sorted os ND) as S. clear -S. induction S as [|x l S IH G]; cbn [map]; constructor; [exact IH|]. now rewrite Forall_map.
  - assert (H : forall kp, In kp ks' -> (exists g, snd kp = [g]) \/ exists g s, snd kp = [g; s]).
    { intros kp I. apply (Permutation_in _ (Permutation_sym P')) in I. exact (listing_paths h ks L kp I). }
    clear -F' H P. induction F' as [|kp o ks' l O F IH]; cbn [map]; constructor.
    + apply line_ok; [exact P|exact (H kp (or_introl eq_refl))|exact O].
    + apply IH. intros x Hx. apply H. now right.
  - unfold file_str. cbn [hf_open hf_objs]. exact (fold_joined line (by_key os) "").
Qed.

(** ** Tables of a group *)
Lemma child_tables_in h p n : In n (child_tables h p) <-> exists d r, h5_find (p ++ [n]) h = Some (Table d r).
Proof.
  unfold child_tables. rewrite str_sort_in, in_flat_map. split.
  - intros ([q nd] & _ & H). cbn [fst] in H. destruct (h5_find q h) as [[a|d r|t l]|] eqn:E; try destruct H.
    destruct (below p q) as [m|] eqn:B; [|destruct H]. destruct H as [->|[]]. apply below_iff in B. subst q. now exists d, r.
  - intros (d & r & H). exists (p ++ [n], Table d r). split; [now apply h5_find_in|]. cbn [fst]. rewrite H.
    replace (below p (p ++ [n])) with (Some n) by (symmetry; now apply below_iff). now left.
Qed.
Lemma blanks_only n c : In c (s2l (blanks n)) -> c = " "%char.
Proof. induction n as [|n IH]; cbn; [intros []|]. intros [<-|H]; [reflexivity|now apply IH]. Qed.
Lemma blanks_length n : String.length (blanks n) = n.
Proof. induction n as [|n IH]; cbn; congruence. Qed.
Definition info_line (h : h5) (p : path) (n : string) : string := (fill 8 n ++ ": " ++ str_of_Z (Z.of_nat (table_len h (p ++ [n])%list)) ++ newline)%string.
Lemma info_line_ok h p n : count_line (n, table_len h (p ++ [n])%list) (info_line h p n).
Proof.
  exists (blanks (8 - String.length n)). cbn [fst snd]. split; [intros c; apply blanks_only|]. split; [rewrite append_length, blanks_length; lia|].
  split; [intros H; now replace (8 - String.length n)%nat with 0%nat by lia|]. unfold info_line, fill. now rewrite !str_app_assoc.
Qed.
Lemma record_info_ok h o : d_open o = true -> exists l ls, record_info h o = Ok (joined ls) /\ Forall2 count_line l ls /\ StronglySorted str_lt (map fst l) /\
  forall n c, In (n, c) l <-> exists ds rows, h5_find (d_group o ++ [n]) h = Some (Table ds rows) /\ c = length rows.
Proof.
  intros O. unfold record_info. rewrite O. set (g := d_group o). set (ns := child_tables h g).
  exists (map (fun n => (n, table_len h (g ++ [n]))) ns), (map (info_line h g) ns). split; [f_equal; exact (fold_joined (info_line h g) ns "")|]. split; [|split].
  - clear. induction ns as [|n ns IH]; cbn [map]; constructor; [apply info_line_ok|exact IH].
  - rewrite map_map. cbn [fst]. rewrite map_id. apply str_sort_sorted.
  - intros n c. rewrite in_map_iff. unfold table_len. split.
    + intros (m & E & I). injection E as -> <-. apply child_tables_in in I as (ds & rows & F). rewrite F. now exists ds, rows.
    + intros (ds & rows & F & ->). exists n. rewrite F. split; [reflexivity|]. apply child_tables_in. now exists ds, rows.
Qed.
