(** * VtfAdd: elements added to a VTF model *)
From Coq Require Import Sorted ZifyBool FinFun.
From Verif Require Import Base ListFacts Vtf VtfAddSpec.
Open Scope string_scope.
Open Scope Z_scope.
Open Scope list_scope.
Open Scope monad_scope.

Fixpoint row_ends (o : Z) (rows : list (list Z)) : list Z :=
  match rows with [] => [] | r :: rs => (o + Zlen r) :: row_ends (o + Zlen r) rs end.
Lemma slice_middle {A} (a b c : list A) : slice (Zlen a) (Zlen a + Zlen b) (a ++ b ++ c) = b.
Proof.
  unfold slice, clamp. rewrite !Zlen_app. pose proof (Zlen_nonneg a). pose proof (Zlen_nonneg b). pose proof (Zlen_nonneg c).
  replace (Zlen a <? 0) with false by lia. replace (Zlen a + Zlen b <? 0) with false by lia.
  replace (Z.to_nat (Z.min (Zlen a) (Zlen a + (Zlen b + Zlen c)))) with (length a) by (unfold Zlen; lia).
  replace (Z.to_nat _) with (length b) by (unfold Zlen in *; lia).
  rewrite skipn_app, skipn_all, Nat.sub_diag. cbn [app skipn]. now rewrite firstn_app, Nat.sub_diag, firstn_all, firstn_O, app_nil_r.
Qed.
Lemma cut_rows rows : forall pre, cut (Zlen pre) (pre ++ concat rows) (row_ends (Zlen pre) rows) = rows.
Proof.
  induction rows as [|r rows IH]; intro pre; [reflexivity|]. cbn [row_ends cut concat]. rewrite slice_middle. f_equal. rewrite app_assoc. specialize (IH (pre ++ r)). now rewrite Zlen_app in IH.
Qed.
Lemma ends_rows (f : list Z -> list Z) es : (forall l, Zlen (f l) = Zlen l) -> forall o, ends o es = row_ends o (map (fun e => f (el_nodes e)) es).
Proof. intro H. induction es as [|e es IH]; intro o; [reflexivity|]. cbn [ends map row_ends]. now rewrite H, IH. Qed.

Lemma by_type_map {A} t (f : element -> A) es : by_type t (map el_type es) (map f es) = map f (of_type t es).
Proof.
  unfold by_type, of_type. induction es as [|e es IH]; [reflexivity|]. cbn [map combine filter fst]. destruct (el_type e =? t); cbn [map snd]; now rewrite IH.
Qed.

(** ** Types that occur *)
Lemma insert_in z l x : In x (insert_new z l) <-> x = z \/ In x l.
Proof.
  induction l as [|y l IH]; [cbn; intuition|]. cbn [insert_new]. destruct (z <? y); [cbn; intuition|]. destruct (Z.eqb_spec z y) as [->|]; [cbn; intuition|]. cbn [In]. rewrite IH. intuition.
Qed.
Lemma insert_sorted z l : StronglySorted Z.lt l -> StronglySorted Z.lt (insert_new z l).
Proof.
  induction 1 as [|y l S IH F]; [repeat constructor|]. cbn [insert_new]. destruct (Z.ltb_spec z y).
  - constructor; [now constructor|]. constructor; [exact H|]. eapply Forall_impl; [|exact F]. intros a Ha. cbn beta in Ha. lia.
  - destruct (Z.eqb_spec z y) as [->|N]; [now constructor|]. constructor; [exact IH|]. apply Forall_forall. intros x Hx. apply insert_in in Hx as [->|Hx]; [lia|]. rewrite Forall_forall in F. now apply F.
Qed.
Lemma unique_in l x : In x (unique l) <-> In x l.
Proof. unfold unique. induction l as [|y l IH]; [reflexivity|]. cbn [fold_right In]. rewrite insert_in, IH. intuition. Qed.
Lemma unique_sorted l : StronglySorted Z.lt (unique l).
Proof. unfold unique. induction l as [|y l IH]; [constructor|]. now apply insert_sorted. Qed.

Lemma type_name t : In t (map fst type_names) -> exists s, oget Z.eqb t elem_type_map = Ok s /\ In (t, s) type_names.
Proof. cbn [type_names map fst In]. intros [<-|[<-|[<-|[<-|[<-|[<-|[]]]]]]]; eexists; (split; [reflexivity|]); cbn [In type_names]; tauto. Qed.
Lemma rmap_types {A} (f : string -> Z -> A) (R : string -> list element -> A -> Prop) es : Forall (fun e => In (el_type e) (map fst type_names)) es ->
  (forall t s, In (t, s) type_names -> In t (map el_type es) -> R s (of_type t es) (f s t)) ->
  exists d, rmap (fun t => dor s <- oget Z.eqb t elem_type_map; Ok (s, f s t)) (unique (map el_type es)) = Ok d /\ grouped es R d.
Proof.
  intros HT HR. assert (H : forall types, (forall t, In t types -> In t (map el_type es)) -> exists d, rmap (fun t => dor s <- oget Z.eqb t elem_type_map; Ok (s, f s t)) types = Ok d /\
    Forall2 (fun t p => In (t, fst p) type_names /\ R (fst p) (of_type t es) (snd p)) types d).
  { induction types as [|t types IH]; intro HI; [exists []; split; [reflexivity|constructor]|]. destruct IH as (d & E & F); [intros u Hu; apply HI; now right|].
    destruct (type_name t) as (s & Es & Hs). { assert (K := HI t ltac:(now left)). apply in_map_iff in K as (e & <- & He). rewrite Forall_forall in HT. now apply HT. }
    exists ((s, f s t) :: d). cbn [rmap]. rewrite Es. cbn [rbind]. rewrite E. split; [reflexivity|]. constructor; [|exact F]. split; [exact Hs|]. apply HR; [exact Hs|]. apply HI. now left. }
  destruct (H (unique (map el_type es))) as (d & E & F); [intros t Ht; now apply unique_in|]. exists d. split; [exact E|]. exists (unique (map el_type es)). split; [apply unique_sorted|]. split; [|exact F].
  intro t. rewrite unique_in, in_map_iff. split; intros (e & P & Q); exists e; auto.
Qed.

(** ** Nodes of an element *)
Definition num (ns : nodes) (p : Z) : Z := match n_ids ns with Some ids => nth (Z.to_nat p) ids 0 | None => p end.
Lemma take_ok ids con : Forall (fun p => 0 <= p < Zlen ids) con -> take ids con = Ok (map (fun p => nth (Z.to_nat p) ids 0) con).
Proof.
  unfold take. induction 1 as [|p con H _ IH]; [reflexivity|]. cbn [map rmap]. unfold pygetZ at 1. replace (p <? 0) with false by lia. cbv zeta. replace (p <? 0) with false by lia. unfold pyget.
  rewrite (nth_error_nth' ids 0) by (unfold Zlen in H; lia). cbn [rbind]. now rewrite IH.
Qed.
Lemma nth_error_map_some {A B} (f : A -> B) l j y : nth_error (map f l) j = Some y -> exists x, nth_error l j = Some x /\ f x = y.
Proof. revert j. induction l as [|a l IH]; intros [|j] E; cbn in E; try discriminate; [injection E as <-; now exists a|now apply IH]. Qed.
Lemma quads8_length r : length (quads8 r) = length r.
Proof. do 9 (destruct r as [|? r]; [reflexivity|]). reflexivity. Qed.
Lemma quads8_nth r j n : nth_error (quads8 r) j = Some n -> nth_error r (vtf_place "%QUADS_8" (length r) j) = Some n.
Proof.
  destruct r as [|a [|b [|c [|d [|e [|f [|g [|h [|i r]]]]]]]]]; try (intro H; exact H). do 8 (destruct j as [|j]; [intro H; exact H|]). cbn. now destruct j.
Qed.
Lemma row_is ns s e : Forall (has_node ns) (el_nodes e) ->
  vtf_row ns s e ((if String.eqb s "%QUADS_8" then quads8 else fun r => r) (map (match n_ids ns with Some _ => fun z => z | None => fun z => z + 1 end) (map (num ns) (el_nodes e)))).
Proof.
  intro H. set (g := match n_ids ns with Some _ => fun z => z | None => fun z => z + 1 end). rewrite map_map.
  assert (HN : forall p, In p (el_nodes e) -> node_number ns p (g (num ns p))).
  { intros p Hp. rewrite Forall_forall in H. specialize (H p Hp). unfold node_number, has_node, num, g in *. destruct (n_ids ns) as [ids|]; [|reflexivity]. split; [lia|]. apply nth_error_nth'. unfold Zlen in H. lia. }
  set (r := map (fun p => g (num ns p)) (el_nodes e)). assert (HR : forall j n, nth_error r j = Some n -> exists p, nth_error (el_nodes e) j = Some p /\ node_number ns p n).
  { intros j n E. apply nth_error_map_some in E as (p & Ep & <-). exists p. split; [exact Ep|]. apply HN. now apply nth_error_In in Ep. }
  assert (HL : length r = length (el_nodes e)) by apply map_length. destruct (String.eqb_spec s "%QUADS_8") as [->|N].
  - split; [now rewrite quads8_length|]. intros j n E. apply quads8_nth in E. rewrite quads8_length. now apply HR.
  - split; [exact HL|]. intros j n E. unfold vtf_place. apply String.eqb_neq in N. rewrite N. now apply HR.
Qed.

(** ** Free numbers *)
Lemma free_not_used l : forall fuel n, zin l (free_id fuel n (zin l)) = true -> forall m, n <= m <= n + Z.of_nat fuel -> In m l.
Proof.
  induction fuel as [|k IH]; intros n E m Hm; cbn [free_id] in E.
  - replace m with n by lia. apply existsb_exists in E as (x & Hx & E). apply Z.eqb_eq in E. now subst.
  - destruct (zin l n) eqn:En; [|congruence]. destruct (Z.eq_dec m n) as [->|N]; [apply existsb_exists in En as (x & Hx & E'); apply Z.eqb_eq in E'; now subst|]. apply (IH (n + 1)); [exact E|lia].
Qed.
Lemma free_id_free l n : ~ In (free_id (length l) n (zin l)) l.
Proof.
  intro K. assert (E : zin l (free_id (length l) n (zin l)) = true) by (apply existsb_exists; eexists; split; [exact K|apply Z.eqb_refl]).
  pose proof (free_not_used l (length l) n E) as H. set (s := map (fun i => n + Z.of_nat i) (seq 0 (S (length l)))).
  assert (ND : NoDup s). { unfold s. apply Injective_map_NoDup; [intros a b Hab; lia|apply seq_NoDup]. }
  assert (IN : incl s l). { intros x Hx. apply in_map_iff in Hx as (i & <- & Hi). apply in_seq in Hi. apply H. lia. }
  pose proof (NoDup_incl_length ND IN) as L. unfold s in L. rewrite map_length, seq_length in L. lia.
Qed.
Lemma free_id_above l : forall fuel n, n <= free_id fuel n (zin l).
Proof. induction fuel as [|k IH]; intro n; cbn [free_id]; [lia|]. destruct (zin l n); [|lia]. specialize (IH (n + 1)). lia. Qed.

(** ** add_elements *)
Lemma oset_put {V} k (x : V) d : put k x d (oset Z.eqb k x d).
Proof.
  induction d as [|(k', y) d IH]; [apply (put_new k x []); intros []|]. cbn [oset]. destruct (Z.eqb_spec k k') as [<-|N]; [apply (put_old k x []); intros []|].
  destruct IH as [d H|a y' b H]; [apply (put_new k x ((k', y) :: d))|apply (put_old k x ((k', y) :: a))]; intros [E|E]; auto.
Qed.
Lemma first_get nid (ns : nodes) a b : ~ In (Some nid) (map fst a) -> oget oz_eqb (Some nid) (a ++ (Some nid, ns) :: b) = Ok ns.
Proof.
  intro N. unfold oget. induction a as [|(k, y) a IH]; cbn [app dget]; [cbn; now rewrite Z.eqb_refl|]. destruct (oz_eqb (Some nid) k) eqn:E; [|apply IH; intro X; apply N; now right].
  destruct k as [k|]; [|discriminate E]. cbn in E. apply Z.eqb_eq in E. subst k. elim N. now left.
Qed.
Lemma elements_added name descr es (with_numbers : bool) nid ns a b eid v : 0 < nid -> v_nodes v = a ++ (Some nid, ns) :: b -> ~ In (Some nid) (map fst a) ->
  match eid with Some k => 0 < k | None => True end ->
  Forall (fun e => In (el_type e) (map fst type_names) /\ Forall (has_node ns) (el_nodes e)) es ->
  exists w k dict ids, add_elements true name (connectivity es) (ends 0 es) (map el_type es) (if with_numbers then Some (map el_number es) else None) descr (Some nid) eid v = Ok w /\
    put k (mkElems name descr nid dict ids []) (v_elems v) (v_elems w) /\
    match eid with Some j => k = j | None => ~ In k (map fst (v_elems v)) /\ v_celems v <= k < v_celems w end /\
    v_nodes w = v_nodes v /\ v_results w = v_results v /\ v_scalars w = v_scalars v /\ v_curelems w = Some k /\
    grouped es (fun s sel rows => Forall2 (vtf_row ns s) sel rows) dict /\
    if with_numbers then exists i, ids = Some i /\ grouped es (fun _ sel l => l = map el_number sel) i else ids = None.
Proof.
  intros Hn Ens0 Nns Hk HE. pose proof (first_get nid ns a b Nns) as Ens. rewrite <- Ens0 in Ens. destruct nid as [|nid|nid]; try lia. unfold add_elements. cbn [negb andb]. rewrite Ens. cbn [rbind].
  set (fresh := match eid with None | Some Z0 => true | _ => false end). set (k := if fresh then free_id (length (v_elems v)) (v_celems v) (zin (map fst (v_elems v))) else match eid with Some k => k | None => 0 end).
  set (v0 := if fresh then set_counters v (v_cnodes v) (k + 1) (v_cscalar v) (v_cresults v) else v).
  assert (HT : Forall (fun e => In (el_type e) (map fst type_names)) es) by (eapply Forall_impl; [|exact HE]; now intros e (H & _)).
  assert (HC : (match n_ids ns with Some ids => take ids (connectivity es) | None => Ok (connectivity es) end) = Ok (concat (map (fun e => map (num ns) (el_nodes e)) es))).
  { unfold connectivity. rewrite <- (map_map el_nodes (map (num ns))), <- concat_map. assert (HF : Forall (has_node ns) (concat (map el_nodes es))).
    { apply Forall_concat, Forall_map. eapply Forall_impl; [|exact HE]. now intros e (_ & H). }
    unfold num, has_node in *. destruct (n_ids ns) as [ids|]; [now apply take_ok|]. f_equal. symmetry. apply map_id. }
  rewrite HC. cbn [rbind]. rewrite (ends_rows (map (num ns))) by (intro l; unfold Zlen; now rewrite map_length).
  pose proof (cut_rows (map (fun e => map (num ns) (el_nodes e)) es) []) as EC. change (Zlen (@nil Z)) with 0 in EC. cbn [app] in EC. rewrite EC.
  destruct (rmap_types (fun s t => map (fun r => (if String.eqb s "%QUADS_8" then quads8 else fun r => r) (map (match n_ids ns with Some _ => fun z => z | None => fun z => z + 1 end) r)) (by_type t (map el_type es) (map (fun e => map (num ns) (el_nodes e)) es)))
    (fun s sel rows => Forall2 (vtf_row ns s) sel rows) es HT) as (dict & Ed & Gd).
  { intros t s _ _. rewrite by_type_map, map_map. assert (HF : Forall (fun e => Forall (has_node ns) (el_nodes e)) (of_type t es)).
    { apply Forall_forall. intros e He. apply filter_In in He as [He _]. rewrite Forall_forall in HE. now apply HE. }
    induction HF as [|e l He _ IH]; constructor; [now apply row_is|exact IH]. }
  rewrite Ed. cbn [rbind].
  destruct (rmap_types (fun _ t => by_type t (map el_type es) (map el_number es)) (fun _ sel l => l = map el_number sel) es HT) as (i & Ei & Gi).
  { intros t s _ _. apply by_type_map. }
  exists (set_current (set_elems v0 (oset Z.eqb k (mkElems name descr (Z.pos nid) dict (if with_numbers then Some i else None) []) (v_elems v))) (Some k) (v_curscalar v)), k, dict, (if with_numbers then Some i else None).
  split; [|split; [|split; [|split; [|split; [|split; [|split; [|split]]]]]]].
  - destruct with_numbers; [rewrite Ei|]; reflexivity.
  - apply oset_put.
  - destruct eid as [j|].
    + unfold k, fresh. now destruct j.
    + unfold v0, k. change fresh with true. cbn iota. split; [rewrite <- (map_length fst (v_elems v)); apply free_id_free|]. cbn [v_celems set_current set_elems set_counters]. pose proof (free_id_above (map fst (v_elems v)) (length (v_elems v)) (v_celems v)). lia.
  - unfold v0. now destruct fresh.
  - unfold v0. now destruct fresh.
  - unfold v0. now destruct fresh.
  - reflexivity.
  - exact Gd.
  - destruct with_numbers; [exists i; now split|reflexivity].
Qed.
