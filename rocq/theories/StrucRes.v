(** * StrucRes: results, properties and lookups. *)
From Coq Require Import Sorted Permutation.
From Verif Require Import Base Flt H5 Schema StoreSpec ParserSpec Data Struc StrucSpec ListFacts DataFacts StrucProofs StrucGet.
Open Scope string_scope.
Open Scope Z_scope.
Open Scope list_scope.
Open Scope monad_scope.

Lemma zmem_spec z l : zmem z l = true <-> In z l.
Proof. unfold zmem. rewrite existsb_exists. split; [intros (x & H & E); apply Z.eqb_eq in E; now subst|intro H; exists z; split; [exact H|apply Z.eqb_refl]]. Qed.
Lemma subseq_filter {A} (P : A -> Prop) p l m : (forall x, p x = true <-> P x) -> subseq P l m -> filter p l = m.
Proof.
  intro HP. induction 1 as [|x l m H _ IH|x l m H _ IH]; cbn [filter]; [reflexivity|..].
  - rewrite (proj2 (HP x) H). now rewrite IH.
  - destruct (p x) eqn:E; [exfalso; apply H, HP, E|exact IH].
Qed.

(** ** Result references (C52) *)
Definition ref_tab rows := mkTab (descr_of "RDRESREF") rows.
Definition cases_arg (c : option (list Z)) (a : cases) : Prop :=
  match c with
  | None => a = AllCases
  | Some l => a = SomeCases l \/ exists z, l = [z] /\ a = OneCase z
  end.
Section Refs.
  Variables (h : h5) (d : sdata) (rs : list ref).
  Hypothesis Ho : d_open d = true.
  Hypothesis HR : refs_in h (d_group d) rs.
  Lemma resrefs_ok run cs arg sel : cases_arg cs arg -> asked_refs run cs rs sel ->
    exists rows all, get_resrefs h d run arg = Ok (ref_tab all, rows) /\ Forall2 ref_row sel rows.
  Proof.
    intros HA HS. destruct HR as (all & arr & H & HF). unfold get_resrefs. rewrite (holds_record1 _ _ _ _ _ Ho H). cbn [rbind t_rows].
    fold (ref_tab all).
    set (p := fun r => (rf_run r =? run) && match cs with None => true | Some l => zmem (rf_case r) l end).
    assert (HP : filter p rs = sel).
    { eapply subseq_filter; [|exact HS]. intro r. unfold p. rewrite andb_true_iff, Z.eqb_eq. destruct cs; [rewrite zmem_spec|]; intuition. }
    assert (G : forall q t, t_descr t = descr_of "RDRESREF" -> (forall r row, ref_row r row -> q row = Ok (p r)) ->
      exists rows, rfilter q all = Ok rows /\ Forall2 ref_row (filter p rs) rows).
    { intros q t Ht Hq. clear H HS HP HR. induction HF as [|r row l l' Hr HF IH]; [exists []; split; [reflexivity|constructor]|].
      destruct IH as (rows & I1 & I2). cbn [rfilter filter]. rewrite (Hq _ _ Hr). cbn [rbind]. rewrite I1. cbn [rbind].
      destruct (p r); eexists; (split; [reflexivity|]); [constructor; assumption|assumption]. }
    assert (B : forall q : Z -> bool, (forall r, ((rf_run r =? run) && q (rf_case r))%bool = p r) -> forall r row, ref_row r row ->
      both (int_is (ref_tab all) "irno" run) (fun r => dor x <- ifield (ref_tab all) "ieres" r; Ok (q x)) row = Ok (p r)).
    { intros q Hq r row (a & b & c & r1 & r2 & ->). rewrite <- Hq. reflexivity. }
    destruct cs as [l|]; cbn [cases_arg] in HA.
    - destruct HA as [->|(z & -> & ->)].
      + destruct (G (both (int_is (ref_tab all) "irno" run) (fun r => dor x <- ifield (ref_tab all) "ieres" r; Ok (zmem x l))) (ref_tab all) eq_refl) as (rows & G1 & G2).
        { apply (B (fun x => zmem x l)). reflexivity. }
        exists rows, all. cbn [t_rows ref_tab]. fold (ref_tab all). rewrite G1. rewrite HP in G2. now split.
      + destruct (G (both (int_is (ref_tab all) "irno" run) (fun r => dor x <- ifield (ref_tab all) "ieres" r; Ok (zmem x [z]))) (ref_tab all) eq_refl) as (rows & G1 & G2).
        { apply (B (fun x => zmem x [z])). reflexivity. }
        exists rows, all. cbn [t_rows ref_tab]. fold (ref_tab all). rewrite G1. rewrite HP in G2. now split.
    - subst arg. destruct (G (int_is (ref_tab all) "irno" run) (ref_tab all) eq_refl) as (rows & G1 & G2).
      { intros r row (a & b & c & r1 & r2 & ->). unfold p. rewrite andb_true_r. reflexivity. }
      exists rows, all. cbn [t_rows ref_tab]. fold (ref_tab all). rewrite G1. rewrite HP in G2. now split.
  Qed.
End Refs.
Lemma ref_col all rows sel c f : Forall2 ref_row sel rows -> (forall r row, ref_row r row -> ifield (ref_tab all) c row = Ok (f r)) ->
  rmap (ifield (ref_tab all) c) rows = Ok (map f sel).
Proof.
  induction 1 as [|r row sel rows Hr HF IH]; intro H; [reflexivity|]. cbn [rmap map]. rewrite (H _ _ Hr). now rewrite (IH H).
Qed.
Lemma ref_ires all r row : ref_row r row -> ifield (ref_tab all) "ires" row = Ok (rf_ires r).
Proof. intros (a & b & c & r1 & r2 & ->). reflexivity. Qed.
Lemma ref_icompl all r row : ref_row r row -> ifield (ref_tab all) "icompl" row = Ok (rf_complex r).
Proof. intros (a & b & c & r1 & r2 & ->). reflexivity. Qed.

Lemma flags_same sel : sel <> [] -> (forall r r', In r sel -> In r' sel -> rf_complex r = rf_complex r') ->
  exists f, check_complex_and_get_flag (map rf_complex sel) = Ok f /\ forall r, In r sel -> rf_complex r = f.
Proof.
  intros Hne H. destruct sel as [|r0 sel]; [congruence|]. exists (rf_complex r0). split.
  - unfold check_complex_and_get_flag. cbn [map].
    assert (forallb (Z.eqb (rf_complex r0)) (map rf_complex (r0 :: sel)) = true) as G.
    { apply forallb_forall. intros x Hx. apply in_map_iff in Hx. destruct Hx as (r & <- & Hr). apply Z.eqb_eq. apply H; [now left|exact Hr]. }
    cbn [map] in G. now rewrite G.
  - intros r Hr. apply H; [exact Hr|now left].
Qed.
Lemma flags_mixed sel r r' : In r sel -> In r' sel -> rf_complex r <> rf_complex r' ->
  check_complex_and_get_flag (map rf_complex sel) = Err ResultError.
Proof.
  intros H1 H2 Hn. destruct sel as [|r0 sel]; [destruct H1|]. unfold check_complex_and_get_flag. cbn [map].
  destruct (forallb _ _) eqn:E; [|reflexivity]. exfalso. change (rf_complex r0 :: map rf_complex sel) with (map rf_complex (r0 :: sel)) in E.
  rewrite forallb_forall in E. apply (in_map rf_complex) in H1. apply (in_map rf_complex) in H2. apply E in H1, H2. apply Z.eqb_eq in H1, H2. congruence.
Qed.

(** ** Node results (C31) *)
Lemma length_insert x l : ~ In x l -> length (insert x l) = S (length l).
Proof.
  induction l as [|y l IH]; intro H; [reflexivity|]. cbn [insert]. destruct (x <? y); [reflexivity|].
  destruct (Z.eqb_spec x y) as [->|]; [exfalso; apply H; now left|]. cbn [length]. rewrite IH; [reflexivity|]. intro. apply H. now right.
Qed.
Lemma length_unique l : NoDup l -> length (unique l) = length l.
Proof.
  induction 1 as [|x l H HN IH]; [reflexivity|]. cbn [length]. unfold unique in *. cbn [fold_right]. rewrite length_insert; [now rewrite IH|].
  intro F. apply H. now apply In_unique.
Qed.

Definition shaped (l : list (list (list cell))) : noderes := match l with [a] => One a | _ => Many l end.

Lemma reshape_ok {A} (ls : list (list A)) : Forall (fun l => length l = 6%nat) ls -> reshape 6 (concat ls) = Ok ls.
Proof.
  intro H. unfold reshape. rewrite (concat_length 6) by exact H. rewrite Nat.mul_comm, Nat.mod_mul by discriminate. cbn [Nat.eqb].
  now rewrite chunks_concat by (auto; lia).
Qed.
Lemma reshape3_ok {A} m (ls : list (list (list A))) k : length ls = m -> (0 < m)%nat -> (0 < k)%nat ->
  Forall (fun l => length l = k /\ Forall (fun v => length v = 6%nat) l) ls ->
  reshape3 m 6 (concat (concat ls)) = Ok ls.
Proof.
  intros HL Hm Hk HF.
  assert (HC : Forall (fun l => length l = (k * 6)%nat) (map (@concat A) ls)).
  { rewrite Forall_map. eapply Forall_impl; [|exact HF]. cbn. intros l [H1 H2]. rewrite (concat_length 6) by exact H2. lia. }
  assert (HE : concat (concat ls) = concat (map (@concat A) ls)).
  { clear. induction ls as [|l ls IH]; [reflexivity|]. cbn. now rewrite concat_app, IH. }
  unfold reshape3. rewrite HE. rewrite (concat_length (k * 6)) by exact HC. rewrite map_length, HL.
  replace (k * 6 * m)%nat with (k * (m * 6))%nat by lia. rewrite Nat.mod_mul by lia. cbn [Nat.eqb].
  replace (k * (m * 6))%nat with (k * 6 * m)%nat by lia. rewrite Nat.div_mul by lia.
  rewrite chunks_concat by (auto; lia). f_equal. rewrite map_map. rewrite <- (map_id ls) at 2. apply map_ext_in.
  intros l Hl. rewrite Forall_forall in HF. destruct (HF l Hl) as [_ H2]. apply chunks_concat; [lia|exact H2].
Qed.

Fixpoint showing_c (v : list cell) : list cell :=
  match v with CF a :: CF b :: r => CC a b :: showing_c r | _ => [] end.
Definition showing (f : Z) (v : list cell) : list cell := if f =? 0 then v else showing_c v.
Lemma showing_c_ok ps : showing_c (flat_map (fun p => [CF (fst p); CF (snd p)]) ps) = map (fun p => CC (fst p) (snd p)) ps.
Proof. induction ps as [|p ps IH]; [reflexivity|]. cbn. now rewrite IH. Qed.
Lemma shown_showing f v w : shown f v w -> w = showing f v.
Proof.
  unfold shown, showing. destruct (f =? 0); [tauto|]. intros (_ & ps & -> & ->). symmetry. apply showing_c_ok.
Qed.
Lemma to_complex_app ps l : to_complex (flat_map (fun p => [CF (fst p); CF (snd p)]) ps ++ l) =
  dor r <- to_complex l; Ok (map (fun p => CC (fst p) (snd p)) ps ++ r).
Proof.
  induction ps as [|p ps IH]; cbn [flat_map map app].
  - destruct (to_complex l); reflexivity.
  - cbn [to_complex]. rewrite IH. destruct (to_complex l); reflexivity.
Qed.
Lemma to_shown f ls : Forall (fun v => exists w, shown f v w) ls ->
  (if f =? 0 then Ok (concat ls) else to_complex (concat ls)) = Ok (concat (map (showing f) ls)).
Proof.
  intro H. destruct (f =? 0) eqn:E.
  - unfold showing. rewrite E. now rewrite map_id.
  - induction H as [|v ls (w & Hw) HF IH]; [reflexivity|]. cbn [concat map]. pose proof (shown_showing _ _ _ Hw) as HE.
    unfold shown in Hw. rewrite E in Hw. destruct Hw as (_ & ps & -> & ->). rewrite to_complex_app, IH. cbn [rbind]. now rewrite HE.
Qed.

Section NodeRes.
  Variables (h : h5) (d : sdata) (ns : list mnode) (es : list melem).
  Hypothesis Ho : d_open d = true.
  Hypothesis HM : mesh_in h (d_group d) ns es.
  Variables (nms : list setname) (ms : list memrec) (sets : list (list ascii)) (kind : string).
  Hypothesis HP : proper h (d_group d) es nms ms sets kind.
  Variable idx : list nat.
  Hypothesis HI : selected es nms ms sets kind idx.
  Hypothesis Hne : idx <> [] \/ nosel sets kind = true.
  Variables (rs : list ref) (run : Z) (cs : option (list Z)) (arg : cases) (sel : list ref).
  Hypothesis HRf : refs_in h (d_group d) rs.
  Hypothesis HA : cases_arg cs arg.
  Hypothesis HS : asked_refs run cs rs sel.
  Variables (restype rn cn : string).
  Hypothesis HT : In (restype, rn, cn) [("displacement", "RVNODDIS", "dis"); ("velocity", "RVNODVEL", "vel"); ("acceleration", "RVNODACC", "acc")].

  Lemma restype_ok : restype_of restype = Ok (rn, cn).
  Proof. destruct HT as [E|[E|[E|[]]]]; injection E as <- <- <-; reflexivity. Qed.

  Lemma mixed_raises r r' disconnected rows arr : holds h (d_group d) rn (mkC rows [arr]) ->
    In r sel -> In r' sel -> rf_complex r <> rf_complex r' ->
    get_noderesults h d restype run arg sets kind disconnected = Err ResultError.
  Proof.
    intros H H1 H2 Hn. unfold get_noderesults. rewrite restype_ok. cbn [rbind]. rewrite (holds_record1 _ _ _ _ _ Ho H). cbn [rbind].
    destruct (resrefs_ok h d rs Ho HRf run cs arg sel HA HS) as (rrows & all & -> & HF). cbn [rbind].
    rewrite (ref_col all _ _ "icompl" rf_complex HF) by apply ref_icompl. cbn [rbind]. now rewrite (flags_mixed sel r r' H1 H2 Hn).
  Qed.

  Variables (bs : list block).
  Hypothesis HB : noderes_in h (d_group d) rn (length ns) bs.
  (** The results of the cases asked for are there, in the order of the references. *)
  Hypothesis Hord : filter (fun i => zmem i (map rf_ires sel)) (map fst bs) = map rf_ires sel.
  Hypothesis Hnd : NoDup (map rf_ires sel).
  Hypothesis Hsel : sel <> [].
  Variable f : Z.
  Hypothesis Hreal : forall r, In r sel -> rf_complex r = f.
  Hypothesis Hshape : forall b, In b bs -> In (fst b) (map rf_ires sel) -> Forall (fun v => exists w, shown f v w) (snd b).
  Let nidx := node_nats ns es sets kind idx false.
  Hypothesis Hnn : nidx <> [].
  Let bsel := filter (fun b => zmem (fst b) (map rf_ires sel)) bs.
  Definition at_node (b : block) (j : nat) : list cell := nth j (snd b) [].
  Let val (b : block) (j : nat) : list cell := showing f (at_node b j).

  Lemma bsel_ires : map fst bsel = map rf_ires sel.
  Proof. etransitivity; [|exact Hord]. symmetry. apply (filter_map (fun i => zmem i (map rf_ires sel)) fst bs). Qed.
  Lemma flat_filter (q : Z -> bool) (p : nat -> bool) : Forall (fun b => length (snd b) = length ns) bs ->
    (forall j, p j = true <-> In j nidx) ->
    map snd (filter (fun x => q (fst (fst x)) && p (snd (fst x))) (flat bs)) = flat_map (fun b => map (at_node b) nidx) (filter (fun b => q (fst b)) bs).
  Proof.
    intros HL Hp. unfold flat. clear Hord HB Hshape bsel. induction HL as [|b bs' HLb HL IH]; [reflexivity|]. cbn [flat_map filter].
    rewrite filter_app, map_app, IH.
    assert (G : map snd (filter (fun x => q (fst (fst x)) && p (snd (fst x))) (map (fun jv => (fst b, fst jv, snd jv)) (combine (seq 0 (length (snd b))) (snd b))))
       = if q (fst b) then map (at_node b) nidx else []).
    { rewrite filter_map. cbn [fst snd]. destruct (q (fst b)); cbn [andb].
      - rewrite map_map. cbn [snd].
        assert (E1 : combine (seq 0 (length (snd b))) (snd b) = map (fun j => (j, at_node b j)) (seq 0 (length (snd b)))).
        { unfold at_node. apply list_by_nth.
          - rewrite combine_length, map_length, seq_length. lia.
          - intros j [i v] Hj. assert (J : (j < length (snd b))%nat).
            { assert (nth_error (combine (seq 0 (length (snd b))) (snd b)) j <> None) as K by congruence. apply nth_error_Some in K. rewrite combine_length, seq_length in K. lia. }
            rewrite nth_error_map, nth_error_seq by exact J. cbn. f_equal.
            assert (K : forall (l1 : list nat) (l2 : list (list cell)) k a c, nth_error l1 k = Some a -> nth_error l2 k = Some c -> nth_error (combine l1 l2) k = Some (a, c)).
            { induction l1 as [|x l1 IHl]; intros [|y l2] [|k] a c Ha Hc; try discriminate; cbn in *; [congruence|auto]. }
            rewrite (K _ _ j j (nth j (snd b) [])) in Hj; [congruence|now apply nth_error_seq|now apply nth_error_nth_d]. }
        rewrite E1, filter_map, map_map. cbn [fst snd]. f_equal. apply filter_same.
        + apply sorted_seq.
        + pose proof (node_nats_selected h d ns es Ho HM nms ms sets kind idx HI false) as [K _]. exact K.
        + intro j. rewrite in_seq, Hp, HLb. split; [tauto|]. intro Hj. split; [|exact Hj].
          pose proof (node_nats_range h d ns es Ho HM nms ms sets kind idx HI false j Hj). lia.
      - clear. induction (combine (seq 0 (length (snd b))) (snd b)) as [|x l IH]; [reflexivity|]. exact IH. }
    rewrite G. destruct (q (fst b)); reflexivity.
  Qed.

  Lemma noderesults_data : exists rrows all,
    get_resrefs h d run arg = Ok (ref_tab all, rrows) /\ Forall2 ref_row sel rrows /\
    forall disconnected, get_noderesults h d restype run arg sets kind disconnected =
      let arr := map (fun b => map (val b) nidx) bsel in
      if disconnected then
        dor ni <- get_nodeindices h d sets kind disconnected;
        dor ix <- update_connectivity ni;
        dor out <- rmap (fun a => take a ix) arr; Ok (shaped out)
      else Ok (shaped arr).
  Proof.
    destruct (resrefs_ok h d rs Ho HRf run cs arg sel HA HS) as (rrows & all & HG & HF). exists rrows, all. split; [exact HG|]. split; [exact HF|].
    intro disconnected. unfold get_noderesults. rewrite restype_ok. cbn [rbind].
    destruct HB as (rows & arr & H & HL & HRow). rewrite (holds_record1 _ _ _ _ _ Ho H). cbn [rbind]. rewrite HG. cbn [rbind].
    rewrite (ref_col all _ _ "icompl" rf_complex HF) by apply ref_icompl. cbn [rbind].
    destruct (flags_same sel Hsel) as (f' & -> & Hf). { intros. rewrite !Hreal by assumption. reflexivity. }
    cbn [rbind].
    rewrite (nodenumbers_ok h d ns es Ho HM nms ms sets kind HP idx HI false "internal" Hne) by (right; now left). cbn [rbind].
    rewrite (ref_col all _ _ "ires" rf_ires HF) by apply ref_ires. cbn [rbind].
    set (nos := map _ (node_nats _ _ _ _ _ false)).
    assert (Hnos : forall j, zmem (no_of j) nos = true <-> In j nidx).
    { intro j. rewrite zmem_spec. unfold nos. rewrite in_map_iff. split.
      - intros (i & Hi & Hj). unfold node_no in Hi. cbn [String.eqb Ascii.eqb Bool.eqb] in Hi. unfold no_of in Hi. now replace j with i by lia.
      - intro Hj. exists j. split; [reflexivity|exact Hj]. }
    assert (f' = f) as ->. { destruct sel as [|r0 l0]; [congruence|]. rewrite <- (Hf r0) by now left. apply Hreal. now left. }
    set (q := fun x : Z * nat * list cell => zmem (fst (fst x)) (map rf_ires sel) && zmem (no_of (snd (fst x))) nos).
    assert (G : forall t, t_descr t = descr_of rn -> (dor rows0 <- rfilter (fun r => dor i <- ifield t "ires" r; dor n <- ifield t "iinod" r; Ok (zmem i (map rf_ires sel) && zmem n nos)) rows;
        rmap (fun r => dor a <- ifield t (cn ++ "_start") r; dor b <- ifield t (cn ++ "_stop") r; Ok (Base.slice a b arr)) rows0) = Ok (map snd (filter q (flat bs)))).
    { intros t Ht. clear H. induction HRow as [|x row l l' (a & b & c & r1 & r2 & -> & Q1 & Q2 & Q3) HRow IH]; [reflexivity|].
      assert (C : forall z1 z2 z3 z4 z5 z6 z7, let r := [CI z1; CI z2; CI z3; CI z4; CI z5; CI z6; CI z7] in
        ifield t "ires" r = Ok z2 /\ ifield t "iinod" r = Ok z3 /\ ifield t (cn ++ "_start") r = Ok z6 /\ ifield t (cn ++ "_stop") r = Ok z7).
      { intros. unfold ifield, field. rewrite Ht. destruct HT as [E|[E|[E|[]]]]; injection E as <- <- <-; repeat split. }
      cbn [rfilter filter]. rewrite (proj1 (C _ _ _ _ _ _ _)), (proj1 (proj2 (C _ _ _ _ _ _ _))). cbn [rbind]. unfold q at 1.
      destruct (rfilter _ l') as [rows0|e]; cbn [rbind] in IH |- *; [|discriminate].
      destruct (zmem (fst (fst x)) (map rf_ires sel) && zmem (no_of (snd (fst x))) nos); [|exact IH].
      cbn [rmap map]. destruct (C a (fst (fst x)) (no_of (snd (fst x))) b c r1 r2) as (_ & _ & C3 & C4). rewrite C3, C4. cbn [rbind].
      rewrite IH. rewrite slice_range by assumption. now rewrite Q3. }
    specialize (G (mkTab (descr_of rn) rows) eq_refl).
    match type of G with rbind ?x _ = _ => set (RF := x) in * end.
    cbn [t_rows]. change (rfilter _ rows) with RF. destruct RF as [rows0|e]; cbn [rbind] in G |- *; [|discriminate]. rewrite G. cbn [rbind].
    unfold q. rewrite (flat_filter (fun i => zmem i (map rf_ires sel)) (fun j => zmem (no_of j) nos) HL Hnos). fold bsel.
    assert (HLb : length bsel = length sel). { rewrite <- (map_length fst bsel), bsel_ires. apply map_length. }
    rewrite flat_map_concat_map. set (LL := map (fun b => map (at_node b) nidx) bsel).
    assert (HLL : length LL = length sel) by (unfold LL; now rewrite map_length).
    assert (Hpos : (0 < length sel)%nat) by (destruct sel; [congruence|cbn; lia]).
    assert (Hnpos : (0 < length nidx)%nat) by (destruct nidx; [congruence|cbn; lia]).
    assert (HW : Forall (fun v => exists w, shown f v w) (concat LL)).
    { apply Forall_forall. intros v Hv. apply in_concat in Hv. destruct Hv as (l & Hl & Hv). unfold LL in Hl. apply in_map_iff in Hl. destruct Hl as (b & <- & Hb).
      apply in_map_iff in Hv. destruct Hv as (j & <- & Hj). apply filter_In in Hb. destruct Hb as [Hb Hz]. apply zmem_spec in Hz.
      pose proof (Hshape b Hb Hz) as K. rewrite Forall_forall in K. apply K. unfold at_node. apply nth_In. rewrite Forall_forall in HL. rewrite (HL b Hb).
      apply (node_nats_range h d ns es Ho HM nms ms sets kind idx HI false j Hj). }
    set (LC := map (fun b => map (val b) nidx) bsel).
    assert (EC : map (showing f) (concat LL) = concat LC).
    { unfold LL, LC. rewrite concat_map, map_map. f_equal. apply map_ext. intro b. rewrite map_map. reflexivity. }
    assert (HLC : length LC = length sel) by (unfold LC; now rewrite map_length).
    assert (H6 : Forall (fun l => length l = length nidx /\ Forall (fun v => length v = 6%nat) l) LC).
    { apply Forall_forall. intros l Hl. pose proof Hl as Hl'. unfold LC in Hl. apply in_map_iff in Hl. destruct Hl as (b & <- & Hb). split; [apply map_length|].
      apply Forall_forall. intros w Hw. assert (In w (concat LC)) as K by (apply in_concat; eauto). rewrite <- EC in K. apply in_map_iff in K.
      destruct K as (v & <- & Hv). rewrite Forall_forall in HW. destruct (HW v Hv) as (w & Hs). rewrite <- (shown_showing _ _ _ Hs). apply Hs. }
    assert (HCo : concatenate (concat LL) = Ok (concat (concat LL))).
    { unfold concatenate. destruct (concat LL) eqn:EL; [|reflexivity]. exfalso. unfold LL in EL. destruct bsel as [|b l]; [cbn in HLb; lia|].
      cbn in EL. apply app_eq_nil in EL. destruct EL as [EL _]. apply map_eq_nil in EL. congruence. }
    rewrite HCo. cbn [rbind]. rewrite (to_shown f _ HW). cbn [rbind]. rewrite EC. rewrite (length_unique _ Hnd), map_length.
    destruct (Nat.ltb_spec 1 (length sel)) as [L1|L1].
    - rewrite (reshape3_ok (length sel) LC (length nidx) HLC Hpos Hnpos H6). cbn [rbind].
      assert (SH : forall X, length X = length sel -> shaped X = Many X).
      { intros X HX. destruct X as [|x [|y X]]; cbn in HX; try lia; reflexivity. }
      destruct disconnected; [|now rewrite SH].
      destruct (get_nodeindices h d sets kind true) as [ni|]; [|reflexivity]. cbn [rbind]. destruct (update_connectivity ni) as [ix|]; [|reflexivity]. cbn [rbind].
      destruct (rmap (fun a => take a ix) LC) as [out|] eqn:EO; [|reflexivity]. cbn [rbind]. rewrite SH; [reflexivity|].
      rewrite <- HLC. clear - EO. revert out EO. induction LC as [|l LC IH]; intros out EO; cbn in EO; [injection EO as <-; reflexivity|].
      destruct (take l ix); [|discriminate]. destruct (rmap _ LC); [|discriminate]. injection EO as <-. cbn. f_equal. now apply IH.
    - assert (exists l0, LC = [l0]) as (l0 & E0). { destruct LC as [|x [|y ?]]; cbn in HLC; try lia. eauto. }
      assert (concat (concat LC) = concat l0) as -> by (rewrite E0; cbn; now rewrite app_nil_r).
      rewrite E0 in H6. inversion H6 as [|? ? [_ K] _]. subst. rewrite (reshape_ok l0 K). cbn [rbind]. cbv zeta. rewrite E0.
      destruct disconnected; [|reflexivity].
      destruct (get_nodeindices h d sets kind true) as [ni|]; [|reflexivity]. cbn [rbind]. destruct (update_connectivity ni) as [ix|]; [|reflexivity]. cbn [rbind rmap].
      destruct (take l0 ix); reflexivity.
  Qed.

  (** ** Repeated per element *)
  Hypothesis Hused : nosel sets kind = true -> forall j, (j < length ns)%nat -> In (no_of j) (flat_map el_nodes (pick es idx)).
  Lemma node_list_unique : node_list ns es sets kind idx false = unique (node_list ns es sets kind idx true).
  Proof.
    unfold node_list. destruct (nosel sets kind) eqn:EN; [|reflexivity]. apply sorted_same.
    - apply sorted_of_nat, sorted_seq.
    - apply sorted_unique.
    - intro z. rewrite In_unique. unfold arange. rewrite !in_map_iff. split.
      + intros (j & <- & Hj). apply in_seq in Hj. exists (no_of j). split; [unfold no_of; lia|].
        pose proof (lists_pick es nms ms sets kind idx HI) as E1. unfold lists in *. rewrite E1. apply Hused; [reflexivity|lia].
      + intros (y & <- & Hy). pose proof (lists_valid h d ns es HM nms ms sets kind idx HI y Hy) as V. unfold Zlen in V.
        exists (Z.to_nat (y - 1)). split; [lia|]. apply in_seq. lia.
  Qed.
  Lemma take_disconnected (g : nat -> list cell) ix : update_connectivity (node_list ns es sets kind idx true) = Ok ix ->
    take (map g nidx) ix = Ok (map g (node_nats ns es sets kind idx true)).
  Proof.
    intro HU. set (nl := node_list ns es sets kind idx true) in *.
    assert (nl <> []) as Hnl. { intro F. unfold update_connectivity in HU. rewrite F in HU. discriminate. }
    rewrite (update_ok d Ho nl Hnl) in HU. injection HU as <-. unfold node_nats at 1. fold nl. rewrite map_map. unfold take. rewrite rmap_map.
    apply rmap_ok. intros z Hz. destruct (rank_ok d Ho nl z Hz) as [R1 R2]. apply pygetZ_pos; [exact R1|]. unfold nidx, node_nats.
    rewrite map_map, node_list_unique. fold nl. rewrite nth_error_map, R2. reflexivity.
  Qed.

  Lemma noderesults_ok disconnected : (disconnected = true -> idx <> []) -> exists nd,
    selected_nodes ns es (nosel sets kind) disconnected idx nd /\
    get_noderesults h d restype run arg sets kind disconnected = Ok (shaped (map (fun b => map (val b) nd) bsel)).
  Proof.
    intro Hdis. destruct noderesults_data as (rrows & all & _ & _ & G). exists (node_nats ns es sets kind idx disconnected).
    split; [apply (node_nats_selected h d ns es Ho HM nms ms sets kind idx HI)|]. rewrite G. cbv zeta. destruct disconnected; [|reflexivity].
    rewrite (nodeindices h d ns es Ho HM nms ms sets kind HP idx HI true Hne). cbn [rbind].
    assert (HN : node_list ns es sets kind idx true <> []).
    { pose proof (concat_lists_nonempty h d ns es HM nms ms sets kind idx HI (Hdis eq_refl)) as K. unfold node_list.
      destruct (nosel sets kind); destruct (concat _); try congruence; discriminate. }
    pose proof (update_ok d Ho _ HN) as HU. rewrite HU. cbn [rbind]. rewrite rmap_map.
    rewrite (rmap_ok _ (fun b => map (val b) (node_nats ns es sets kind idx true))); [reflexivity|].
    intros b _. apply take_disconnected. exact HU.
  Qed.
  Lemma at_node_value b j : In b bsel -> (j < length ns)%nat -> value_at bs (fst b) j (at_node b j).
  Proof.
    intros Hb Hj. apply filter_In in Hb. destruct Hb as [Hb _]. exists (snd b). split; [now destruct b|]. unfold at_node. apply nth_error_nth_d.
    destruct HB as (_ & _ & _ & HL & _). rewrite Forall_forall in HL. rewrite (HL b Hb). exact Hj.
  Qed.

  (** C31 *)
  Lemma noderesults disconnected : (disconnected = true -> idx <> []) -> exists nd out,
    selected_nodes ns es (nosel sets kind) disconnected idx nd /\
    get_noderesults h d restype run arg sets kind disconnected = Ok (shaped out) /\
    Forall2 (fun r a => Forall2 (fun j w => exists v, value_at bs (rf_ires r) j v /\ shown (rf_complex r) v w) nd a) sel out.
  Proof.
    intro Hdis. destruct (noderesults_ok disconnected Hdis) as (nd & H1 & H2). do 2 eexists. split; [exact H1|]. split; [exact H2|].
    assert (HR : forall j, In j nd -> (j < length ns)%nat).
    { intros j Hj. unfold selected_nodes in H1. destruct disconnected.
      - assert (In (no_of j) (flat_map el_nodes (pick es idx))) as K by (rewrite <- H1; now apply in_map).
        rewrite <- (lists_pick es nms ms sets kind idx HI) in K. pose proof (lists_valid h d ns es HM nms ms sets kind idx HI _ K). unfold no_of, Zlen in *. lia.
      - apply H1 in Hj. destruct (nosel sets kind); [exact Hj|].
        rewrite <- (lists_pick es nms ms sets kind idx HI) in Hj. pose proof (lists_valid h d ns es HM nms ms sets kind idx HI _ Hj). unfold no_of, Zlen in *. lia. }
    assert (G : Forall2 (fun r b => rf_ires r = fst b /\ In r sel /\ In b bsel) sel bsel).
    { pose proof bsel_ires as E. revert E.
      assert (forall l m, incl l sel -> incl m bsel -> map fst m = map rf_ires l -> Forall2 (fun r b => rf_ires r = fst b /\ In r sel /\ In b bsel) l m) as G.
      { induction l as [|r l IH]; intros [|b m] I1 I2 E; try discriminate; [constructor|]. cbn in E. injection E as E1 E2. constructor.
        - split; [congruence|]. split; [apply I1; now left|apply I2; now left].
        - apply IH; [| |exact E2]; intros x Hx; [apply I1|apply I2]; now right. }
      intro E. apply G; [apply incl_refl|apply incl_refl|exact E]. }
    clear H2. induction G as [|r b l m (E & Ir & Ib) G IH]; [constructor|]. cbn [map]. constructor; [|exact IH].
    clear IH G H1. induction nd as [|j nd IH]; [constructor|]. cbn [map]. constructor; [|apply IH; intros; apply HR; now right].
    exists (at_node b j). split; [rewrite E; apply at_node_value; [exact Ib|apply HR; now left]|].
    rewrite (Hreal r Ir). pose proof (proj1 (filter_In _ _ _) Ib) as [Ib1 Ib2]. apply zmem_spec in Ib2. pose proof (Hshape b Ib1 Ib2) as K.
    rewrite Forall_forall in K. destruct (K (at_node b j)) as (w & Hw).
    { apply nth_In. destruct HB as (_ & _ & _ & HL & _). rewrite Forall_forall in HL. rewrite (HL b Ib1). apply HR. now left. }
    unfold val. now rewrite <- (shown_showing _ _ _ Hw).
  Qed.
End NodeRes.


(** ** Properties of elements (C34) *)
Lemma last_index_ok {A} (ps : list (Z * A)) g v : of_number ps g v ->
  exists i, last_index g (map fst ps) = Some i /\ nth_error (map snd ps) i = Some v.
Proof.
  intros (l1 & l2 & -> & Hn). induction l1 as [|[x y] l1 (i & I1 & I2)].
  - cbn [app map last_index fst]. assert (last_index g (map fst l2) = None) as ->.
    { clear - Hn. induction (map fst l2) as [|x l IH]; [reflexivity|]. cbn. rewrite IH by (intro; apply Hn; now right).
      destruct (Z.eqb_spec g x); [exfalso; apply Hn; now left|reflexivity]. }
    rewrite Z.eqb_refl. exists 0%nat. split; reflexivity.
  - cbn [app map last_index fst]. rewrite I1. exists (S i). split; [reflexivity|exact I2].
Qed.
Lemma last_index_none g ks : ~ In g ks -> last_index g ks = None.
Proof.
  induction ks as [|x l IH]; intro Hn; [reflexivity|]. cbn. rewrite IH by (intro; apply Hn; now right).
  destruct (Z.eqb_spec g x); [exfalso; apply Hn; now left|reflexivity].
Qed.
Lemma lookup_ok {A} (ps : list (Z * A)) gs vs : Forall2 (of_number ps) gs vs -> lookup_rows (map fst ps) (map snd ps) gs = Ok vs.
Proof.
  induction 1 as [|g v gs vs H HF IH]; [reflexivity|]. unfold lookup_rows in *. cbn [rmap].
  destruct (last_index_ok ps g v H) as (i & -> & Hi). rewrite (pyget_nth _ _ _ Hi). cbn [rbind]. now rewrite IH.
Qed.
Lemma last_index_range g ks i : last_index g ks = Some i -> (i < length ks)%nat.
Proof.
  revert i. induction ks as [|x l IH]; intros i H; [discriminate|]. cbn in H |- *. destruct (last_index g l) as [j|].
  - injection H as <-. specialize (IH _ eq_refl). lia.
  - destruct (g =? x); [injection H as <-; lia|discriminate].
Qed.
Lemma lookup_key_error {A} (ps : list (Z * A)) g gs : In g gs -> ~ In g (map fst ps) -> lookup_rows (map fst ps) (map snd ps) gs = Err KeyError.
Proof.
  intros Hg Hn. unfold lookup_rows. induction gs as [|x gs IH]; [destruct Hg|]. cbn [rmap].
  destruct (last_index x (map fst ps)) as [i|] eqn:E; [|reflexivity].
  destruct Hg as [->|Hg]; [rewrite (last_index_none _ _ Hn) in E; discriminate|].
  pose proof (last_index_range _ _ _ E) as R. rewrite map_length in R. destruct (nth_error (map snd ps) i) as [v|] eqn:Ev.
  - rewrite (pyget_nth _ _ _ Ev). cbn [rbind]. now rewrite (IH Hg).
  - apply nth_error_None in Ev. rewrite map_length in Ev. lia.
Qed.
Lemma take_pick {A} (l : list A) idx : (forall j, In j idx -> (j < length l)%nat) -> take l (map Z.of_nat idx) = Ok (pick l idx).
Proof.
  intro H. destruct l as [|x l]; [destruct idx as [|j idx]; [reflexivity|]; specialize (H j (or_introl eq_refl)); cbn in H; lia|].
  rewrite (pick_map (x :: l) x idx H). apply take_nat. intros j Hj. apply nth_error_nth_d. auto.
Qed.

Section Geo.
  Variables (h : h5) (d : sdata) (ns : list mnode) (es : list melem).
  Hypothesis Ho : d_open d = true.
  Hypothesis HM : mesh_in h (d_group d) ns es.
  Variables (nms : list setname) (ms : list memrec) (sets : list (list ascii)).
  Variable gs : list Z.
  Hypothesis HG : geo_in h (d_group d) gs.
  Hypothesis HL : length gs = length es.

  Lemma geo_col : exists rows arrs, get_record h d "GELREF1" = Ok (mkTab (descr_of "GELREF1") rows, arrs) /\
    icol (mkTab (descr_of "GELREF1") rows) "geono" = Ok gs.
  Proof.
    destruct HG as (rows & arrs & H & HF). exists rows, arrs. split.
    - exact (holds_table _ _ _ _ Ho H).
    - unfold icol. cbn [t_rows].
      assert (G : forall l, Forall2 (fun (jg : nat * Z) r => exists a b, length a = 7%nat /\ r = CI (no_of (fst jg)) :: a ++ CI (snd jg) :: b) l rows ->
        rmap (ifield (mkTab (descr_of "GELREF1") rows) "geono") rows = Ok (map snd l)).
      { generalize rows at 2 as t. clear. intros t l HF. revert l HF. induction rows as [|r rows IH]; intros l HF; inversion HF as [|x ? l' ? (a & b & Ha & ->) HF']; subst; [reflexivity|].
        cbn [rmap map]. rewrite (IH _ HF'). do 7 (destruct a as [|? a]; [discriminate|]). destruct a; [|discriminate]. reflexivity. }
      rewrite (G _ HF). f_equal. apply list_by_nth.
      + rewrite map_length, combine_length, seq_length. lia.
      + intros j x Hx. rewrite nth_error_map in Hx. destruct (nth_error (combine _ gs) j) as [[i g]|] eqn:E; [|discriminate].
        cbn in Hx. injection Hx as <-. clear - E. revert j E. generalize 0%nat at 1 as s. induction gs as [|y l IH]; intros s j E; [destruct j; discriminate|].
        destruct j; cbn in E; [now injection E as _ <-|]. cbn. now apply (IH (S s)).
  Qed.

  Lemma sections_ok ps idx vs : proper h (d_group d) es nms ms sets "beam" -> selected es nms ms sets "beam" idx ->
    sections_in h (d_group d) ps -> Forall2 (of_number ps) (pick gs idx) vs ->
    exists out, get_section_properties h d sets = Ok out /\ Forall2 (fun g_v r => r = CI (fst g_v) :: snd g_v) (combine (pick gs idx) vs) out.
  Proof.
    intros HP HI (rows & HR & HF) HV. unfold get_section_properties. destruct geo_col as (grows & garrs & -> & HC). cbn [rbind].
    rewrite (holds_record0 _ _ _ _ _ Ho HR). cbn [rbind].
    rewrite (element_indices h d ns es Ho HM nms ms sets "beam" HP idx HI). cbn [rbind]. rewrite HC. cbn [rbind].
    assert (HTk : take gs (map Z.of_nat idx) = Ok (pick gs idx)).
    { apply take_pick. intros j Hj. rewrite HL. apply HI in Hj. destruct Hj as (e & He & _). apply nth_error_Some. congruence. }
    rewrite HTk. cbn [rbind].
    assert (HK : icol (mkTab (descr_of "GBEAMG") rows) "geono" = Ok (map fst ps)).
    { unfold icol. cbn [t_rows]. generalize rows at 1 as t. intro t. clear - HF. induction HF as [|p r ps rows -> HF IH]; [reflexivity|]. cbn [rmap map]. rewrite IH. reflexivity. }
    rewrite HK. cbn [rbind t_rows].
    set (ps' := map (fun p => (fst p, CI (fst p) :: snd p)) ps).
    assert (rows = map snd ps') as ->. { unfold ps'. rewrite map_map. cbn [snd]. clear - HF. induction HF as [|p r ps rows -> HF IH]; [reflexivity|]. cbn. now rewrite IH. }
    assert (map fst ps = map fst ps') as ->. { unfold ps'. now rewrite map_map. }
    exists (map (fun gv => CI (fst gv) :: snd gv) (combine (pick gs idx) vs)). split.
    - apply lookup_ok. clear HTk. revert HV. generalize (pick gs idx) as gl. intros gl HV. induction HV as [|g v gl vl (l1 & l2 & E & Hn) HV IH]; [constructor|].
      cbn [combine map]. constructor; [|exact IH]. unfold ps'. exists (map (fun p => (fst p, CI (fst p) :: snd p)) l1), (map (fun p => (fst p, CI (fst p) :: snd p)) l2).
      rewrite E, map_app. split; [reflexivity|]. rewrite map_map. cbn [fst]. exact Hn.
    - induction (combine (pick gs idx) vs) as [|gv l IH]; constructor; [reflexivity|exact IH].
  Qed.

  Lemma thicknesses_ok ps idx vs : proper h (d_group d) es nms ms sets "shell" -> selected es nms ms sets "shell" idx ->
    thicknesses_in h (d_group d) ps -> Forall2 (of_number ps) (pick gs idx) vs ->
    get_shell_thicknesses h d sets = Ok vs.
  Proof.
    intros HP HI (rows & HR & HF) HV. unfold get_shell_thicknesses. destruct geo_col as (grows & garrs & -> & HC). cbn [rbind].
    rewrite (holds_record0 _ _ _ _ _ Ho HR). cbn [rbind].
    assert (HK : icol (mkTab (descr_of "GELTH") rows) "geono" = Ok (map fst ps) /\ col (mkTab (descr_of "GELTH") rows) "th" = Ok (map snd ps)).
    { unfold icol, col. cbn [t_rows]. generalize rows at 1 3 as t. intro t. clear - HF. induction HF as [|p r ps rows (c & ->) HF [IH1 IH2]]; [split; reflexivity|]. cbn [rmap map]. rewrite IH1, IH2. split; reflexivity. }
    destruct HK as [HK1 HK2]. rewrite HK2. cbn [rbind].
    rewrite (element_indices h d ns es Ho HM nms ms sets "shell" HP idx HI). cbn [rbind]. rewrite HC. cbn [rbind].
    rewrite take_pick. 2:{ intros j Hj. rewrite HL. apply HI in Hj. destruct Hj as (e & He & _). apply nth_error_Some. congruence. }
    cbn [rbind]. rewrite HK1. cbn [rbind]. now apply lookup_ok.
  Qed.

  Lemma thickness_missing ps idx g : proper h (d_group d) es nms ms sets "shell" -> selected es nms ms sets "shell" idx ->
    thicknesses_in h (d_group d) ps -> In g (pick gs idx) -> ~ In g (map fst ps) -> get_shell_thicknesses h d sets = Err KeyError.
  Proof.
    intros HP HI (rows & HR & HF) Hg Hn. unfold get_shell_thicknesses. destruct geo_col as (grows & garrs & -> & HC). cbn [rbind].
    rewrite (holds_record0 _ _ _ _ _ Ho HR). cbn [rbind].
    assert (HK : icol (mkTab (descr_of "GELTH") rows) "geono" = Ok (map fst ps) /\ col (mkTab (descr_of "GELTH") rows) "th" = Ok (map snd ps)).
    { unfold icol, col. cbn [t_rows]. generalize rows at 1 3 as t. intro t. clear - HF. induction HF as [|p r ps rows (c & ->) HF [IH1 IH2]]; [split; reflexivity|]. cbn [rmap map]. rewrite IH1, IH2. split; reflexivity. }
    destruct HK as [HK1 HK2]. rewrite HK2. cbn [rbind].
    rewrite (element_indices h d ns es Ho HM nms ms sets "shell" HP idx HI). cbn [rbind]. rewrite HC. cbn [rbind].
    rewrite take_pick. 2:{ intros j Hj. rewrite HL. apply HI in Hj. destruct Hj as (e & He & _). apply nth_error_Some. congruence. }
    cbn [rbind]. rewrite HK1. cbn [rbind]. now apply (lookup_key_error ps g).
  Qed.
End Geo.

(** ** Names of load cases (C52) *)
Lemma names_ok h d ls cs arg sel : d_open d = true -> loads_in h (d_group d) ls -> cases_arg cs arg ->
  subseq (fun l => match cs with None => True | Some c => In (fst l) c end) ls sel ->
  get_resultcase_names h d arg = Ok (map (fun l => (fst l, CS (snd l))) sel).
Proof.
  intros Ho (rows & arr & H & HF) HA HS. unfold get_resultcase_names. rewrite (holds_record1 _ _ _ _ _ Ho H). cbn [rbind].
  assert (HK : icol (mkTab (descr_of "TDLOAD") rows) "idno" = Ok (map fst ls) /\ col (mkTab (descr_of "TDLOAD") rows) "name" = Ok (map (fun l => CS (snd l)) ls)).
  { unfold icol, col. cbn [t_rows]. generalize rows at 1 3 as t. intro t. clear - HF.
    induction HF as [|p r ps rows (a & b & c & r1 & r2 & ->) HF [IH1 IH2]]; [split; reflexivity|]. cbn [rmap map]. rewrite IH1, IH2. split; reflexivity. }
  destruct HK as [-> ->]. cbn [rbind]. f_equal.
  assert (E : combine (map fst ls) (map (fun l => CS (snd l)) ls) = map (fun l => (fst l, CS (snd l))) ls).
  { clear. induction ls as [|l ls IH]; [reflexivity|]. cbn. now rewrite IH. }
  rewrite E, filter_map. cbn [fst]. f_equal. eapply subseq_filter; [|exact HS]. intro l. cbn. destruct cs as [c|]; cbn [cases_arg] in HA.
  - destruct HA as [->|(z & -> & ->)]; [apply zmem_spec|]. rewrite Z.eqb_eq. cbn. intuition.
  - subst arg. tauto.
Qed.

(** ** Lookup of element results (C49) *)
Lemma filter_combine_seq (l : list Z) x s : map fst (filter (fun p => snd p =? x) (combine (map Z.of_nat (seq s (length l))) l)) =
  map Z.of_nat (filter (fun j => nth (j - s) l 0 =? x) (seq s (length l))).
Proof.
  revert s. induction l as [|y l IH]; intro s; [reflexivity|]. cbn [length seq map combine filter].
  assert (E : filter (fun j => nth (j - s) (y :: l) 0 =? x) (seq (S s) (length l)) = filter (fun j => nth (j - S s) l 0 =? x) (seq (S s) (length l))).
  { apply filter_ext_in. intros j Hj. apply in_seq in Hj. replace (j - s)%nat with (S (j - S s)) by lia. reflexivity. }
  rewrite E. rewrite Nat.sub_diag. cbn [nth snd]. destruct (y =? x); cbn [map fst]; now rewrite IH.
Qed.
Lemma where_spec l x i : In i (where_ l x) <-> 0 <= i /\ nth_error l (Z.to_nat i) = Some x.
Proof.
  unfold where_, arange. rewrite filter_combine_seq, in_map_iff. split.
  - intros (j & <- & Hj). apply filter_In in Hj. destruct Hj as [Hj E]. apply in_seq in Hj. apply Z.eqb_eq in E. rewrite Nat.sub_0_r in E.
    split; [lia|]. rewrite Nat2Z.id, <- E. apply nth_error_nth_d. lia.
  - intros [Hi H]. exists (Z.to_nat i). split; [lia|]. apply filter_In. rewrite Nat.sub_0_r. split.
    + apply in_seq. assert (Z.to_nat i < length l)%nat by (apply nth_error_Some; congruence). lia.
    + apply Z.eqb_eq. now apply nth_error_nth.
Qed.
Lemma where_sorted l x : StronglySorted Z.lt (where_ l x).
Proof. unfold where_, arange. rewrite filter_combine_seq. apply sorted_of_nat, sorted_filter, sorted_seq. Qed.
Lemma where_one l x i : NoDup l -> nth_error l i = Some x -> where_ l x = [Z.of_nat i].
Proof.
  intros HN Hi. apply sorted_same; [apply where_sorted|repeat constructor|]. intro z. rewrite where_spec. split.
  - intros [H1 H2]. left. assert (Z.to_nat z = i); [|lia]. eapply NoDup_nth_error; [exact HN| |congruence]. apply nth_error_Some. congruence.
  - intros [<-|[]]. rewrite Nat2Z.id. split; [lia|exact Hi].
Qed.
(** The smallest of a falling list is the last. *)
Lemma argmin_falling l best bi i : StronglySorted (fun x y => y < x) (best :: l) -> argmin_aux best bi i l = if Nat.eqb (length l) 0 then bi else (i + length l - 1)%nat.
Proof.
  revert best bi i. induction l as [|x l IH]; intros best bi i H; [reflexivity|]. cbn [argmin_aux].
  inversion H as [|? ? H1 H2]; subst. inversion H2; subst. destruct (Z.ltb_spec x best); [|lia]. rewrite (IH x i (S i) H1).
  cbn [length Nat.eqb]. destruct l; cbn [length Nat.eqb]; lia.
Qed.
Lemma find_largest (P : list Z) o : StronglySorted Z.lt P -> (exists p, In p P /\ p < o) ->
  exists t r, argmin (filter (fun x => 0 <? x) (map (fun i => o - i) P)) = Ok t /\ pyget P t = Ok r /\ In r P /\ r < o /\ forall p, In p P -> p < o -> p <= r.
Proof.
  intros HS (p & Hp & Hpo).
  assert (HF : exists A B, P = A ++ B /\ Forall (fun x => x < o) A /\ Forall (fun x => o <= x) B).
  { clear Hp Hpo. induction HS as [|x P HS IH Hx]; [exists [], []; repeat split; constructor|].
    destruct (Z.ltb_spec x o).
    - destruct IH as (A & B & -> & HA & HB). exists (x :: A), B. repeat split; [constructor; assumption|assumption].
    - exists [], (x :: P). repeat split; [constructor|]. constructor; [lia|]. rewrite Forall_forall in Hx |- *. intros y Hy. apply Hx in Hy. lia. }
  destruct HF as (A & B & -> & HA & HB). rewrite map_app, filter_app.
  assert (E1 : filter (fun x => 0 <? x) (map (fun i => o - i) A) = map (fun i => o - i) A).
  { clear - HA. induction HA as [|x A Hx HA IH]; [reflexivity|]. cbn [map filter]. destruct (Z.ltb_spec 0 (o - x)); [now rewrite IH|lia]. }
  assert (E2 : filter (fun x => 0 <? x) (map (fun i => o - i) B) = []).
  { clear - HB. induction HB as [|x B Hx HB IH]; [reflexivity|]. cbn [map filter]. destruct (Z.ltb_spec 0 (o - x)); [lia|exact IH]. }
  rewrite E1, E2, app_nil_r.
  assert (HSA : StronglySorted Z.lt A).
  { clear - HS. induction A as [|x A IH]; [constructor|]. cbn in HS. inversion HS as [|? ? H1 H2]; subst. constructor; [auto|]. apply Forall_app in H2. tauto. }
  destruct A as [|a A _] using rev_ind.
  { exfalso. rewrite Forall_forall in HB. apply HB in Hp. lia. }
  exists (length A), a.
  assert (HLast : forall y, In y A -> y < a).
  { clear - HSA. intros y Hy. induction A as [|z A IH]; [destruct Hy|]. cbn in HSA. inversion HSA as [|? ? H1 H2]; subst. destruct Hy as [->|Hy]; [|auto].
    rewrite Forall_forall in H2. apply H2. apply in_or_app. right. now left. }
  split; [|split; [|split; [|split]]].
  - assert (HD : StronglySorted (fun x y => y < x) (map (fun i => o - i) (A ++ [a]))).
    { clear - HSA. induction HSA as [|x l H IH Hx]; [constructor|]. cbn [map]. constructor; [exact IH|]. rewrite Forall_map. eapply Forall_impl; [|exact Hx]. cbn. lia. }
    unfold argmin. destruct (map (fun i => o - i) (A ++ [a])) as [|x l] eqn:E; [destruct A; discriminate|]. rewrite (argmin_falling _ _ _ _ HD). f_equal.
    apply (f_equal (@length Z)) in E. rewrite map_length, app_length in E. cbn in E. destruct l; cbn [length Nat.eqb] in *; lia.
  - apply pyget_nth. rewrite <- app_assoc. rewrite nth_error_app2 by lia. rewrite Nat.sub_diag. reflexivity.
  - apply in_or_app. left. apply in_or_app. right. now left.
  - rewrite Forall_forall in HA. apply HA. apply in_or_app. right. now left.
  - intros q Hq Hqo. apply in_app_or in Hq. destruct Hq as [Hq|Hq]; [|rewrite Forall_forall in HB; apply HB in Hq; lia].
    apply in_app_or in Hq. destruct Hq as [Hq|[->|[]]]; [|lia]. apply HLast in Hq. lia.
Qed.
Lemma totals_nth pre x post : nth_error (totals (pre ++ x :: post)) (length pre) = Some (Zlen (concat pre) + Zlen x).
Proof.
  induction pre as [|y pre IH]; cbn [app length]; rewrite totals_cons; cbn [nth_error concat].
  - reflexivity.
  - rewrite nth_error_map, IH. cbn. rewrite Zlen_app. f_equal. lia.
Qed.
Lemma elemres_index els elno nodeno : NoDup (map fst els) -> (exists nds, In (elno, nds) els /\ In nodeno nds) ->
  exists i, find_elemres_index (totals (map snd els)) (map fst els) (flat_map snd els) elno nodeno = Ok i /\ entry_of els elno nodeno i.
Proof.
  intros HN (nds & Hin & Hnd). apply in_split in Hin. destruct Hin as (pre & post & ->).
  unfold find_elemres_index.
  rewrite (where_one _ _ (length pre) HN). 2:{ rewrite map_app. cbn [map fst]. rewrite nth_error_app2 by (rewrite map_length; lia). now rewrite map_length, Nat.sub_diag. }
  assert (HT : nth_error (totals (map snd (pre ++ (elno, nds) :: post))) (length pre) = Some (Zlen (flat_map snd pre) + Zlen nds)).
  { rewrite map_app. cbn [map snd]. rewrite <- (map_length snd pre). rewrite totals_nth. now rewrite <- flat_map_concat_map. }
  rewrite (pygetZ_nat _ _ _ HT). cbn [rbind]. set (o := Zlen (flat_map snd pre) + Zlen nds).
  set (P := where_ (flat_map snd (pre ++ (elno, nds) :: post)) nodeno).
  assert (HE : flat_map snd (pre ++ (elno, nds) :: post) = flat_map snd pre ++ nds ++ flat_map snd post) by (rewrite flat_map_app; reflexivity).
  assert (HX : exists k, nth_error nds k = Some nodeno) by (now apply In_nth_error). destruct HX as (k & Hk).
  assert (KL : (k < length nds)%nat) by (apply nth_error_Some; congruence).
  assert (HP : In (Zlen (flat_map snd pre) + Z.of_nat k) P).
  { apply where_spec. unfold Zlen. split; [lia|]. rewrite HE. rewrite nth_error_app2 by lia.
    replace (Z.to_nat _ - _)%nat with k by lia. now rewrite nth_error_app1. }
  destruct (find_largest P o (where_sorted _ _)) as (t & r & H1 & H2 & H3 & H4 & H5).
  { eexists. split; [exact HP|]. unfold o, Zlen. lia. }
  rewrite H1. cbn [rbind]. exists r. split; [exact H2|]. apply H5 in HP; [|unfold o, Zlen; lia].
  apply where_spec in H3. destruct H3 as [H3 H6]. rewrite HE in H6. unfold o, Zlen in *.
  rewrite nth_error_app2 in H6 by lia. rewrite nth_error_app1 in H6 by lia.
  exists pre, nds, post, (Z.to_nat r - length (flat_map snd pre))%nat. split; [reflexivity|]. split; [exact H6|]. unfold Zlen. lia.
Qed.
Lemma elemres_indices els pairs : NoDup (map fst els) -> Forall (fun p => exists nds, In (fst p, nds) els /\ In (snd p) nds) pairs ->
  exists out, find_elemres_indices pairs (totals (map snd els)) (map fst els) (flat_map snd els) = Ok out /\
    Forall2 (fun p i => entry_of els (fst p) (snd p) i) pairs out.
Proof.
  intros HN HF. unfold find_elemres_indices. induction HF as [|p pairs Hp HF (out & IH1 & IH2)]; [exists []; split; [reflexivity|constructor]|].
  destruct (elemres_index els (fst p) (snd p) HN Hp) as (i & E1 & E2). cbn [rmap]. rewrite E1. cbn [rbind]. rewrite IH1. cbn [rbind].
  exists (i :: out). split; [reflexivity|]. constructor; assumption.
Qed.
