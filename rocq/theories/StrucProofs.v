(** * StrucProofs: the structural getters against StrucSpec. *)
From Coq Require Import Sorted.
From Verif Require Import Base Flt H5 Schema StoreSpec ParserSpec Data Struc StrucSpec ListFacts DataFacts.
Open Scope string_scope.
Open Scope Z_scope.
Open Scope list_scope.
Open Scope monad_scope.

(** ** Lists *)
Definition dfl : melem := mkElem 0 0 [].
Definition dfn : mnode := mkNode 0 [].
Lemma nth_error_nth_d {A} (l : list A) j d : (j < length l)%nat -> nth_error l j = Some (nth j l d).
Proof. intro H. now apply nth_error_nth'. Qed.
Lemma pick_map {A} (l : list A) d idx : (forall j, In j idx -> (j < length l)%nat) -> pick l idx = map (fun j => nth j l d) idx.
Proof.
  unfold pick. induction idx as [|j idx IH]; intro H; [reflexivity|]. cbn [flat_map map].
  rewrite (nth_error_nth_d l j d) by (apply H; now left). rewrite IH; [reflexivity|]. intros i Hi. apply H. now right.
Qed.
Lemma before_S es j : (j < length es)%nat -> before es (S j) = before es j + Zlen (el_nodes (nth j es dfl)).
Proof.
  intro H. unfold before. rewrite <- Zlen_app. f_equal.
  rewrite <- (firstn_skipn j es) at 1. rewrite firstn_app, firstn_length_le by lia.
  rewrite firstn_all2 by (rewrite firstn_length_le; lia). replace (S j - j)%nat with 1%nat by lia.
  rewrite flat_map_app. f_equal.
  assert (G : skipn j es = nth j es dfl :: skipn (S j) es).
  { clear - H. revert j H. induction es as [|e es IH]; intros [|j] H; cbn in *; try lia; [reflexivity|]. apply IH. lia. }
  rewrite G. cbn. now rewrite app_nil_r.
Qed.
Lemma before_le es j : 0 <= before es j <= Zlen (flat_map el_nodes es).
Proof.
  unfold before. split; [apply Zlen_nonneg|]. rewrite <- (firstn_skipn j es) at 2. rewrite flat_map_app, Zlen_app.
  pose proof (Zlen_nonneg (flat_map el_nodes (skipn j es))). lia.
Qed.
Lemma before_nodes es j : (j < length es)%nat ->
  firstn (Z.to_nat (before es (S j) - before es j)) (skipn (Z.to_nat (before es j)) (map CI (flat_map el_nodes es)))
  = map CI (el_nodes (nth j es dfl)).
Proof.
  intro H. rewrite before_S by exact H. replace (before es j + _ - before es j) with (Zlen (el_nodes (nth j es dfl))) by lia.
  unfold before, Zlen. rewrite !Nat2Z.id.
  assert (G : es = firstn j es ++ nth j es dfl :: skipn (S j) es).
  { clear - H. revert j H. induction es as [|e es IH]; intros [|j] H; cbn in *; try lia; [reflexivity|]. f_equal. apply IH. lia. }
  rewrite G at 3. rewrite flat_map_app, map_app. cbn [flat_map]. rewrite map_app.
  rewrite skipn_app_exact by now rewrite map_length. rewrite firstn_app_exact; [reflexivity|now rewrite map_length].
Qed.
Lemma before_all es : before es (length es) = Zlen (flat_map el_nodes es).
Proof. unfold before. now rewrite firstn_all. Qed.

Lemma filter_map {A B} (p : B -> bool) (f : A -> B) l : filter p (map f l) = map f (filter (fun x => p (f x)) l).
Proof. induction l as [|x l IH]; [reflexivity|]. cbn. destruct (p (f x)); cbn; now rewrite IH. Qed.

(** Running totals of the lengths of [ls]. *)
Lemma totals_cons x ls : totals (x :: ls) = Zlen x :: map (fun y => Zlen x + y) (totals ls).
Proof.
  unfold totals. cbn [length seq map]. f_equal.
  - cbn [firstn concat]. now rewrite app_nil_r.
  - rewrite <- seq_shift, !map_map. apply map_ext. intro i. cbn [firstn concat]. rewrite Zlen_app. reflexivity.
Qed.
Lemma totals_map_map f ls : (forall l, length (f l) = length l) -> totals (map f ls) = totals ls.
Proof.
  intro H. induction ls as [|x ls IH]; [reflexivity|]. cbn [map]. rewrite !totals_cons, IH. unfold Zlen. rewrite H. reflexivity.
Qed.
Lemma totals_length ls : length (totals ls) = length ls.
Proof. unfold totals. now rewrite map_length, seq_length. Qed.

Section Mesh.
  Variables (h : h5) (d : sdata) (ns : list mnode) (es : list melem).
  Hypothesis Ho : d_open d = true.
  Hypothesis HM : mesh_in h (d_group d) ns es.
  Let E j := nth j es dfl.
  Let N j := nth j ns dfn.

  Definition elem_tab rows := mkTab (descr_of "GELMNT1") rows.
  Definition elem_row a j := [CI (el_ext (E j)); CI (no_of j); CI (el_typ (E j)); CI a; CI (before es j); CI (before es (S j))].

  Lemma elem_record : exists rows, record1 h d "GELMNT1" = Ok (elem_tab rows, map CI (flat_map el_nodes es)) /\
    length rows = length es /\ forall j row, nth_error rows j = Some row -> exists a, row = elem_row a j.
  Proof.
    destruct HM as (_ & _ & (rows & H & HL & HR) & _). exists rows. split; [now apply holds_record1|]. split; [exact HL|].
    intros j row Hj. assert (J : (j < length es)%nat). { rewrite <- HL. apply nth_error_Some. congruence. }
    destruct (HR j (E j) (nth_error_nth_d _ _ _ J)) as [a Ha]. exists a. rewrite Hj in Ha. now injection Ha as ->.
  Qed.
  Lemma coord_record : exists rows, record0 h d "GCOORD" = Ok (mkTab (descr_of "GCOORD") rows) /\
    length rows = length ns /\ forall j row, nth_error rows j = Some row -> exists x y z, n_xyz (N j) = [x; y; z] /\ row = [CI (no_of j); x; y; z].
  Proof.
    destruct HM as (_ & (rows & H & HL & HR) & _). exists rows. split; [eapply holds_record0; eassumption|]. split; [exact HL|].
    intros j row Hj. assert (J : (j < length ns)%nat). { rewrite <- HL. apply nth_error_Some. congruence. }
    destruct (HR j (N j) (nth_error_nth_d _ _ _ J)) as [Hl Ha]. rewrite Hj in Ha. injection Ha as ->.
    destruct (n_xyz (N j)) as [|x [|y [|z [|]]]]; try discriminate. now exists x, y, z.
  Qed.
  Lemma node_record : exists rows, record0 h d "GNODE" = Ok (mkTab (descr_of "GNODE") rows) /\
    length rows = length ns /\ forall j row, nth_error rows j = Some row -> exists a b, row = [CI (n_ext (N j)); CI (no_of j); CI a; CI b].
  Proof.
    destruct HM as ((rows & H & HL & HR) & _). exists rows. split; [eapply holds_record0; eassumption|]. split; [exact HL|].
    intros j row Hj. assert (J : (j < length ns)%nat). { rewrite <- HL. apply nth_error_Some. congruence. }
    destruct (HR j (N j) (nth_error_nth_d _ _ _ J)) as (a & b & Ha). rewrite Hj in Ha. injection Ha as ->. now exists a, b.
  Qed.

  Lemma elem_col_ok rows (c : string) (f : nat -> Z) : length rows = length es ->
    (forall j row, nth_error rows j = Some row -> exists a, row = elem_row a j) ->
    (forall a j, ifield (elem_tab rows) c (elem_row a j) = Ok (f j)) ->
    icol (elem_tab rows) c = Ok (map f (seq 0 (length es))).
  Proof.
    intros HL HR HF. unfold icol. apply rmap_seq; [exact HL|]. intros j row Hj. destruct (HR _ _ Hj) as [a ->]. apply HF.
  Qed.

  Lemma of_kind_dec (kind : string) t : {of_kind kind t} + {~ of_kind kind t}.
  Proof.
    unfold of_kind. destruct (string_dec kind ""); [left; now left|].
    destruct (string_dec kind "beam") as [->|]; [destruct (in_dec Z.eq_dec t beam_types)|].
    - left. right. now left.
    - right. intros [H|[[_ H]|[H _]]]; [discriminate|contradiction|discriminate].
    - destruct (string_dec kind "shell") as [->|]; [destruct (in_dec Z.eq_dec t shell_types)|].
      + left. right. now right.
      + right. intros [H|[[H _]|[_ H]]]; [discriminate|discriminate|contradiction].
      + right. intros [H|[[H _]|[H _]]]; contradiction.
  Qed.

  (** Elements of a kind among given ones. *)
  Lemma kind_indices kind p idx : (kind = "beam" /\ p = beam_type) \/ (kind = "shell" /\ p = shell_type) ->
    (forall j, In j idx -> (j < length es)%nat) ->
    get_elementkind_indices h d kind (Some (map Z.of_nat idx)) = Ok (map Z.of_nat (filter (fun j => p (el_typ (E j))) idx)).
  Proof.
    intros Hk Hi. destruct elem_record as (rows & HR & HL & HRow). unfold get_elementkind_indices. rewrite HR. cbn [rbind].
    assert (G : exists rr, take (t_rows (elem_tab rows)) (map Z.of_nat idx) = Ok rr /\ Forall2 (fun j r => exists a, r = elem_row a j) idx rr).
    { clear - Hi HL HRow. induction idx as [|j idx IH]; [exists []; split; [reflexivity|constructor]|].
      destruct IH as (rr & H1 & H2); [intros; apply Hi; now right|].
      assert (J : (j < length rows)%nat) by (rewrite HL; apply Hi; now left).
      destruct (nth_error rows j) as [row|] eqn:Ej; [|apply nth_error_None in Ej; lia].
      exists (row :: rr). split.
      - unfold take in *. cbn [map rmap]. cbn [t_rows elem_tab] in *. rewrite (pygetZ_nat _ _ _ Ej). now rewrite H1.
      - constructor; [eauto|exact H2]. }
    destruct G as (rr & HT & HF). rewrite HT. cbn [rbind].
    assert (G : forall q : Z -> bool, (dor rs <- rfilter (fun r => dor x <- ifield (elem_tab rows) "eltyp" r; Ok (q x)) rr;
      dor nos <- rmap (ifield (elem_tab rows) "elno") rs; Ok (map (fun x => x - 1) nos)) = Ok (map Z.of_nat (filter (fun j => q (el_typ (E j))) idx))).
    { intro q. clear HT Hi. induction HF as [|j r idx rr [a ->] HF IH]; [reflexivity|]. cbn [rfilter].
      change (ifield (elem_tab rows) "eltyp" (elem_row a j)) with (Ok (el_typ (E j))). cbn [rbind filter].
      destruct (rfilter _ rr) as [rs|e] eqn:Ef; cbn [rbind] in IH |- *; [|discriminate].
      destruct (q (el_typ (E j))).
      - cbn [rmap]. change (ifield (elem_tab rows) "elno" (elem_row a j)) with (Ok (no_of j)).
        destruct (rmap _ rs) as [nos|] eqn:Em; cbn [rbind] in IH |- *; [|discriminate]. injection IH as IH. cbn [map]. rewrite IH.
        unfold no_of. do 2 f_equal. lia.
      - exact IH. }
    cbv zeta. destruct Hk as [[-> ->]|[-> ->]]; cbn [String.eqb Ascii.eqb Bool.eqb]; apply G.
  Qed.
  Lemma kind_indices_all kind p : (kind = "beam" /\ p = beam_type) \/ (kind = "shell" /\ p = shell_type) ->
    get_elementkind_indices h d kind None = Ok (map Z.of_nat (filter (fun j => p (el_typ (E j))) (seq 0 (length es)))).
  Proof.
    intro Hk. rewrite <- (kind_indices kind p (seq 0 (length es)) Hk) by (intros j Hj; apply in_seq in Hj; lia).
    unfold get_elementkind_indices. destruct elem_record as (rows & HR & HL & HRow). rewrite HR. cbn [rbind].
    assert (take (t_rows (elem_tab rows)) (map Z.of_nat (seq 0 (length es))) = Ok rows) as ->; [|reflexivity].
    cbn [elem_tab t_rows]. rewrite <- HL. rewrite (take_nat _ (fun j => nth j rows [])).
    - f_equal. rewrite (map_seq_nth (fun x => x)); [apply map_id|]. intros j x Hj. now apply nth_error_nth.
    - intros j Hj. apply in_seq in Hj. apply nth_error_nth_d. lia.
  Qed.
  Lemma kind_unknown kind o : ~ In kind ["beam"; "shell"] -> (forall idx, o = Some idx -> Forall (fun z => 0 <= z < Zlen es) idx) ->
    get_elementkind_indices h d kind o = Err ValueError.
  Proof.
    intros Hk Ho'. unfold get_elementkind_indices. destruct elem_record as (rows & HR & HL & HRow). rewrite HR. cbn [rbind].
    assert (G : exists arr, match o with Some idx => take (t_rows (elem_tab rows)) idx | None => Ok (t_rows (elem_tab rows)) end = Ok arr).
    { destruct o as [idx|]; [|eauto]. specialize (Ho' idx eq_refl). exists (map (fun z => nth (Z.to_nat z) rows []) idx).
      unfold take. apply rmap_ok. intros z Hz. rewrite Forall_forall in Ho'. specialize (Ho' z Hz). unfold Zlen in Ho'.
      apply pygetZ_pos; [lia|]. cbn [t_rows elem_tab]. apply nth_error_nth_d. lia. }
    destruct G as [arr ->]. cbn [rbind]. cbv zeta.
    destruct (String.eqb_spec kind "beam") as [->|]; [exfalso; apply Hk; cbn; auto|].
    destruct (String.eqb_spec kind "shell") as [->|]; [exfalso; apply Hk; cbn; auto|]. reflexivity.
  Qed.

  Lemma beam_type_spec t : beam_type t = true <-> In t beam_types.
  Proof. unfold beam_type, beam_types. cbn [In]. rewrite orb_true_iff, !Z.eqb_eq. intuition. Qed.
  Lemma shell_type_spec t : shell_type t = true <-> In t shell_types.
  Proof. unfold shell_type, shell_types. cbn [In]. rewrite !orb_true_iff, !Z.eqb_eq. intuition. Qed.

  (** ** Sets *)
  Section Sets.
    Variables (nms : list setname) (ms : list memrec).
    Hypothesis HN : setnames_in h (d_group d) nms.
    Hypothesis HS : members_in h (d_group d) ms.

    Lemma set_no_fun nm i i' : set_no nms nm i -> set_no nms nm i' -> i = i'.
    Proof.
      intros (p & q & E1 & H1) (p' & q' & E2 & H2). rewrite E1 in E2. clear E1. revert p' E2 H2.
      induction p as [|a p IH]; intros [|a' p'] E2 H2; cbn in E2; injection E2; intros; subst; cbn in *.
      - congruence.
      - exfalso. apply H2. now left.
      - exfalso. apply H1. now left.
      - eapply IH; eauto.
    Qed.

    Lemma name_number nm i : set_no nms nm i -> exists rows texts row,
      record1 h d "TDSETNAM" = Ok (mkTab (descr_of "TDSETNAM") rows, texts) /\
      getrow (mkTab (descr_of "TDSETNAM") rows) (text_is (mkTab (descr_of "TDSETNAM") rows) "name" nm) = Ok row /\
      ifield (mkTab (descr_of "TDSETNAM") rows) "idno" row = Ok i.
    Proof.
      intro Hn. destruct HN as (rows & texts & H & HF). exists rows, texts.
      assert (G : forall t, t_descr t = descr_of "TDSETNAM" -> exists row rest, rfilter (text_is t "name" nm) rows = Ok (row :: rest) /\
        ifield t "idno" row = Ok i).
      { intros t Ht. destruct Hn as (pre & post & E1 & H1).
        assert (K : forall r a b c z s r1 r2, r = [CI a; CI z; CI b; CI c; CS s; CI r1; CI r2] -> text_is t "name" nm r = Ok (lascii_eqb s nm)).
        { intros. subst. unfold text_is, field. rewrite Ht. reflexivity. }
        clear HN H. revert nms rows E1 HF. induction pre as [|x pre IH]; intros nms' rows -> HF; cbn [app] in HF; inversion HF as [|? row ? rows' Hr HF2]; subst.
        - destruct Hr as (a & b & c & r1 & r2 & ->). cbn [rfilter]. erewrite K by reflexivity. cbn [rbind fst].
          rewrite (proj2 (lascii_eqb_spec nm nm) eq_refl).
          assert (Q : exists rest, rfilter (text_is t "name" nm) rows' = Ok rest).
          { clear - HF2 K. induction HF2 as [|x r l l' (a & b & c & r1 & r2 & ->) _ [rest IH]]; [now exists []|].
            cbn [rfilter]. erewrite K by reflexivity. cbn [rbind]. rewrite IH. cbn [rbind]. eauto. }
          destruct Q as [rest ->]. cbn [rbind]. eexists _, _. split; [reflexivity|]. unfold ifield, field. rewrite Ht. reflexivity.
        - destruct Hr as (a & b & c & r1 & r2 & ->). cbn [rfilter]. erewrite K by reflexivity. cbn [rbind fst].
          assert (lascii_eqb (fst x) nm = false) as ->. { apply lascii_eqb_neq. intro. subst. apply H1. now left. }
          destruct (IH ltac:(intro; apply H1; now right) (pre ++ (nm, i) :: post) rows' eq_refl HF2) as (row & rest & -> & Hi).
          cbn [rbind]. eexists _, _. split; [reflexivity|]. exact Hi. }
      destruct (G (mkTab (descr_of "TDSETNAM") rows) eq_refl) as (row & rest & G1 & G2). exists row.
      split; [now apply holds_record1|]. split; [|exact G2]. unfold getrow. cbn [t_rows]. now rewrite G1.
    Qed.

    Definition of_set (i : Z) : list (list Z) := map snd (filter (fun m => (fst (fst m) =? i) && (snd (fst m) =? 2)) ms).
    Lemma set_rows i : exists rows arr,
      record1 h d "GSETMEMB" = Ok (mkTab (descr_of "GSETMEMB") rows, arr) /\
      forall t, t_descr t = descr_of "GSETMEMB" ->
      (dor rs <- rfilter (both (int_is t "isref" i) (int_is t "istype" 2)) rows;
       rmap (fun r => dor a <- ifield t "irmemb_start" r; dor b <- ifield t "irmemb_stop" r; ints_of (Base.slice a b arr)) rs) = Ok (of_set i).
    Proof.
      destruct HS as (rows & arr & H & HF). exists rows, arr. split; [now apply holds_record1|]. intros t Ht. unfold of_set.
      clear H HS. induction HF as [|m row ms' rows' (a & x & o & r1 & r2 & -> & H1 & H2 & H3) HF IH]; [reflexivity|].
      cbn [rfilter filter]. unfold both at 1, int_is at 1 2, ifield at 1 2, field at 1 2. rewrite Ht.
      change (col_index "isref" (descr_of "GSETMEMB")) with (Some 1%nat). change (col_index "istype" (descr_of "GSETMEMB")) with (Some 3%nat).
      cbn [nth_error as_int rbind].
      destruct (rfilter _ rows') as [rs|e]; cbn [rbind] in IH |- *; [|discriminate].
      destruct ((fst (fst m) =? i) && (snd (fst m) =? 2)); [|exact IH].
      cbn [rmap map]. unfold ifield at 1 2, field at 1 2. rewrite Ht.
      change (col_index "irmemb_start" (descr_of "GSETMEMB")) with (Some 5%nat). change (col_index "irmemb_stop" (descr_of "GSETMEMB")) with (Some 6%nat).
      cbn [nth_error as_int rbind]. rewrite slice_range by assumption. rewrite H3, ints_of_CI. now rewrite IH.
    Qed.

    Lemma In_of_set i l : In l (of_set i) <-> In (i, 2, l) ms.
    Proof.
      unfold of_set. rewrite in_map_iff. split.
      - intros ([[a b] l'] & <- & H). apply filter_In in H. cbn [fst snd] in H. rewrite andb_true_iff, !Z.eqb_eq in H. now destruct H as [H [-> ->]].
      - intro H. exists (i, 2, l). split; [reflexivity|]. apply filter_In. split; [exact H|]. cbn [fst snd]. now rewrite !Z.eqb_refl.
    Qed.

    (** The member records of all the sets. *)
    Lemma member_lists sets : (forall nm, In nm sets -> exists i, set_no nms nm i) ->
      exists is_, Forall2 (set_no nms) sets is_ /\
      get_setmember_indices h d sets 2 = dor all <- concatenate (flat_map of_set is_); Ok (map (fun x => x - 1) (unique all)).
    Proof.
      intro HK. destruct HN as (rows0 & texts0 & H0 & HF0). destruct HS as (rowsS & arrS & HS0 & HFS0).
      assert (G : exists is_, Forall2 (set_no nms) sets is_ /\
        rmap (fun nm => dor row <- getrow (mkTab (descr_of "TDSETNAM") rows0) (text_is (mkTab (descr_of "TDSETNAM") rows0) "name" nm);
          dor isref <- ifield (mkTab (descr_of "TDSETNAM") rows0) "idno" row;
          dor rs <- rfilter (both (int_is (mkTab (descr_of "GSETMEMB") rowsS) "isref" isref) (int_is (mkTab (descr_of "GSETMEMB") rowsS) "istype" 2)) rowsS;
          rmap (fun r => dor a <- ifield (mkTab (descr_of "GSETMEMB") rowsS) "irmemb_start" r;
                     dor b <- ifield (mkTab (descr_of "GSETMEMB") rowsS) "irmemb_stop" r;
                     ints_of (Base.slice a b arrS)) rs) sets = Ok (map of_set is_)).
      { induction sets as [|nm sets IH]; [exists []; split; [constructor|reflexivity]|].
        destruct IH as (is_ & I1 & I2); [intros; apply HK; now right|].
        destruct (HK nm (or_introl eq_refl)) as [i Hi]. exists (i :: is_). split; [constructor; assumption|].
        cbn [rmap map].
        destruct (name_number nm i Hi) as (rows & texts & row & R1 & R2 & R3).
        rewrite (holds_record1 _ _ _ _ _ Ho H0) in R1. injection R1 as -> ->. rewrite R2. cbn [rbind]. rewrite R3. cbn [rbind].
        destruct (set_rows i) as (rows2 & arr2 & Q1 & Q2). rewrite (holds_record1 _ _ _ _ _ Ho HS0) in Q1. injection Q1 as -> ->.
        rewrite Q2 by reflexivity. rewrite I2. reflexivity. }
      destruct G as (is_ & G1 & G2). exists is_. split; [exact G1|].
      unfold get_setmember_indices. rewrite (holds_record1 _ _ _ _ _ Ho H0). cbn [rbind].
      rewrite (holds_record1 _ _ _ _ _ Ho HS0). cbn [rbind t_rows]. rewrite G2. cbn [rbind]. now rewrite flat_map_concat_map.
    Qed.

    Lemma set_indices sets idx : (forall nm, In nm sets -> exists i, set_no nms nm i) ->
      (exists nm i l, In nm sets /\ set_no nms nm i /\ In (i, 2, l) ms) ->
      StronglySorted lt idx -> (forall z, In z (map no_of idx) <-> exists nm, In nm sets /\ in_set nms ms nm z) ->
      get_setmember_indices h d sets 2 = Ok (map Z.of_nat idx).
    Proof.
      intros HK HE Hs Hi. destruct (member_lists sets HK) as (is_ & I1 & ->).
      assert (G : forall l, In l (flat_map of_set is_) <-> exists nm i, In nm sets /\ set_no nms nm i /\ In (i, 2, l) ms).
      { intro l. rewrite in_flat_map. clear - I1. induction I1 as [|nm i sets is_ H1 I1 IH].
        - split; [intros (x & [] & _)|intros (x & y & [] & _)].
        - split.
          + intros (x & [<-|Hx] & Hl); [exists nm, i; split; [now left|]; split; [exact H1|now apply In_of_set]|].
            destruct (proj1 IH) as (nm' & i' & A & B & C); [eauto|]. exists nm', i'. split; [now right|]. auto.
          + intros (nm' & i' & [<-|A] & B & C).
            * exists i. split; [now left|]. apply In_of_set. now rewrite (set_no_fun _ _ _ H1 B).
            * destruct (proj2 IH) as (x & Hx & Hl); [eauto|]. exists x. split; [now right|exact Hl]. }
      destruct HE as (nm & i & l & E1 & E2 & E3).
      assert (K : flat_map of_set is_ <> []). { intro F. assert (In l (flat_map of_set is_)) as C by (apply G; eauto). rewrite F in C. destruct C. }
      unfold concatenate. destruct (flat_map of_set is_) as [|x xs] eqn:EF; [congruence|]. clear K. cbn [rbind]. f_equal.
      apply sorted_same.
      - apply sorted_map_mono; [intros; lia|apply sorted_unique].
      - now apply sorted_of_nat.
      - intro z. rewrite in_map_iff. split.
        + intros (y & <- & Hy). apply In_unique, in_concat in Hy. destruct Hy as (l' & Hl & Hy). apply G in Hl. destruct Hl as (nm' & i' & A & B & C).
          assert (D : In y (map no_of idx)). { apply Hi. exists nm'. split; [exact A|]. exists i', l'. auto. }
          apply in_map_iff in D. destruct D as (j & <- & D). apply in_map_iff. exists j. split; [unfold no_of; lia|exact D].
        + intro Hz. apply in_map_iff in Hz. destruct Hz as (j & <- & Hj). exists (no_of j). split; [unfold no_of; lia|].
          apply In_unique, in_concat. destruct (proj1 (Hi (no_of j))) as (nm' & A & i' & l' & B & C & D); [now apply in_map|].
          exists l'. split; [|exact D]. apply G. eauto.
    Qed.
    Lemma set_none sets : (forall nm, In nm sets -> exists i, set_no nms nm i) ->
      ~ (exists nm i l, In nm sets /\ set_no nms nm i /\ In (i, 2, l) ms) ->
      get_setmember_indices h d sets 2 = Err ValueError.
    Proof.
      intros HK HE. destruct (member_lists sets HK) as (is_ & I1 & ->).
      assert (flat_map of_set is_ = []) as ->; [|reflexivity].
      destruct (flat_map of_set is_) as [|l ls] eqn:EF; [reflexivity|]. exfalso. apply HE.
      assert (G : In l (flat_map of_set is_)) by (rewrite EF; now left). apply in_flat_map in G. destruct G as (i & Hi & Hl). clear EF ls.
      clear HE. induction I1 as [|nm i' sets is_ H1 I1 IH]; [destruct Hi|]. destruct Hi as [<-|Hi].
      - exists nm, i', l. split; [now left|]. split; [exact H1|]. now apply In_of_set.
      - destruct IH as (a & b & c & A & B & C); [intros; apply HK; now right|exact Hi|]. exists a, b, c. split; [now right|auto].
    Qed.
    Lemma set_unknown pre nm sets : (forall x, In x pre -> exists i, set_no nms x i) -> ~ In nm (map fst nms) ->
      get_setmember_indices h d (pre ++ nm :: sets) 2 = Err ConditionError.
    Proof.
      intros HK Hn. destruct HN as (rows0 & texts0 & H0 & HF0). destruct HS as (rowsS & arrS & HS0 & HFS0).
      unfold get_setmember_indices. rewrite (holds_record1 _ _ _ _ _ Ho H0). cbn [rbind].
      rewrite (holds_record1 _ _ _ _ _ Ho HS0). cbn [rbind t_rows].
      match goal with |- rbind ?x _ = _ => assert (x = Err ConditionError) as ->; [|reflexivity] end.
      induction pre as [|x pre IH]; cbn [app rmap].
      - assert (rfilter (text_is (mkTab (descr_of "TDSETNAM") rows0) "name" nm) rows0 = Ok []) as F.
        { assert (Q : forall t, t_descr t = descr_of "TDSETNAM" -> rfilter (text_is t "name" nm) rows0 = Ok []); [|now apply Q].
          intros t Ht. clear - HF0 Ht Hn. induction HF0 as [|s r l l' (a & b & c & r1 & r2 & ->) HF IH]; [reflexivity|].
          cbn [rfilter]. unfold text_is at 1, field at 1. rewrite Ht. change (col_index "name" (descr_of "TDSETNAM")) with (Some 4%nat).
          cbn [nth_error rbind]. rewrite lascii_eqb_neq by (intro; subst; apply Hn; now left).
          rewrite IH by (intro; apply Hn; now right). reflexivity. }
        unfold getrow at 1. cbn [t_rows]. rewrite F. reflexivity.
      - destruct (HK x (or_introl eq_refl)) as [i Hi].
        destruct (name_number x i Hi) as (rows & texts & row & R1 & R2 & R3).
        rewrite (holds_record1 _ _ _ _ _ Ho H0) in R1. injection R1 as -> ->. rewrite R2. cbn [rbind]. rewrite R3. cbn [rbind].
        destruct (set_rows i) as (rows2 & arr2 & Q1 & Q2). rewrite (holds_record1 _ _ _ _ _ Ho HS0) in Q1. injection Q1 as -> ->.
        rewrite Q2 by reflexivity. rewrite IH; [reflexivity|]. intros. apply HK. now right.
    Qed.
  End Sets.
End Mesh.
