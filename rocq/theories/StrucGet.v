(** * StrucGet: selections, connectivity, nodes and numbers. *)
From Coq Require Import Sorted.
From Verif Require Import Base Flt H5 Schema StoreSpec ParserSpec Data Struc StrucSpec ListFacts DataFacts StrucProofs.
Open Scope string_scope.
Open Scope Z_scope.
Open Scope list_scope.
Open Scope monad_scope.

Lemma filter_same (p : nat -> bool) idx0 idx : StronglySorted lt idx0 -> StronglySorted lt idx ->
  (forall j, In j idx0 /\ p j = true <-> In j idx) -> filter p idx0 = idx.
Proof.
  intros S0 S1 H. assert (G : map Z.of_nat (filter p idx0) = map Z.of_nat idx).
  { apply sorted_same; [apply sorted_of_nat, sorted_filter, S0|apply sorted_of_nat, S1|].
    intro z. rewrite !in_map_iff. split; intros (j & <- & Hj); exists j; (split; [reflexivity|]).
    - apply filter_In in Hj. now apply H.
    - apply filter_In. now apply H. }
  revert G. clear. generalize (filter p idx0). intro l. revert idx. induction l as [|x l IH]; intros [|y i] G; cbn in G; try discriminate; [reflexivity|].
  injection G as G1 G2. f_equal; [lia|auto].
Qed.
Lemma filter_true {A} (l : list A) : filter (fun _ => true) l = l.
Proof. induction l as [|x l IH]; [reflexivity|]. cbn. now rewrite IH. Qed.

Section Sel.
  Variables (h : h5) (d : sdata) (ns : list mnode) (es : list melem).
  Hypothesis Ho : d_open d = true.
  Hypothesis HM : mesh_in h (d_group d) ns es.
  Variables (nms : list setname) (ms : list memrec) (sets : list (list ascii)) (kind : string).
  Hypothesis HP : proper h (d_group d) es nms ms sets kind.
  Variable idx : list nat.
  Hypothesis HI : selected es nms ms sets kind idx.
  Let E j := nth j es dfl.
  Let N j := nth j ns dfn.

  Lemma idx_range j : In j idx -> (j < length es)%nat.
  Proof. intro H. apply HI in H. destruct H as (e & H & _). apply nth_error_Some. congruence. Qed.

  Lemma set_member_dec nm z : {in_set nms ms nm z} + {~ in_set nms ms nm z}.
  Proof.
    assert (D1 : forall m : memrec, {exists i, set_no nms nm i /\ fst m = (i, 2) /\ In z (snd m)} + {~ exists i, set_no nms nm i /\ fst m = (i, 2) /\ In z (snd m)}).
    { intros [[i t] l]. cbn [fst snd].
      assert (D2 : {set_no nms nm i} + {~ set_no nms nm i}).
      { clear. induction nms as [|[x k] l IH].
        - right. intros ([|] & post & F & _); discriminate.
        - destruct (list_eq_dec ascii_dec x nm) as [->|Hx].
          + destruct (Z.eq_dec k i) as [->|Hk].
            * left. exists [], l. split; [reflexivity|intros []].
            * right. intros ([|p pre] & post & F & G); cbn in F; injection F; intros; subst; [congruence|]. apply G. now left.
          + destruct IH as [IH|IH].
            * left. destruct IH as (pre & post & -> & G). exists ((x, k) :: pre), post. split; [reflexivity|]. cbn. intros [?|?]; [congruence|contradiction].
            * right. intros ([|p pre] & post & F & G); cbn in F; injection F; intros; subst; [congruence|]. apply IH. exists pre, post. split; [reflexivity|]. intro. apply G. now right. }
      destruct D2 as [D2|D2]; [|right; intros (i' & A & B & _); injection B; intros; subst; contradiction].
      destruct (Z.eq_dec t 2) as [->|]; [|right; intros (i' & A & B & _); injection B; intros; contradiction].
      destruct (in_dec Z.eq_dec z l) as [Hz|Hz]; [left; eauto|right; intros (? & _ & _ & ?); contradiction]. }
    destruct (Exists_dec (fun m : memrec => exists i, set_no nms nm i /\ fst m = (i, 2) /\ In z (snd m)) ms D1) as [H|H].
    - left. apply Exists_exists in H. destruct H as ([[a b] l] & H1 & i & H2 & H3 & H4). cbn in H3. injection H3 as -> ->. exists i, l. auto.
    - right. intros (i & l & A & B & C). apply H. apply Exists_exists. exists (i, 2, l). split; [exact B|]. exists i. auto.
  Qed.

  Lemma kind_cases : {kind = ""} + {kind = "beam"} + {kind = "shell"}.
  Proof.
    destruct (string_dec kind ""); [auto|]. destruct (string_dec kind "beam"); [auto|].
    right. destruct HP as [_ [H|[H|[H|[]]]]]; congruence.
  Qed.

  Lemma wanted_kind p j : (kind = "beam" /\ p = beam_type) \/ (kind = "shell" /\ p = shell_type) ->
    (wanted es nms ms sets kind j <-> wanted es nms ms sets "" j /\ p (el_typ (E j)) = true).
  Proof.
    intro Hk.
    assert (K : forall t, of_kind kind t <-> p t = true).
    { intro t. unfold of_kind. destruct Hk as [[-> ->]|[-> ->]].
      - rewrite beam_type_spec. split; [intros [F|[[_ F]|[F _]]]; [discriminate|assumption|discriminate]|intro F; right; left; auto].
      - rewrite shell_type_spec. split; [intros [F|[[F _]|[_ F]]]; [discriminate|discriminate|assumption]|intro F; right; right; auto]. }
    split.
    - intros (e & H1 & H2 & H3). unfold E. rewrite (nth_error_nth _ _ dfl H1). split; [|now apply K]. exists e. split; [exact H1|]. split; [exact H2|now left].
    - intros ((e & H1 & H2 & H3) & H4). unfold E in H4. rewrite (nth_error_nth _ _ dfl H1) in H4. exists e. split; [exact H1|]. split; [exact H2|now apply K].
  Qed.

  Lemma element_indices : get_elementindices h d sets kind = Ok (map Z.of_nat idx).
  Proof.
    unfold get_elementindices.
    assert (HT : forall k, (kind = "" -> k) -> (forall p, (kind = "beam" /\ p = beam_type) \/ (kind = "shell" /\ p = shell_type) -> kind <> "" -> k) -> k).
    { intros k A B. destruct kind_cases as [[Hk|Hk]|Hk]; [auto|apply (B beam_type); [auto|congruence]|apply (B shell_type); [auto|congruence]]. }
    assert (ES : sets = [] \/ sets <> []) by (destruct sets; [now left|now right]).
    destruct ES as [ES|ES]; [assert (some_sets sets = false) as -> by now rewrite ES|assert (some_sets sets = true) as -> by (destruct sets; [congruence|reflexivity])].
    - apply HT; clear HT.
      + intros Hk. unfold some_kind. rewrite Hk at 1. cbn [String.eqb negb].
        destruct (elem_record h d ns es Ho HM) as (rows & HR & HL & HRow). rewrite HR. cbn [rbind].
        rewrite (elem_col_ok es rows "elno" no_of HL HRow) by reflexivity. cbn [rbind]. f_equal. rewrite map_map.
        rewrite (map_ext _ Z.of_nat) by (intro; unfold no_of; lia). f_equal.
        rewrite <- (filter_true (seq 0 (length es))). apply filter_same.
        * apply sorted_seq.
        * apply HI.
        * intro j. destruct HI as [_ HI2]. rewrite HI2, Hk, ES, in_seq. unfold wanted. split.
          -- intros [Hj _]. exists (E j). split; [apply nth_error_nth_d; lia|]. split; [now left|now left].
          -- intros (e & He & _). assert (nth_error es j <> None) by congruence. apply nth_error_Some in H. split; [lia|reflexivity].
      + intros p Hp Hne. unfold some_kind. destruct (String.eqb_spec kind ""); [contradiction|]. cbn [negb].
        rewrite (kind_indices_all h d ns es Ho HM kind p Hp). do 2 f_equal. apply filter_same; [apply sorted_seq|apply HI|].
        intro j. destruct HI as [_ HI2]. rewrite HI2. rewrite (wanted_kind p j Hp), ES, in_seq. unfold wanted. split.
        * intros [Hj Hp2]. split; [|exact Hp2]. exists (E j). split; [apply nth_error_nth_d; lia|]. split; [now left|now left].
        * intros [(e & He & _) Hp2]. assert (nth_error es j <> None) by congruence. apply nth_error_Some in H. split; [lia|exact Hp2].
    - destruct HP as [HP1 _]. destruct HP1 as (H1 & H2 & H3 & H4 & H5); [congruence|].
      (* the elements of the sets *)
      set (q := fun j => existsb (fun nm => if set_member_dec nm (no_of j) then true else false) sets).
      assert (Q : forall j, q j = true <-> exists nm, In nm sets /\ in_set nms ms nm (no_of j)).
      { intro j. unfold q. rewrite existsb_exists. split; intros (nm & A & B); exists nm; (split; [exact A|]); destruct (set_member_dec nm (no_of j)); congruence. }
      set (idx0 := filter q (seq 0 (length es))).
      assert (S0 : StronglySorted lt idx0) by (apply sorted_filter, sorted_seq).
      assert (W0 : forall j, In j idx0 <-> wanted es nms ms sets "" j).
      { intro j. unfold idx0. rewrite filter_In, in_seq, Q. unfold wanted. split.
        - intros [Hj (nm & A & B)]. exists (E j). split; [apply nth_error_nth_d; lia|]. split; [right; eauto|now left].
        - intros (e & He & [F|B] & _); [congruence|]. assert (nth_error es j <> None) by congruence. apply nth_error_Some in H. split; [lia|exact B]. }
      rewrite (set_indices h d ns es Ho nms ms H1 H2 sets idx0 H3 H4 S0).
      + cbn [rbind]. apply HT; clear HT.
        * intro Hk. unfold some_kind. rewrite Hk. cbn [String.eqb negb]. do 2 f_equal. rewrite <- (filter_true idx0). apply filter_same; [exact S0|apply HI|].
          -- intro j. destruct HI as [_ HI2]. rewrite HI2, Hk, W0. tauto.
        * intros p Hp Hne. unfold some_kind. destruct (String.eqb_spec kind ""); [contradiction|]. cbn [negb].
          rewrite (kind_indices h d ns es Ho HM kind p idx0 Hp).
          -- do 2 f_equal. apply filter_same; [exact S0|apply HI|]. intro j. destruct HI as [_ HI2]. rewrite HI2, (wanted_kind p j Hp), W0. reflexivity.
          -- intros j Hj. apply filter_In in Hj. destruct Hj as [Hj _]. apply in_seq in Hj. lia.
      + intro z. rewrite in_map_iff. split.
        * intros (j & <- & Hj). apply W0 in Hj. destruct Hj as (e & _ & [F|B] & _); [congruence|exact B].
        * intros (nm & A & B). specialize (H5 nm z A B). exists (Z.to_nat (z - 1)). assert (Hz : no_of (Z.to_nat (z - 1)) = z) by (unfold no_of; lia).
          split; [exact Hz|]. apply W0. exists (E (Z.to_nat (z - 1))). split; [apply nth_error_nth_d; unfold Zlen in H5; lia|].
          split; [right|now left]. exists nm. rewrite Hz. auto.
  Qed.

  (** ** Connectivity *)
  Definition lists : list (list Z) := map (fun j => el_nodes (E j)) idx.
  Lemma lists_pick : concat lists = flat_map el_nodes (pick es idx).
  Proof.
    unfold lists. rewrite (pick_map es dfl) by exact idx_range. rewrite flat_map_concat_map, map_map. reflexivity.
  Qed.
  Lemma connectivity : idx <> [] ->
    get_connectivity h d (map Z.of_nat idx) = Ok (map (fun x => x - 1) (concat lists), totals lists).
  Proof.
    intro Hne. unfold get_connectivity. destruct (elem_record h d ns es Ho HM) as (rows & HR & HL & HRow). rewrite HR. cbn [rbind].
    assert (G : get_varlendata (elem_tab rows) "nodin" (map CI (flat_map el_nodes es)) (map Z.of_nat idx) = Ok (map CI (concat lists), totals lists)).
    { unfold get_varlendata. cbn [append].
      rewrite (elem_col_ok es rows "nodin_start" (before es) HL HRow) by reflexivity. cbn [rbind].
      rewrite (take_seq _ _ _ idx_range). cbn [rbind].
      rewrite (elem_col_ok es rows "nodin_stop" (fun j => before es (S j)) HL HRow) by reflexivity. cbn [rbind].
      rewrite (take_seq _ _ _ idx_range). cbn [rbind].
      assert (C : combine (map (before es) idx) (map (fun j => before es (S j)) idx) = map (fun j => (before es j, before es (S j))) idx).
      { clear. induction idx as [|j l IH]; [reflexivity|]. cbn. now rewrite IH. }
      rewrite C, map_map. cbn [fst snd].
      rewrite (map_ext_in _ (fun j => map CI (el_nodes (E j)))).
      - unfold concatenate. pose proof Hne as Hne'. destruct idx as [|j0 l0] eqn:EI; [congruence|]. rewrite <- EI in *. clear Hne'.
        assert (Hm : map (fun j => map CI (el_nodes (E j))) idx <> []) by (rewrite EI; discriminate).
        destruct (map (fun j => map CI (el_nodes (E j))) idx) as [|x xs] eqn:EM; [congruence|]. rewrite <- EM. clear Hm EM x xs EI j0 l0.
        cbn [rbind]. f_equal. f_equal.
        + unfold lists. now rewrite concat_map, map_map.
        + assert (R : forall o, (forall j, In j idx -> (j < length es)%nat) -> running o (map (fun j => (before es j, before es (S j))) idx) = map (fun y => o + y) (totals lists)).
          { clear. unfold lists. induction idx as [|j l IH]; intros o H; [reflexivity|]. cbn [map running]. rewrite totals_cons. cbn [map].
            rewrite before_S by (apply H; now left). fold (E j).
            replace (o + (before es j + Zlen (el_nodes (E j)) - before es j)) with (o + Zlen (el_nodes (E j))) by lia. f_equal.
            rewrite IH by (intros; apply H; now right). rewrite map_map. apply map_ext. intro. lia. }
          rewrite R by exact idx_range. rewrite <- (map_id (totals lists)) at 2. apply map_ext. intro. lia.
      - intros j Hj. apply idx_range in Hj. pose proof (before_le es j). pose proof (before_le es (S j)).
        rewrite slice_range.
        + now apply before_nodes.
        + rewrite before_S by exact Hj. pose proof (Zlen_nonneg (el_nodes (nth j es dfl))). lia.
        + unfold Zlen in *. rewrite map_length. lia. }
    rewrite G. cbn [rbind]. rewrite ints_of_CI. reflexivity.
  Qed.
  Lemma connectivity_none : idx = [] -> get_connectivity h d (map Z.of_nat idx) = Err ValueError.
  Proof.
    intros ->. unfold get_connectivity. destruct (elem_record h d ns es Ho HM) as (rows & HR & HL & HRow). rewrite HR. cbn [rbind].
    unfold get_varlendata. cbn [append].
    rewrite (elem_col_ok es rows "nodin_start" (before es) HL HRow) by reflexivity. cbn [rbind map].
    rewrite (elem_col_ok es rows "nodin_stop" (fun j => before es (S j)) HL HRow) by reflexivity. reflexivity.
  Qed.

  Lemma index_in_ok x l : In x l -> exists i, index_in x l = Some i /\ 0 <= i /\ nth_error l (Z.to_nat i) = Some x.
  Proof.
    induction l as [|y l IH]; [intros []|]. intro H. cbn [index_in]. destruct (Z.eqb_spec x y) as [->|Hn].
    - exists 0. split; [reflexivity|]. split; [lia|reflexivity].
    - destruct H as [->|H]; [congruence|]. destruct (IH H) as (i & -> & Hi & Hx). exists (Z.succ i). split; [reflexivity|]. split; [lia|].
      rewrite Z2Nat.inj_succ by exact Hi. exact Hx.
  Qed.
  Definition rank (l : list Z) (x : Z) : Z := match index_in x l with Some i => i | None => 0 end.
  Lemma update_ok con : con <> [] -> update_connectivity con = Ok (map (rank (unique con)) con).
  Proof.
    intro H. unfold update_connectivity. destruct con as [|a l] eqn:EC; [congruence|]. rewrite <- EC in *. apply rmap_ok. intros x Hx.
    unfold rank. destruct (index_in_ok x (unique con)) as (i & -> & _); [now apply In_unique|reflexivity].
  Qed.
  Lemma rank_ok con x : In x con -> 0 <= rank (unique con) x /\ nth_error (unique con) (Z.to_nat (rank (unique con) x)) = Some x.
  Proof. intro H. unfold rank. destruct (index_in_ok x (unique con)) as (i & -> & Hi & Hx); [now apply In_unique|auto]. Qed.

  (** ** Nodes *)
  Definition node_list (disconnected : bool) : list Z :=
    if nosel sets kind then
      if disconnected then map (fun x => x - 1) (concat lists) else arange (length ns)
    else if disconnected then map (fun x => x - 1) (concat lists) else unique (map (fun x => x - 1) (concat lists)).
  Lemma some_nosel : (some_sets sets || some_kind kind)%bool = negb (nosel sets kind).
  Proof. unfold nosel, some_kind. destruct sets; cbn; [reflexivity|reflexivity]. Qed.
  Lemma all_idx : nosel sets kind = true -> idx = seq 0 (length es).
  Proof.
    intro H. assert (ES : sets = [] /\ kind = "").
    { unfold nosel in H. destruct sets; [|discriminate]. split; [reflexivity|now apply String.eqb_eq]. }
    destruct ES as [ES EK].
    symmetry. rewrite <- (filter_true (seq 0 (length es))). apply filter_same; [apply sorted_seq|apply HI|].
    - intro j. destruct HI as [_ HI2]. rewrite HI2, ES, EK, in_seq. unfold wanted. split.
      + intros [Hj _]. exists (E j). split; [apply nth_error_nth_d; lia|]. split; [now left|now left].
      + intros (e & He & _). assert (nth_error es j <> None) by congruence. apply nth_error_Some in H0. split; [lia|reflexivity].
  Qed.
  Lemma all_lists : nosel sets kind = true -> lists = map el_nodes es.
  Proof. intro H. unfold lists. rewrite (all_idx H). apply map_seq_nth. intros j x Hj. unfold E. now rewrite (nth_error_nth _ _ dfl Hj). Qed.

  Lemma nodeindices disconnected : idx <> [] \/ nosel sets kind = true ->
    get_nodeindices h d sets kind disconnected = Ok (node_list disconnected).
  Proof.
    intro Hne. unfold get_nodeindices, node_list.
    destruct (coord_record h d ns es Ho HM) as (crows & HC & HCL & _). rewrite HC. cbn [rbind].
    destruct (elem_record h d ns es Ho HM) as (rows & HR & HL & HRow). rewrite HR. cbn [rbind]. rewrite some_nosel.
    destruct (nosel sets kind) eqn:EN; cbn [negb].
    - destruct disconnected.
      + rewrite ints_of_CI. cbn [rbind]. now rewrite (all_lists EN), flat_map_concat_map.
      + cbn [t_rows]. now rewrite HCL.
    - destruct Hne as [Hne|]; [|discriminate]. rewrite element_indices. cbn [rbind]. rewrite (connectivity Hne). reflexivity.
  Qed.

  Lemma lists_valid z : In z (concat lists) -> 1 <= z <= Zlen ns.
  Proof.
    intro H. apply in_concat in H. destruct H as (l & Hl & Hz). unfold lists in Hl. apply in_map_iff in Hl. destruct Hl as (j & <- & Hj).
    destruct HM as (_ & _ & _ & HF). rewrite Forall_forall in HF.
    assert (In (E j) es) as HIn. { apply nth_In. now apply idx_range. }
    destruct (HF _ HIn) as [_ HV]. rewrite Forall_forall in HV. auto.
  Qed.
  Lemma lists_nonempty l : In l lists -> l <> [].
  Proof.
    intro H. unfold lists in H. apply in_map_iff in H. destruct H as (j & <- & Hj).
    destruct HM as (_ & _ & _ & HF). rewrite Forall_forall in HF.
    assert (In (E j) es) as HIn. { apply nth_In. now apply idx_range. } now destruct (HF _ HIn).
  Qed.
  Lemma node_list_range disconnected z : In z (node_list disconnected) -> 0 <= z < Zlen ns.
  Proof.
    assert (G : In z (map (fun x => x - 1) (concat lists)) -> 0 <= z < Zlen ns).
    { rewrite in_map_iff. intros (y & <- & Hy). apply lists_valid in Hy. lia. }
    unfold node_list. destruct (nosel sets kind), disconnected; auto.
    - unfold arange. rewrite in_map_iff. intros (j & <- & Hj). apply in_seq in Hj. unfold Zlen. lia.
    - intro H. apply G. now apply In_unique.
  Qed.

  Definition node_nats (disconnected : bool) : list nat := map Z.to_nat (node_list disconnected).
  Lemma node_nats_ok disconnected : map Z.of_nat (node_nats disconnected) = node_list disconnected.
  Proof.
    unfold node_nats. rewrite map_map. rewrite <- (map_id (node_list disconnected)) at 2. apply map_ext_in.
    intros z Hz. apply node_list_range in Hz. lia.
  Qed.
  Lemma node_nats_range disconnected j : In j (node_nats disconnected) -> (j < length ns)%nat.
  Proof.
    unfold node_nats. rewrite in_map_iff. intros (z & <- & Hz). apply node_list_range in Hz. unfold Zlen in Hz. lia.
  Qed.
  Lemma node_nats_selected disconnected : selected_nodes ns es (nosel sets kind) disconnected idx (node_nats disconnected).
  Proof.
    unfold selected_nodes. destruct disconnected.
    - rewrite <- lists_pick. unfold node_nats, node_list. destruct (nosel sets kind); rewrite !map_map;
      (rewrite <- (map_id (concat lists)) at 2; apply map_ext_in; intros z Hz; apply lists_valid in Hz; unfold no_of; lia).
    - split.
      + apply sorted_to_nat. rewrite node_nats_ok. unfold node_list. destruct (nosel sets kind); [|apply sorted_unique].
        apply sorted_of_nat, sorted_seq.
      + intro j. rewrite <- lists_pick.
        assert (K : In j (node_nats false) <-> In (Z.of_nat j) (node_list false)).
        { rewrite <- (node_nats_ok false), in_map_iff. split; [intro; exists j; auto|]. intros (i & Hi & H). now rewrite <- (Nat2Z.inj _ _ Hi). }
        rewrite K. unfold node_list. destruct (nosel sets kind).
        * unfold arange. rewrite in_map_iff. split.
          -- intros (i & Hi & H). apply in_seq in H. lia.
          -- intro H. exists j. split; [reflexivity|]. apply in_seq. lia.
        * rewrite In_unique, in_map_iff. unfold no_of. split.
          -- intros (z & Hz & H). now replace (Z.of_nat j + 1) with z by lia.
          -- intro H. exists (Z.of_nat j + 1). split; [lia|exact H].
  Qed.

  Lemma nodes_ok disconnected : idx <> [] \/ nosel sets kind = true ->
    get_coords h d sets kind disconnected = Ok (map (fun j => n_xyz (N j)) (node_nats disconnected)).
  Proof.
    intro Hne. unfold get_coords. destruct (coord_record h d ns es Ho HM) as (rows & HC & HCL & HRow). rewrite HC. cbn [rbind].
    rewrite (nodeindices disconnected Hne). cbn [rbind t_rows]. rewrite <- node_nats_ok.
    rewrite (take_nat rows (fun j => nth j rows [])).
    - cbn [rbind]. rewrite rmap_map. apply rmap_ok. intros j Hj. apply node_nats_range in Hj.
      destruct (HRow j (nth j rows [])) as (x & y & z & H1 & H2); [apply nth_error_nth_d; lia|]. rewrite H2. unfold N. rewrite H1. reflexivity.
    - intros j Hj. apply node_nats_range in Hj. apply nth_error_nth_d. lia.
  Qed.

  Lemma node_icol rows c f : length rows = length ns ->
    (forall j row, nth_error rows j = Some row -> exists a b, row = [CI (n_ext (N j)); CI (no_of j); CI a; CI b]) ->
    (forall a b j, ifield (mkTab (descr_of "GNODE") rows) c [CI (n_ext (N j)); CI (no_of j); CI a; CI b] = Ok (f j)) ->
    icol (mkTab (descr_of "GNODE") rows) c = Ok (map f (seq 0 (length ns))).
  Proof.
    intros HL HR HF. unfold icol. apply rmap_seq; [exact HL|]. intros j row Hj. destruct (HR _ _ Hj) as (a & b & ->). apply HF.
  Qed.
  Definition node_no (numbertype : string) (j : nat) : Z := if String.eqb numbertype "external" then n_ext (N j) else no_of j.
  Lemma nodenumbers_ok disconnected numbertype : idx <> [] \/ nosel sets kind = true ->
    In numbertype ["external"; "internal"] ->
    get_nodenumbers h d sets kind disconnected numbertype = Ok (map (node_no numbertype) (node_nats disconnected)).
  Proof.
    intros Hne Hn. unfold get_nodenumbers. destruct (node_record h d ns es Ho HM) as (rows & HC & HCL & HRow). rewrite HC. cbn [rbind].
    assert (G : exists c, node_col numbertype = Ok c /\ icol (mkTab (descr_of "GNODE") rows) c = Ok (map (node_no numbertype) (seq 0 (length ns)))).
    { destruct Hn as [<-|[<-|[]]].
      - exists "nodex". split; [reflexivity|]. now apply node_icol.
      - exists "nodeno". split; [reflexivity|]. now apply node_icol. }
    destruct G as (c & -> & G). cbn [rbind]. rewrite some_nosel. pose proof (nodeindices disconnected Hne) as NI.
    assert (T : take (map (node_no numbertype) (seq 0 (length ns))) (node_list disconnected) = Ok (map (node_no numbertype) (node_nats disconnected))).
    { rewrite <- node_nats_ok. apply take_seq. apply node_nats_range. }
    destruct (nosel sets kind) eqn:EN; cbn [negb orb].
    - destruct disconnected.
      + rewrite NI. cbn [rbind]. rewrite G. cbn [rbind]. exact T.
      + rewrite G. unfold node_nats, node_list. rewrite EN. unfold arange. rewrite !map_map. f_equal. apply map_ext. intro. now rewrite Nat2Z.id.
    - rewrite NI. cbn [rbind]. rewrite G. cbn [rbind]. exact T.
  Qed.

  (** ** Elements *)
  Definition con_of (disconnected : bool) : list Z :=
    if disconnected then arange (length (concat lists))
    else if nosel sets kind then map (fun x => x - 1) (concat lists)
    else map (rank (unique (map (fun x => x - 1) (concat lists)))) (map (fun x => x - 1) (concat lists)).
  Lemma stops_totals : nosel sets kind = true -> map (fun j => before es (S j)) (seq 0 (length es)) = totals lists.
  Proof.
    intro H. rewrite (all_lists H). unfold totals, before. rewrite map_length. apply map_ext. intro j.
    rewrite firstn_map. now rewrite <- flat_map_concat_map.
  Qed.
  Lemma concat_lists_nonempty : idx <> [] -> concat lists <> [].
  Proof.
    intros Hne F. destruct idx as [|j l] eqn:EI; [congruence|]. rewrite <- EI in *.
    assert (HJ : In (el_nodes (E j)) lists) by (unfold lists; apply in_map_iff; exists j; split; [reflexivity|rewrite EI; now left]).
    apply (lists_nonempty _ HJ). destruct (el_nodes (E j)) as [|z zs] eqn:EZ; [reflexivity|].
    assert (In z (concat lists)) as C by (apply in_concat; eexists; split; [exact HJ|now left]). rewrite F in C. destruct C.
  Qed.
  Lemma elements_ok disconnected : idx <> [] \/ nosel sets kind = true ->
    get_elements h d sets kind disconnected = Ok (con_of disconnected, totals lists, map (fun j => el_typ (E j)) idx).
  Proof.
    intro Hne. unfold get_elements, con_of. destruct (elem_record h d ns es Ho HM) as (rows & HR & HL & HRow). rewrite HR. cbn [rbind].
    rewrite some_nosel. destruct (nosel sets kind) eqn:EN; cbn [negb].
    - rewrite (elem_col_ok es rows "nodin_stop" (fun j => before es (S j)) HL HRow) by reflexivity.
      rewrite (elem_col_ok es rows "eltyp" (fun j => el_typ (E j)) HL HRow) by reflexivity.
      rewrite (stops_totals EN). rewrite <- (all_idx EN). destruct disconnected.
      + cbn [rbind]. rewrite map_length. now rewrite (all_lists EN), <- flat_map_concat_map.
      + rewrite ints_of_CI. cbn [rbind]. now rewrite (all_lists EN), <- flat_map_concat_map.
    - destruct Hne as [Hne|]; [|discriminate]. rewrite element_indices. cbn [rbind]. rewrite (connectivity Hne). cbn [rbind].
      rewrite (elem_col_ok es rows "eltyp" (fun j => el_typ (E j)) HL HRow) by reflexivity. cbn [rbind].
      rewrite (take_seq _ _ _ idx_range). cbn [rbind]. destruct disconnected; [now rewrite map_length|].
      rewrite update_ok; [reflexivity|]. pose proof (concat_lists_nonempty Hne). destruct (concat lists); [congruence|discriminate].
  Qed.

  Definition elem_no (numbertype : string) (j : nat) : Z := if String.eqb numbertype "external" then el_ext (E j) else no_of j.
  Lemma elementnumbers_ok numbertype : In numbertype ["external"; "internal"] ->
    get_elementnumbers h d sets kind numbertype = Ok (map (elem_no numbertype) idx).
  Proof.
    intro Hn. unfold get_elementnumbers. destruct (elem_record h d ns es Ho HM) as (rows & HR & HL & HRow). rewrite HR. cbn [rbind].
    assert (G : exists c, elem_col numbertype = Ok c /\ icol (elem_tab rows) c = Ok (map (elem_no numbertype) (seq 0 (length es)))).
    { destruct Hn as [<-|[<-|[]]].
      - exists "elnox". split; [reflexivity|]. now apply (elem_col_ok es).
      - exists "elno". split; [reflexivity|]. now apply (elem_col_ok es). }
    destruct G as (c & -> & G). cbn [rbind]. rewrite some_nosel. destruct (nosel sets kind) eqn:EN; cbn [negb].
    - rewrite (all_idx EN). exact G.
    - rewrite element_indices. cbn [rbind]. rewrite G. cbn [rbind]. apply take_seq. exact idx_range.
  Qed.

  (** ** Coordinates and connectivity *)
  Lemma con_length disconnected : length (con_of disconnected) = length (concat lists).
  Proof.
    unfold con_of, arange. destruct disconnected; [now rewrite map_length, seq_length|]. destruct (nosel sets kind); now rewrite ?map_length.
  Qed.
  Lemma con_selects disconnected : idx <> [] \/ nosel sets kind = true -> forall i z c,
    nth_error (concat lists) i = Some z -> nth_error (con_of disconnected) i = Some c ->
    0 <= c /\ nth_error (node_nats disconnected) (Z.to_nat c) = Some (Z.to_nat (z - 1)).
  Proof.
    intros Hne i z c Hz Hc. unfold con_of, node_nats, node_list in *. destruct disconnected.
    - unfold arange in Hc. rewrite nth_error_map in Hc. destruct (nth_error (seq 0 _) i) as [k|] eqn:EK; [|discriminate].
      assert (HK : (i < length (concat lists))%nat) by (apply nth_error_Some; congruence).
      rewrite nth_error_seq in EK by exact HK. injection EK as <-. cbn in Hc. injection Hc as <-. split; [lia|]. rewrite Nat2Z.id.
      destruct (nosel sets kind); rewrite !nth_error_map, Hz; reflexivity.
    - assert (HV : 1 <= z <= Zlen ns) by (apply lists_valid; eapply nth_error_In; eauto).
      destruct (nosel sets kind).
      + rewrite nth_error_map, Hz in Hc. cbn in Hc. injection Hc as <-. split; [lia|].
        unfold arange. rewrite !nth_error_map, nth_error_seq by (unfold Zlen in HV; lia). cbn. now rewrite Nat2Z.id.
      + rewrite map_map, nth_error_map, Hz in Hc. cbn [option_map] in Hc. injection Hc as <-.
        destruct (rank_ok (map (fun x => x - 1) (concat lists)) (z - 1)) as [R1 R2].
        { apply in_map_iff. exists z. split; [reflexivity|]. eapply nth_error_In; eauto. }
        split; [exact R1|]. rewrite nth_error_map, R2. reflexivity.
  Qed.

  (** The connectivity by element. *)
  Lemma split_by {A B} (ls : list (list A)) (m : list B) : length m = length (concat ls) ->
    exists cs, m = concat cs /\ Forall2 (fun l c => length l = length c) ls cs.
  Proof.
    revert m. induction ls as [|l ls IH]; intros m H; cbn [concat] in H.
    - exists []. split; [destruct m; [reflexivity|discriminate]|constructor].
    - rewrite app_length in H. destruct (IH (skipn (length l) m)) as (cs & H1 & H2).
      + rewrite skipn_length. lia.
      + exists (firstn (length l) m :: cs). split; [cbn; now rewrite <- H1, firstn_skipn|]. constructor; [rewrite firstn_length_le; lia|exact H2].
  Qed.
  Lemma split_rel {A B} (R : A -> B -> Prop) ls cs : Forall2 (fun l c => length l = length c) ls cs ->
    Forall2 R (concat ls) (concat cs) -> Forall2 (Forall2 R) ls cs.
  Proof.
    induction 1 as [|l c ls cs H HF IH]; intro HR; [constructor|]. cbn [concat] in HR.
    apply Forall2_app_inv_l in HR. destruct HR as (c1 & c2 & R1 & R2 & E1).
    assert (L : length c1 = length c) by (rewrite <- H; symmetry; eapply Forall2_len; eauto).
    assert (Q0 : c = c1 /\ concat cs = c2).
    { assert (firstn (length c) (c ++ concat cs) = firstn (length c) (c1 ++ c2)) as Q by now rewrite E1.
      rewrite firstn_app_exact in Q by reflexivity. rewrite firstn_app_exact in Q by exact L. subst c1. split; [reflexivity|]. now apply app_inv_head in E1. }
    destruct Q0 as [-> Q0]. constructor; [exact R1|]. apply IH. now rewrite Q0.
  Qed.
  Lemma Forall2_nth {A B} (R : A -> B -> Prop) l m : length l = length m ->
    (forall i x y, nth_error l i = Some x -> nth_error m i = Some y -> R x y) -> Forall2 R l m.
  Proof.
    revert m. induction l as [|x l IH]; intros [|y m] HL H; try discriminate; constructor.
    - now apply (H 0%nat).
    - apply IH; [cbn in HL; lia|]. intros i a b Ha Hb. now apply (H (S i)).
  Qed.

  Lemma fit disconnected : idx <> [] \/ nosel sets kind = true -> exists pts nidx cons,
    selected_nodes ns es (nosel sets kind) disconnected idx nidx /\
    get_coords h d sets kind disconnected = Ok pts /\ Forall2 (fun j p => exists n, nth_error ns j = Some n /\ p = n_xyz n) nidx pts /\
    get_elements h d sets kind disconnected = Ok (concat cons, totals (map el_nodes (pick es idx)), map el_typ (pick es idx)) /\
    Forall2 (fun e c => fits_nodes ns nidx pts (el_nodes e) c) (pick es idx) cons.
  Proof.
    intro Hne. destruct (split_by lists (con_of disconnected) (con_length disconnected)) as (cons & HC & HL).
    exists (map (fun j => n_xyz (N j)) (node_nats disconnected)), (node_nats disconnected), cons.
    split; [apply node_nats_selected|]. split; [now apply nodes_ok|]. split.
    { assert (G : forall l, (forall j, In j l -> (j < length ns)%nat) -> Forall2 (fun j p => exists n, nth_error ns j = Some n /\ p = n_xyz n) l (map (fun j => n_xyz (N j)) l)).
      { induction l as [|j l IH]; intro H; [constructor|]. cbn [map]. constructor; [|apply IH; intros; apply H; now right].
        exists (N j). split; [apply nth_error_nth_d, H; now left|reflexivity]. }
      apply G, node_nats_range. }
    rewrite (pick_map es dfl) by exact idx_range. split.
    { rewrite (elements_ok disconnected Hne), HC. now rewrite !map_map. }
    assert (G : Forall2 (fun z c => 0 <= c /\ exists j n, nth_error (node_nats disconnected) (Z.to_nat c) = Some j /\ z = no_of j /\ nth_error ns j = Some n /\
                      nth_error (map (fun j => n_xyz (N j)) (node_nats disconnected)) (Z.to_nat c) = Some (n_xyz n)) (concat lists) (concat cons)).
    { rewrite <- HC. apply Forall2_nth; [symmetry; apply con_length|]. intros i z c Hz Hc.
      destruct (con_selects disconnected Hne i z c Hz Hc) as [H1 H2]. split; [exact H1|]. exists (Z.to_nat (z - 1)), (N (Z.to_nat (z - 1))).
      assert (HV : 1 <= z <= Zlen ns) by (apply lists_valid; eapply nth_error_In; eauto). split; [exact H2|]. split; [unfold no_of; lia|].
      split; [apply nth_error_nth_d; unfold Zlen in HV; lia|]. now rewrite nth_error_map, H2. }
    apply (split_rel _ _ _ HL) in G. unfold lists in G. clear - G. revert cons G. induction idx as [|j l IH]; intros cons G; inversion G; subst; constructor; auto.
  Qed.

  (** An empty selection raises. *)
  Lemma nothing disconnected : idx = [] -> nosel sets kind = false ->
    get_coords h d sets kind disconnected = Err ValueError /\ get_elements h d sets kind disconnected = Err ValueError.
  Proof.
    intros Hi EN. unfold get_coords, get_nodeindices, get_elements.
    destruct (coord_record h d ns es Ho HM) as (crows & HC & HCL & _). rewrite HC. cbn [rbind].
    destruct (elem_record h d ns es Ho HM) as (rows & HR & HL & HRow). rewrite HR. cbn [rbind]. rewrite some_nosel, EN. cbn [negb].
    rewrite element_indices. cbn [rbind]. now rewrite (connectivity_none Hi).
  Qed.
End Sel.

(** Disconnected: the points are numbered as they come. *)
Lemma points_numbered h d sets kind con off typ : get_elements h d sets kind true = Ok (con, off, typ) -> con = map Z.of_nat (seq 0 (length con)).
Proof.
  intro H. assert (E : exists n, con = arange n).
  { unfold get_elements in H. destruct (record1 h d "GELMNT1") as [[g nodin]|e]; [|discriminate]. cbn [rbind] in H.
    destruct (some_sets sets || some_kind kind).
    - destruct (get_elementindices h d sets kind) as [ix|e]; [|discriminate]. cbn [rbind] in H.
      destruct (get_connectivity h d ix) as [[c0 o0]|e]; [|discriminate]. cbn [rbind] in H.
      destruct (icol g "eltyp") as [ty|e]; [|discriminate]. cbn [rbind] in H. destruct (take ty ix) as [t0|e]; [|discriminate]. cbn [rbind] in H. injection H as <- _ _. now eexists.
    - cbn [rbind] in H. destruct (icol g "nodin_stop") as [o0|e]; [|discriminate]. cbn [rbind] in H. destruct (icol g "eltyp") as [ty|e]; [|discriminate]. cbn [rbind] in H. injection H as <- _ _. now eexists. }
  destruct E as (n & ->). unfold arange. now rewrite map_length, seq_length.
Qed.
