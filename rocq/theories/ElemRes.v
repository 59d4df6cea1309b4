(** * ElemRes: get_elementresults. *)
From Coq Require Import Sorted.
From Verif Require Import Base Flt H5 Schema StoreSpec ParserSpec Data Struc StrucSpec ListFacts DataFacts StrucProofs StrucGet StrucRes Nd NdProofs Elem ElemSpec ElemResSpec.
Open Scope string_scope.
Open Scope Z_scope.
Open Scope list_scope.
Open Scope monad_scope.

Lemma rmap_ok {A B} (f : A -> Res B) (g : A -> B) l : (forall x, In x l -> f x = Ok (g x)) -> rmap f l = Ok (map g l).
Proof. induction l as [|x l IH]; intro H; [reflexivity|]. cbn [rmap map]. rewrite H by now left. cbn [rbind]. rewrite IH by (intros; apply H; now right). reflexivity. Qed.
Lemma to_complex_all ps : to_complex (flat_map (fun p => [CF (fst p); CF (snd p)]) ps) = Ok (map (fun p => CC (fst p) (snd p)) ps).
Proof. induction ps as [|p ps IH]; [reflexivity|]. cbn [flat_map app to_complex map]. rewrite IH. reflexivity. Qed.
Lemma numbers_ok c v w : numbers c v w -> (if c =? 0 then Ok v else to_complex v) = Ok w.
Proof. unfold numbers. destruct (c =? 0); [intros ->; reflexivity|]. intros (ps & -> & ->). apply to_complex_all. Qed.

Section Arrays.
  Context {F : Type}.
  Lemma concat_arrays (l : list (nd F)) sh : l <> [] -> Forall (fun a => tl (n_shape a) = sh) l ->
    concat_nd l = Ok (mkNd (fold_right Nat.add 0%nat (map (fun b => hd 0%nat (n_shape b)) l) :: sh) (flat_map n_flat l)).
  Proof.
    intros Hne HF. destruct l as [|a l]; [congruence|]. unfold concat_nd. inversion HF as [|? ? E HF']. subst.
    replace (forallb _ _) with true; [reflexivity|]. symmetry. apply forallb_forall. intros b Hb. rewrite Forall_forall in HF. rewrite (HF b Hb). unfold nat_list_eqb. destruct (list_eq_dec _ _ _); [reflexivity|congruence].
  Qed.
  Lemma sum_length {A} (f : A -> list F) (g : A -> nat) k l : (forall x, In x l -> length (f x) = (g x * k)%nat) -> length (flat_map f l) = (fold_right Nat.add 0%nat (map g l) * k)%nat.
  Proof. induction l as [|x l IH]; intro H; [reflexivity|]. cbn [flat_map map fold_right]. rewrite app_length, H by now left. rewrite IH by (intros; apply H; now right). lia. Qed.
End Arrays.

Lemma kind_ok restype rn cn kind : In (restype, (rn, cn, kind)) result_kinds -> restype_kind restype = Ok (rn, cn, kind).
Proof. intros [E|[E|[E|[]]]]; injection E as <- <- <- <-; reflexivity. Qed.
Section Sizes.
  Context {F : Type}.
  Variables (zero one : F) (add mul sub : F -> F -> F) (opp : F -> F) (div : F -> F -> F) (s3 : F).
  Notation process := (process zero one add mul sub opp div s3).

  Ltac listed d H := repeat (destruct d as [|? d]; [discriminate H|]); destruct d; [|discriminate H].
  Lemma process_sizes restype t len nn tail d : In (t, (len, nn, tail)) (elem_sizes restype) -> In restype (map fst result_kinds) -> length d = len ->
    exists a, process t restype "nodes" d = Ok a /\ n_shape a = nn :: tail /\ wf a.
  Proof.
    intros HI HK HL. destruct HK as [<-|[<-|[<-|[]]]]; cbn [elem_sizes String.eqb Ascii.eqb Bool.eqb fst] in HI;
      repeat destruct HI as [E|HI]; try destruct HI; injection E as <- <- <- <-; listed d HL; eexists; (split; [reflexivity|]); split; reflexivity.
  Qed.
End Sizes.
Section Get.
  Context {F : Type}.
  Variables (process : Z -> string -> string -> list F -> Res (nd F)) (num : cell -> F).
  Notation get_elementresults := (get_elementresults_with num process).

  Variables (h : h5) (d : sdata) (ns : list mnode) (es : list melem).
  Hypothesis Ho : d_open d = true.
  Hypothesis HM : mesh_in h (d_group d) ns es.
  Variables (nms : list setname) (ms : list memrec) (sets : list (list ascii)).
  Variables (restype rn cn kind : string).
  Hypothesis HT : In (restype, (rn, cn, kind)) result_kinds.
  Hypothesis HP : proper h (d_group d) es nms ms sets kind.
  Variable idx : list nat.
  Hypothesis HI : selected es nms ms sets kind idx.
  Hypothesis Hne : idx <> [].
  Variables (rs : list ref) (run : Z) (cs : option (list Z)) (arg : cases) (sel : list ref).
  Hypothesis HRf : refs_in h (d_group d) rs.
  Hypothesis HA : cases_arg cs arg.
  Hypothesis HS : asked_refs run cs rs sel.
  Variable bs : list eblock.
  Hypothesis HB : elemres_in h (d_group d) rn es bs.
  Hypothesis Hord : filter (fun i => zmem i (map rf_ires sel)) (map fst bs) = map rf_ires sel.
  Hypothesis Hnd : NoDup (map rf_ires sel).
  Hypothesis Hsel : sel <> [].
  Variable f : Z.
  Hypothesis Hreal : forall r, In r sel -> rf_complex r = f.
  (** One record for each selected element, in order. *)
  Let mem (j : nat) : bool := existsb (Nat.eqb j) idx.
  Hypothesis Heach : forall b, In b bs -> In (fst b) (map rf_ires sel) -> map fst (filter (fun ev => mem (fst ev)) (snd b)) = idx.
  Variables (pos : string) (val : Z -> nat -> list cell) (arr : Z -> nat -> nd F) (sh : list nat) (nn : nat -> nat).
  Hypothesis Hval : forall b ev, In b bs -> In (fst b) (map rf_ires sel) -> In ev (snd b) -> In (fst ev) idx -> numbers f (snd ev) (val (fst b) (fst ev)).
  Hypothesis Harr : forall i j e, In i (map rf_ires sel) -> In j idx -> nth_error es j = Some e ->
    process (el_typ e) restype pos (map num (val i j)) = Ok (arr i j) /\ n_shape (arr i j) = nn j :: sh /\ wf (arr i j).
  Hypothesis Hsh : match restype with "generalstress" => exists c, sh = [2%nat; c] /\ (0 < c)%nat | _ => exists c, sh = [c] /\ (0 < c)%nat end.
  Hypothesis Hnn : forall j, In j idx -> (0 < nn j)%nat.

  Lemma mem_in j : mem j = true <-> In j idx.
  Proof using. unfold mem. rewrite existsb_exists. split; [intros (x & H & E); apply Nat.eqb_eq in E; now subst|intro H; exists j; split; [exact H|apply Nat.eqb_refl]]. Qed.
  Theorem mixed_elem r r' : In r sel -> In r' sel -> rf_complex r <> rf_complex r' -> get_elementresults h d restype pos run arg sets = Err ResultError.
  Proof using Ho HT HRf HA HS HB.
    clear Hreal Hval. intros H1 H2 Hn. unfold get_elementresults_with. rewrite (kind_ok _ _ _ _ HT). cbn [rbind]. destruct HB as (rows & a & H & _). rewrite (holds_record1 _ _ _ _ _ Ho H). cbn [rbind].
    destruct (resrefs_ok h d rs Ho HRf run cs arg sel HA HS) as (rrows & all & -> & HF). cbn [rbind].
    rewrite (ref_col all _ _ "icompl" rf_complex HF) by apply ref_icompl. cbn [rbind]. now rewrite (flags_mixed sel r r' H1 H2 Hn).
  Qed.
  Theorem elementresults_ok : get_elementresults h d restype pos run arg sets =
    Ok (with_cases (length sel) (fold_right Nat.add 0%nat (map nn idx) :: sh) (flat_map (fun r => flat_map (fun j => n_flat (arr (rf_ires r) j)) idx) sel)).
  Proof using Ho HM HT HP HI Hne HRf HA HS HB Hord Hnd Hsel Hreal Heach Hval Harr Hsh Hnn.
    unfold get_elementresults_with. rewrite (kind_ok _ _ _ _ HT). cbn [rbind]. destruct HB as (rows & ar & H & HRow). rewrite (holds_record1 _ _ _ _ _ Ho H). cbn [rbind].
    destruct (resrefs_ok h d rs Ho HRf run cs arg sel HA HS) as (rrows & all & -> & HF). cbn [rbind].
    rewrite (ref_col all _ _ "icompl" rf_complex HF) by apply ref_icompl. cbn [rbind].
    destruct (flags_same sel Hsel) as (f' & -> & Hf). { intros. rewrite !Hreal by assumption. reflexivity. }
    assert (f' = f) as ->. { destruct sel as [|r0 l0]; [congruence|]. rewrite <- (Hf r0) by now left. apply Hreal. now left. }
    cbn [rbind]. rewrite (elementnumbers_ok h d ns es Ho HM nms ms sets kind HP idx HI "internal") by (right; now left). cbn [rbind].
    rewrite (ref_col all _ _ "ires" rf_ires HF) by apply ref_ires. cbn [rbind].
    set (nos := map _ idx).
    assert (Hnos : forall j, zmem (no_of j) nos = mem j).
    { intro j. apply eq_true_iff_eq. rewrite zmem_spec, mem_in. unfold nos. rewrite in_map_iff. split.
      - intros (i & Hi & Hj). unfold elem_no in Hi. cbn [String.eqb Ascii.eqb Bool.eqb] in Hi. unfold no_of in Hi. now replace j with i by lia.
      - intro Hj. exists j. split; [reflexivity|exact Hj]. }
    set (q := fun x : Z * (nat * list cell) => zmem (fst x) (map rf_ires sel) && mem (fst (snd x))).
    assert (G : forall t, t_descr t = descr_of rn -> (dor rows0 <- rfilter (fun r => dor i <- ifield t "ires" r; dor n <- ifield t "iielno" r; Ok (zmem i (map rf_ires sel) && zmem n nos)) rows;
        rmap (fun r => dor eltyp <- ifield t "ir" r; dor a <- ifield t (cn ++ "_start") r; dor b <- ifield t (cn ++ "_stop") r;
          dor v <- (if f =? 0 then Ok (Base.slice a b ar) else to_complex (Base.slice a b ar)); process eltyp restype pos (map num v)) rows0) =
        Ok (map (fun x => arr (fst x) (fst (snd x))) (filter q (eflat bs)))).
    { intros t Ht. assert (HIn : forall x, In x (eflat bs) -> exists b, In b bs /\ fst b = fst x /\ In (snd x) (snd b)).
      { intros x Hx. unfold eflat in Hx. apply in_flat_map in Hx as (b & Hb & Hx). apply in_map_iff in Hx as (ev & <- & Hev). exists b. auto. }
      clear H. induction HRow as [|x row l l' (a & b & e & r1 & r2 & Q0 & -> & Q1 & Q2 & Q3) HRow IH]; [reflexivity|].
      specialize (IH ltac:(intros; apply HIn; now right)).
      assert (C : forall z1 z2 z3 z4 z5 z6 z7, let r := [CI z1; CI z2; CI z3; CI z4; CI z5; CI z6; CI z7] in
        ifield t "ires" r = Ok z2 /\ ifield t "iielno" r = Ok z3 /\ ifield t "ir" r = Ok z5 /\ ifield t (cn ++ "_start") r = Ok z6 /\ ifield t (cn ++ "_stop") r = Ok z7).
      { intros. unfold ifield, field. rewrite Ht. destruct HT as [E|[E|[E|[]]]]; injection E as <- <- <- <-; repeat split. }
      cbn [rfilter filter]. destruct (C a (fst x) (no_of (fst (snd x))) b (el_typ e) r1 r2) as (C1 & C2 & C3 & C4 & C5). rewrite C1, C2. cbn [rbind]. unfold q at 1. rewrite Hnos.
      destruct (rfilter _ l') as [rows0|err]; cbn [rbind] in IH |- *; [|discriminate].
      destruct (zmem (fst x) (map rf_ires sel)) eqn:EZ; [|exact IH]. destruct (mem (fst (snd x))) eqn:EM; [|exact IH]. cbn [andb rmap map]. rewrite C3, C4, C5. cbn [rbind].
      rewrite slice_range, Q3 by assumption. apply zmem_spec in EZ. apply mem_in in EM. destruct (HIn x (or_introl eq_refl)) as (bb & B1 & B2 & B3).
      assert (N : numbers f (snd (snd x)) (val (fst x) (fst (snd x)))). { rewrite <- B2. apply Hval; rewrite ?B2; assumption. }
      rewrite (numbers_ok _ _ _ N). cbn [rbind]. rewrite (proj1 (Harr _ _ e EZ EM Q0)). rewrite IH. reflexivity. }
    specialize (G (mkTab (descr_of rn) rows) eq_refl). match type of G with rbind ?x _ = _ => set (RF := x) in * end.
    cbn [t_rows]. change (rfilter _ rows) with RF. destruct RF as [rows0|err]; cbn [rbind] in G |- *; [|discriminate]. rewrite G. cbn [rbind].
    (* the records of the cases *)
    assert (E : map (fun x => (fst x, fst (snd x))) (filter q (eflat bs)) = flat_map (fun i => map (pair i) idx) (map rf_ires sel)).
    { rewrite <- Hord. unfold eflat, q. clear -Heach. induction bs as [|b bs' IH]; [reflexivity|]. cbn [flat_map map filter]. rewrite filter_app, map_app, IH by (intros; apply Heach; [now right|assumption]).
      destruct (zmem (fst b) (map rf_ires sel)) eqn:EZ; cbn [flat_map].
      - f_equal. rewrite <- (Heach b (or_introl eq_refl)) at 1 by (now apply zmem_spec). 
        rewrite filter_map. cbn [fst snd]. rewrite EZ. cbn [andb]. rewrite !map_map. reflexivity.
      - rewrite filter_map. cbn [fst snd]. rewrite EZ. cbn [andb]. clear. induction (snd b) as [|ev l IHl]; [reflexivity|]. exact IHl. }
    assert (E' : map (fun x => arr (fst x) (fst (snd x))) (filter q (eflat bs)) = flat_map (fun i => map (arr i) idx) (map rf_ires sel)).
    { etransitivity; [symmetry; exact (map_map (fun x : Z * (nat * list cell) => (fst x, fst (snd x))) (fun ij => arr (fst ij) (snd ij)) _)|]. rewrite E. clear. induction (map rf_ires sel) as [|i l IH]; [reflexivity|]. cbn [flat_map]. rewrite map_app, IH, map_map. reflexivity. }
    rewrite E'. clear E E' G.
    assert (HJ : forall j, In j idx -> exists e, nth_error es j = Some e). { intros j Hj. apply HI in Hj as (e & He & _). eauto. }
    assert (HA' : forall i j, In i (map rf_ires sel) -> In j idx -> n_shape (arr i j) = nn j :: sh /\ wf (arr i j)). { intros i j Hi Hj. destruct (HJ j Hj) as (e & He). destruct (Harr i j e Hi Hj He) as (_ & A1 & A2). auto. }
    rewrite (concat_arrays _ sh).
    2:{ destruct sel; [congruence|]. destruct idx; [congruence|]. discriminate. }
    2:{ apply Forall_forall. intros a Ha. apply in_flat_map in Ha as (i & Hi & Ha). apply in_map_iff in Ha as (j & <- & Hj). now rewrite (proj1 (HA' i j Hi Hj)). }
    cbn [rbind]. set (m := fold_right Nat.add 0%nat (map nn idx)).
    assert (E1 : fold_right Nat.add 0%nat (map (fun b => hd 0%nat (n_shape b)) (flat_map (fun i => map (arr i) idx) (map rf_ires sel))) = (length sel * m)%nat).
    { rewrite <- (map_length rf_ires sel). clear -HA'. induction (map rf_ires sel) as [|i l IH]; [reflexivity|]. cbn [flat_map length]. rewrite map_app, fold_right_app, map_map.
      rewrite IH by (intros; apply HA'; [now right|assumption]). rewrite (map_ext_in _ nn) by (intros j Hj; now rewrite (proj1 (HA' i j (or_introl eq_refl) Hj))).
      unfold m. cbn [Nat.mul]. generalize (length l * fold_right Nat.add 0 (map nn idx))%nat as y. intro y. clear. induction (map nn idx) as [|z zs IH]; cbn [fold_right]; [reflexivity|]. rewrite IH. lia. }
    assert (E2 : flat_map n_flat (flat_map (fun i => map (arr i) idx) (map rf_ires sel)) = flat_map (fun r => flat_map (fun j => n_flat (arr (rf_ires r) j)) idx) sel).
    { clear. induction sel as [|r l IH]; [reflexivity|]. cbn [map flat_map]. rewrite flat_map_app, IH. f_equal. clear. induction idx as [|j l IH]; [reflexivity|]. cbn [map flat_map]. now rewrite IH. }
    rewrite E1, E2. clear E1 E2. set (fl := flat_map (fun r => flat_map _ idx) sel).
    assert (E3 : length fl = (length sel * m * size sh)%nat).
    { unfold fl. rewrite (sum_length _ (fun _ => m) (size sh)).
      - f_equal. clear. induction sel as [|r l IH]; [reflexivity|]. cbn [map fold_right length]. rewrite IH. lia.
      - intros r Hr. apply sum_length. intros j Hj. destruct (HA' (rf_ires r) j (in_map _ _ _ Hr) Hj) as (S1 & S2). rewrite S2, S1. reflexivity. }
    rewrite (length_unique _ Hnd), map_length.
    assert (Hsp : forall rest, (0 < size rest)%nat -> size rest = size sh -> (1 < length sel)%nat -> split_first (length sel) rest (mkNd (length sel * m :: sh)%nat fl) = Ok (mkNd (length sel :: m :: rest) fl)).
    { intros rest Hr Er Hs. unfold split_first. cbn [n_flat n_shape]. rewrite E3, <- Er. replace (Nat.eqb (length sel * size rest) 0) with false by (symmetry; apply Nat.eqb_neq; nia).
      replace (length sel * m * size rest)%nat with (m * (length sel * size rest))%nat by lia. rewrite Nat.mod_mul, Nat.div_mul by nia. reflexivity. }
    destruct (Nat.ltb_spec 1 (length sel)) as [L|L].
    - assert (W : with_cases (length sel) (m :: sh) fl = mkNd (length sel :: m :: sh) fl). { unfold with_cases. destruct (length sel) as [|[|k]]; [lia|lia|reflexivity]. }
      rewrite W. destruct HT as [E|[E|[E|[]]]]; injection E as <- <- <- <-; cbn [String.eqb Ascii.eqb Bool.eqb]; destruct Hsh as (c & -> & Hc); cbn [n_shape nth_error]; apply Hsp; cbn [size fold_right]; lia.
    - assert (length sel = 1%nat) as EL by (destruct sel; [congruence|cbn in *; lia]). rewrite EL. unfold with_cases. now rewrite Nat.mul_1_l.
  Qed.
End Get.
