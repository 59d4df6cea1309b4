(** * VtfRest: geometry, results and scalars written and read *)
From Coq Require Import ZifyBool.
From Verif Require Import Base ListFacts Flt RoundSpec NumeralSpec NumeralProofs Write Vtf VtfSpec VtfText VtfNodes VtfElems.
Open Scope string_scope.
Open Scope Z_scope.
Open Scope list_scope.
Open Scope monad_scope.

(** ** Dictionaries *)
Lemma oget_z {V} k (x : V) d : NoDup (map fst d) -> In (k, x) d -> oget Z.eqb k d = Ok x.
Proof.
  unfold oget. induction d as [|(k', y) d IH]; intros ND HI; [destruct HI|]. cbn [dget]. inversion ND as [|? ? N ND']; subst. destruct (Z.eqb_spec k k') as [->|Ne].
  - destruct HI as [HI|HI]; [now injection HI as ->|]. elim N. now apply (in_map fst) in HI.
  - destruct HI as [HI|HI]; [injection HI; congruence|now apply IH].
Qed.
Lemma oget_s {V} k (x : V) d : NoDup (map fst d) -> In (k, x) d -> oget String.eqb k d = Ok x.
Proof.
  unfold oget. induction d as [|(k', y) d IH]; intros ND HI; [destruct HI|]. cbn [dget]. inversion ND as [|? ? N ND']; subst. destruct (String.eqb_spec k k') as [->|Ne].
  - destruct HI as [HI|HI]; [now injection HI as ->|]. elim N. now apply (in_map fst) in HI.
  - destruct HI as [HI|HI]; [injection HI; congruence|now apply IH].
Qed.
Lemma nodup_same {K V} (d : list (K * V)) k x y : NoDup (map fst d) -> In (k, x) d -> In (k, y) d -> x = y.
Proof.
  induction d as [|(k', z) d IH]; intros ND Hx Hy; [destruct Hx|]. inversion ND as [|? ? N ND']; subst. destruct Hx as [Hx|Hx], Hy as [Hy|Hy].
  - congruence.
  - injection Hx as -> ->. elim N. now apply (in_map fst) in Hy.
  - injection Hy as -> ->. elim N. now apply (in_map fst) in Hx.
  - now apply IH.
Qed.
Lemma lstr_eqb_refl l : lstr_eqb l l = true.
Proof. induction l as [|s l IH]; [reflexivity|]. cbn. now rewrite String.eqb_refl. Qed.

(** ** Order of the types *)
Lemma front_found (first rest : list (string * list (list Z))) : NoDup (map fst (first ++ rest)) ->
  rmap (fun k => dor a <- oget String.eqb k (first ++ rest); Ok (k, a)) (map fst first) = Ok first.
Proof.
  intro ND. assert (H : forall f, incl f first -> rmap (fun k => dor a <- oget String.eqb k (first ++ rest); Ok (k, a)) (map fst f) = Ok f).
  { induction f as [|(k, x) f IH]; intro HI; [reflexivity|]. cbn [map rmap fst]. rewrite (oget_s k x); [|exact ND|apply in_or_app; left; apply HI; now left]. cbn [rbind]. rewrite IH; [reflexivity|]. intros y Hy. apply HI. now right. }
  apply H. apply incl_refl.
Qed.
Lemma str_in_iff s l : str_in s l = true <-> In s l.
Proof.
  split; [|apply str_in_In]. unfold str_in. intro H. apply existsb_exists in H as (x & Hx & E). apply String.eqb_eq in E. now subst.
Qed.
Lemma rest_kept (first rest : list (string * list (list Z))) : NoDup (map fst (first ++ rest)) ->
  filter (fun p => negb (str_in (fst p) (map fst first))) (first ++ rest) = rest.
Proof.
  intro ND. rewrite filter_app. assert (A : filter (fun p => negb (str_in (fst p) (map fst first))) first = []).
  { assert (H : forall f, incl f first -> filter (fun p => negb (str_in (fst p) (map fst first))) f = []).
    { induction f as [|p f IH]; intro HI; [reflexivity|]. cbn [filter]. rewrite str_in_In by (apply in_map, HI; now left). apply IH. intros y Hy. apply HI. now right. }
    apply H, incl_refl. }
  rewrite A. cbn [app]. rewrite map_app in ND. induction rest as [|p rest IH]; [reflexivity|]. cbn [filter map] in *. apply NoDup_remove in ND as [ND N].
  destruct (str_in (fst p) (map fst first)) eqn:E; [apply str_in_iff in E; elim N; apply in_or_app; now left|]. cbn [negb]. now rewrite IH.
Qed.
Lemma order_kept show v b : good show v -> In b (v_elems v) -> elem_order v (snd b) = Ok (e_dict (snd b)).
Proof.
  intros G HB. destruct G as [_ _ _ _ (_ & NE & GE) GR GT (NR & GRs) _ _]. unfold elem_order.
  assert (ER : e_res (snd b) = map fst (filter (fun r => r_elems (snd r) =? fst b) (v_results v))). { rewrite Forall_forall in GR. now apply GR. }
  set (rs := filter (fun r => r_elems (snd r) =? fst b) (v_results v)) in *.
  assert (HR : forall r, In r rs -> In r (v_results v) /\ r_elems (snd r) = fst b). { intros r Hr. apply filter_In in Hr as [Hr E]. split; [exact Hr|lia]. }
  clearbody rs. rewrite ER. destruct rs as [|r0 rs]; [reflexivity|]. cbn [map]. destruct (HR r0 ltac:(now left)) as (I0 & E0).
  rewrite (oget_z (fst r0) (snd r0)); [|exact NR|now destruct r0]. cbn [rbind].
  assert (Same : rmap (fun j => dor r <- oget Z.eqb j (v_results v); if lstr_eqb (keys (r_dict r)) (keys (r_dict (snd r0))) then Ok tt else Err VtfError) (fst r0 :: map fst rs) = Ok (map (fun _ => tt) (r0 :: rs))).
  { change (fst r0 :: map fst rs) with (map fst (r0 :: rs)). assert (H : forall f, incl f (r0 :: rs) -> rmap (fun j => dor r <- oget Z.eqb j (v_results v); if lstr_eqb (keys (r_dict r)) (keys (r_dict (snd r0))) then Ok tt else Err VtfError) (map fst f) = Ok (map (fun _ => tt) f)).
    { induction f as [|r f IH]; intro HI; [reflexivity|]. destruct (HR r ltac:(apply HI; now left)) as (Ir & Er). cbn [map rmap]. rewrite (oget_z (fst r) (snd r)); [|exact NR|now destruct r]. cbn [rbind]. assert (EK : keys (r_dict (snd r)) = keys (r_dict (snd r0))) by (apply (GT r r0 Ir I0); congruence). rewrite EK, lstr_eqb_refl.
      rewrite IH; [reflexivity|]. intros y Hy. apply HI. now right. }
    apply H, incl_refl. }
  rewrite Same. cbn [rbind]. rewrite Forall_forall in GRs. destruct (GRs r0 I0) as (_ & _ & _ & _ & _ & e & first & rest & HI & Ed & F2). rewrite E0 in HI.
  assert (Ee : e = snd b). { apply (nodup_same (v_elems v) (fst b)); [exact NE|exact HI|now destruct b]. }
  subst e. assert (Ek : keys (r_dict (snd r0)) = map fst first). { unfold keys. clear -F2. induction F2 as [|p q l m (E & _) _ IH]; [reflexivity|]. cbn [map]. now rewrite E, IH. }
  rewrite Ek, Ed. rewrite Forall_forall in GE. destruct (GE b HB) as (_ & _ & _ & _ & ND & _). rewrite Ed in ND. rewrite front_found by exact ND. cbn [rbind]. now rewrite rest_kept.
Qed.

(** ** Values, one on each line *)
Section Results.
  Variable show : flt -> text.
  Definition vl (x : flt) : text := show x ++ [nl].
  Lemma value_word x : determined show x -> word (show x).
  Proof.
    intros (HS & w & R & _). split; [|exact HS]. intros E. rewrite E in R. apply parse_float_reads in R. discriminate R.
  Qed.
  Lemma value_split x : determined show x -> split (vl x) = [show x].
  Proof. intro H. unfold vl. rewrite split_word; [reflexivity|now apply value_word|reflexivity]. Qed.
  Lemma value_parse x : determined show x -> exists w, parse_float (vl x) = Ok w /\ round32 w = x.
  Proof.
    intro H. pose proof (value_word x H) as W. destruct H as (_ & w & R & E). exists w. split; [|exact E]. apply parse_float_reads in R. rewrite <- R, !parse_float_parts. unfold vl. now rewrite strip_nl, strip_word.
  Qed.
  Lemma value_line x : determined show x -> is_line (vl x).
  Proof.
    intros (HS & _). exists (show x). split; [reflexivity|]. intro K. rewrite Forall_forall in HS. specialize (HS nl K). discriminate.
  Qed.
  Lemma value_not ws x : determined show x -> forallb (fun s => match parse_float (s2l s) with Ok _ => false | Err _ => true end) ws = true -> starts ws (vl x) = false.
  Proof.
    intros H HW. rewrite (starts_iff _ _ _ _ (value_split x H)). destruct (str_in (l2s (show x)) ws) eqn:E; [|reflexivity]. apply str_in_iff in E. rewrite forallb_forall in HW. apply HW in E.
    unfold s2l, l2s in E. rewrite list_ascii_of_string_of_list_ascii in E. destruct H as (_ & w & R & _). apply parse_float_reads in R. rewrite R in E. discriminate.
  Qed.
  Lemma value_not_block x : determined show x -> starts block_types (vl x) = false.
  Proof. intro H. apply value_not; [exact H|reflexivity]. Qed.
  Lemma value_not_directive x : determined show x -> starts (res_directives ++ res_types) (vl x) = false.
  Proof. intro H. apply value_not; [exact H|reflexivity]. Qed.

  Lemma values_read row : Forall (determined show) row -> forall line ls l rest, split l <> [] -> map vl row ++ l :: rest = line :: ls -> read_values (length row) line ls = Ok (Some (row, l, rest)).
  Proof.
    induction 1 as [|x row Hx H IH]; intros line ls l rest Sl E; cbn [map app length read_values] in *; [now injection E as -> ->|]. injection E as <- <-.
    destruct (value_parse x Hx) as (w & -> & Ew). cbn [rbind]. destruct (map vl row ++ l :: rest) as [|y r] eqn:Er; [now destruct row|]. rewrite next_nonblank.
    - rewrite (IH y r l rest Sl Er). cbn [rbind]. now rewrite Ew.
    - destruct H as [|x' row Hx' _]; cbn [map app] in Er; injection Er as <- _; [exact Sl|]. rewrite value_split by exact Hx'. discriminate.
  Qed.
  Definition row_lines (rows : list (list flt)) : list text := concat (map (map vl) rows).
  Lemma rows_read {A} n rows : (0 < n)%nat -> Forall (fun row => length row = n /\ Forall (determined show) row) rows -> forall (arr : list A) line ls l rest, length arr = length rows -> split l <> [] ->
    row_lines rows ++ l :: rest = line :: ls -> read_rows arr n line ls = Ok (Some (rows, l, rest)).
  Proof.
    intro Hn. induction 1 as [|row rows (Ln & Hx) H IH]; intros [|a arr] line ls l rest EL Sl E; try discriminate; cbn [read_rows].
    - unfold row_lines in E. cbn in E. now injection E as -> ->.
    - unfold row_lines in E, IH. cbn [map concat] in E. rewrite <- app_assoc in E. destruct (concat (map (map vl) rows) ++ l :: rest) as [|y r] eqn:Er; [destruct (concat (map (map vl) rows)); discriminate|].
      assert (Sy : split y <> []).
      { destruct H as [|row' rows (Ln' & Hx') H]; cbn [map concat app] in Er; [now injection Er as <- _|]. destruct row' as [|x row']; [cbn in Ln'; lia|]. cbn [map app] in Er. injection Er as <- _. inversion Hx'; subst. rewrite value_split by assumption. discriminate. }
      rewrite <- Ln, (values_read row Hx line ls y r Sy E). cbn [rbind]. rewrite Ln, (IH arr y r l rest) by (auto; now injection EL). reflexivity.
  Qed.
  Definition dict_lines (d : list (string * list (list flt))) : list text := concat (map (fun p => row_lines (snd p)) d).
  Definition pairs (p : string * list (list flt)) (q : string * list (list Z)) : Prop :=
    fst p = fst q /\ length (snd p) = length (snd q) /\ exists n, In (fst p, n) number_of_nodes /\ Forall (fun row => length row = n /\ Forall (determined show) row) (snd p).
  Lemma nodes_some t n : In (t, n) number_of_nodes -> oget String.eqb t number_of_nodes = Ok n /\ (0 < n)%nat.
  Proof. cbn [number_of_nodes In]. intros [E|[E|[E|[E|[E|[E|[]]]]]]]; injection E as <- <-; (split; [reflexivity|lia]). Qed.
  Lemma dict_head d first : Forall2 pairs d first -> Forall good_type first -> d <> [] -> exists x r, dict_lines d = vl x :: r /\ determined show x.
  Proof.
    intros F2 GT Nd. destruct F2 as [|p q d first (_ & L & n & Hn & F) F2]; [now elim Nd|]. inversion GT as [|? ? (_ & Ne & _) _]; subst. apply nodes_some in Hn as [_ Hn]. unfold dict_lines. cbn [map concat].
    destruct F as [|row rows (Ln & Hx) F]; [cbn in L; destruct (snd q); [now elim Ne|discriminate]|]. destruct row as [|x row]; [cbn in Ln; lia|]. inversion Hx; subst. exists x. unfold row_lines. cbn [map concat app]. eauto.
  Qed.
  Lemma dict_read d first : Forall2 pairs d first -> Forall good_type first -> NoDup (map fst first) -> d <> [] -> forall rest acc line ls l r, block_start l ->
    (forall t, In t (map fst first) -> ~ In t (map fst acc)) -> dict_lines d ++ l :: r = line :: ls -> read_dict (first ++ rest) acc line ls = Ok (Some (acc ++ d, l, r)).
  Proof.
    induction 1 as [|p q d first HP F2 IH]; intros GT ND Nd rest acc line ls l r HB HN E; [now elim Nd|]. destruct q as [t arr]. cbn [app read_dict]. destruct HP as (E1 & L & n & Hn & F). cbn [fst snd] in *.
    inversion GT as [|? ? Gq GT']; subst. inversion ND as [|? ? N ND']; subst. destruct (nodes_some _ _ Hn) as (-> & Pn). cbn [rbind]. unfold dict_lines in E. cbn [map concat] in E. fold (dict_lines d) in E. rewrite <- app_assoc in E.
    destruct (dict_lines d ++ l :: r) as [|y s] eqn:Ey; [destruct (dict_lines d); discriminate|].
    assert (Hy : (d = [] /\ y = l /\ s = r) \/ (d <> [] /\ exists x, determined show x /\ y = vl x)).
    { destruct d as [|p' d]; [left; unfold dict_lines in Ey; cbn in Ey; injection Ey as -> ->; auto|right]. split; [discriminate|]. destruct (dict_head _ _ F2 GT' ltac:(discriminate)) as (x & u & Eu & Hx). rewrite Eu in Ey. cbn [app] in Ey. injection Ey as <- _. eauto. }
    assert (Sy : split y <> []). { destruct Hy as [(_ & -> & _)|(_ & x & Hx & ->)]; [apply HB|rewrite value_split by exact Hx; discriminate]. }
    rewrite (rows_read n (snd p) Pn F arr line ls y s (eq_sym L) Sy E). cbn [rbind]. rewrite oset_new by (apply HN; now left).
    assert (Ep : (fst p, snd p) = p) by now destruct p.
    destruct Hy as [(-> & -> & ->)|(Nd' & x & Hx & Exy)].
    - destruct HB as (_ & -> & _). now rewrite Ep.
    - rewrite Exy, value_not_block by exact Hx. rewrite <- Exy. rewrite (IH GT' ND' Nd' rest (acc ++ [(fst p, snd p)]) y s l r HB).
      + rewrite Ep. now rewrite <- app_assoc.
      + intros t Ht K. rewrite map_app in K. apply in_app_or in K as [K|[<-|[]]]; [apply (HN t); [now right|exact K]|contradiction].
      + exact Ey.
  Qed.

  (** A block of results *)
  Definition res_heads (r : results) : list text := [line_of "%DIMENSION " (znum (r_dim r)); line_of "%" (s2l (r_type r) ++ s2l " #" ++ znum (r_elems r))].
  Lemma res_heads_fold r : r_type r = "PER_ELEMENT_NODE" -> 0 <= r_dim r -> 0 <= r_elems r ->
    foldm res_directive (res_heads r) ("", 0, 1) = Ok ("%PER_ELEMENT_NODE", r_elems r, r_dim r) /\
    Forall (fun x => starts (res_directives ++ res_types) x = true /\ split x <> []) (res_heads r) /\ Forall is_line (res_heads r).
  Proof.
    intros Et Hd He. unfold res_heads. rewrite Et.
    assert (S1 : split (line_of "%DIMENSION " (znum (r_dim r))) = [s2l "%DIMENSION"; znum (r_dim r)]) by (rewrite (split_two _ "%DIMENSION") by (reflexivity || wordly); now rewrite split_num).
    assert (S2 : split (line_of "%" (s2l "PER_ELEMENT_NODE" ++ s2l " #" ++ znum (r_elems r))) = [s2l "%PER_ELEMENT_NODE"; "#"%char :: znum (r_elems r)]).
    { change (line_of "%" (s2l "PER_ELEMENT_NODE" ++ s2l " #" ++ znum (r_elems r))) with (s2l "%PER_ELEMENT_NODE" ++ blank :: ("#"%char :: znum (r_elems r)) ++ [nl]). rewrite split_word by (reflexivity || wordly).
      rewrite split_word; [reflexivity| |reflexivity]. split; [discriminate|]. constructor; [reflexivity|]. now destruct (znum_word (r_elems r) He). }
    split; [|split].
    - cbn [foldm]. unfold res_directive at 1. rewrite (word0_is _ _ _ S1), S1. change (String.eqb (l2s (s2l "%DIMENSION")) "%DIMENSION") with true. cbn iota. cbn [toks1 pyget nth_error rbind]. rewrite int_znum by exact Hd. cbn [rbind].
      unfold res_directive at 1. rewrite (word0_is _ _ _ S2), S2. change (String.eqb (l2s (s2l "%PER_ELEMENT_NODE")) "%DIMENSION") with false. change (str_in (l2s (s2l "%PER_ELEMENT_NODE")) res_types) with true. cbn iota.
      cbn [toks1 pyget nth_error rbind]. rewrite slice_tail, int_znum by exact He. reflexivity.
    - constructor; [rewrite (starts_iff _ _ _ _ S1), S1; split; [reflexivity|discriminate]|]. constructor; [rewrite (starts_iff _ _ _ _ S2), S2; split; [reflexivity|discriminate]|constructor].
    - constructor; [apply line_is; [reflexivity|now apply znum_no_nl]|]. constructor; [|constructor]. apply line_is; [reflexivity|]. intro K. repeat (destruct K as [K|K]; [discriminate|]). revert K. now apply znum_no_nl.
  Qed.
  Lemma lines_text d : concat (map (fun p => concat (map (fun row => concat (map (fun x => show x ++ [nl]) row)) (snd p))) d) = concat (dict_lines d).
  Proof.
    unfold dict_lines, row_lines, vl. induction d as [|p d IH]; [reflexivity|]. cbn [map concat]. rewrite concat_app, IH. f_equal. generalize (snd p). induction l as [|row rows IH']; [reflexivity|]. cbn [map concat]. now rewrite concat_app, IH'.
  Qed.
  Lemma dict_are d first : Forall2 pairs d first -> Forall is_line (dict_lines d).
  Proof.
    unfold dict_lines, row_lines. induction 1 as [|p q d first (_ & _ & n & _ & F) _ IH]; [constructor|]. cbn [map concat]. apply Forall_app. split; [|exact IH]. clear IH. induction F as [|row rows (_ & H) _ IH]; [constructor|]. cbn [map concat]. apply Forall_app. split; [|exact IH].
    apply Forall_map. eapply Forall_impl; [|exact H]. exact value_line.
  Qed.
  Lemma block_no_res l : block_start l -> starts (res_directives ++ res_types) l = false.
  Proof.
    intros (S & B & _). unfold starts in *. destruct (split l) as [|w ws]; [now elim S|]. unfold str_in in B. apply existsb_exists in B as (b & Hb & E). apply String.eqb_eq in E. rewrite E. revert Hb. cbn [block_types In].
    intros [<-|[<-|[<-|[<-|[<-|[]]]]]]; reflexivity.
  Qed.
  Definition with_ref (e : elements) (k : Z) : elements := mkElems (e_name e) (e_descr e) (e_nodes e) (e_dict e) (e_ids e) (e_res e ++ [k]).
  Lemma results_block elems b : NoDup (map fst elems) -> Forall good_elements elems -> good_results show elems b ->
    exists l0 ls, Forall is_line (l0 :: ls) /\ write_results show b = concat (l0 :: ls) /\ heads l0 "*RESULTS" (fst b) /\ block_start l0 /\
      forall fuel w l rest e', block_start l -> (length ls < fuel)%nat -> oget Z.eqb (r_elems (snd b)) (v_elems w) = Ok e' -> (forall e, In (r_elems (snd b), e) elems -> e_dict e' = e_dict e) ->
        read_results fuel (fst b) (ls ++ l :: rest) w =
          More l rest (set_results (set_elems w (oset Z.eqb (r_elems (snd b)) (with_ref e' (fst b)) (v_elems w))) (oset Z.eqb (fst b) (snd b) (v_results w))).
  Proof.
    intros NE GE. destruct b as [k r]. unfold good_results. cbn [fst snd]. intros (Hk & Et & Hd & He & Nd & e & first & rest & HI & Ed & F2).
    destruct (res_heads_fold r Et Hd He) as (HF & HS & HL). rewrite Forall_forall in GE. destruct (GE _ HI) as (_ & _ & _ & _ & NDd & GT & _). cbn [snd] in *. rewrite Ed in GT, NDd. apply Forall_app in GT as [GT _].
    assert (NDf : NoDup (map fst first)). { rewrite map_app in NDd. clear -NDd. induction (map fst first) as [|x l IH]; [constructor|]. inversion NDd; subst. constructor; [|now apply IH]. intro K. apply H1. apply in_or_app. now left. }
    assert (H0 : heads (line_of "*RESULTS " (znum k)) "*RESULTS" k) by (unfold heads; rewrite (split_two _ "*RESULTS") by (reflexivity || wordly); now rewrite split_num).
    exists (line_of "*RESULTS " (znum k)), (res_heads r ++ dict_lines (r_dict r)). split; [|split; [|split; [exact H0|split]]].
    - constructor; [apply line_is; [reflexivity|now apply znum_no_nl]|]. apply Forall_app. split; [exact HL|now apply (dict_are _ first)].
    - unfold write_results. rewrite lines_text. cbn [concat]. rewrite concat_app. unfold res_heads. cbn [concat]. now rewrite <- ?app_assoc, ?app_nil_r.
    - eapply heads_start; [exact H0|cbn; tauto|eexists; reflexivity].
    - intros fuel w l rest' e' HB HFu Eo HE. rewrite app_length in HFu. destruct (dict_head _ _ F2 GT Nd) as (x & u & Eu & Hx).
      assert (Ex : dict_lines (r_dict r) ++ l :: rest' = vl x :: (u ++ l :: rest')) by now rewrite Eu.
      rewrite <- app_assoc, Ex.
      assert (Sx : split (vl x) <> []) by (rewrite value_split by exact Hx; discriminate).
      destruct (while_lines res_directive (starts (res_directives ++ res_types)) (res_heads r) fuel ("", 0, 1) _ (vl x) (u ++ l :: rest') HS Sx (value_not_directive x Hx) HF ltac:(lia)) as (y & s & Ey & Ew).
      unfold read_results. rewrite Ey, Ew. change (String.eqb "%PER_ELEMENT_NODE" "%PER_ELEMENT_NODE") with true. cbv iota zeta. rewrite Eo. rewrite (HE e HI), Ed. rewrite (dict_read _ _ F2 GT NDf Nd rest [] (vl x) (u ++ l :: rest') l rest' HB).
        * cbn [app]. unfold with_ref. rewrite (HE e HI), Ed. replace (mkRes (l2s (slice_from 1 (s2l "%PER_ELEMENT_NODE"))) (r_dict r) (r_elems r) (r_dim r)) with r; [reflexivity|]. destruct r as [t d el dm]. cbn [r_type r_dict r_elems r_dim] in *. rewrite Et. reflexivity.
        * intros t _ [].
        * exact Ex.
  Qed.
End Results.
