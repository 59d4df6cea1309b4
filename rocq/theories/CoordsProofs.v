(** * CoordsProofs: coordinates with a transformation. *)
From Coq Require Import Ring_theory Ring.
From Verif Require Import Base ListFacts Flt H5 Schema Data Struc StoreSpec ParserSpec LayoutSpec FileSpec DataSpec RecordSpec StrucSpec DataFacts DataProofs RecordProofs FileProofs SaysSpec SaysProofs SaysGives Trans TransSpec TransProofs Files FilesProofs SifName Convert.
Open Scope string_scope.
Open Scope Z_scope.
Open Scope list_scope.

(** Four rows of four numbers *)
Definition four {A} (m : list (list A)) : Prop := length m = 4%nat /\ Forall (fun r => length r = 4%nat) m.
Lemma is44_spec {A} (m : list (list A)) : is44 m = true <-> four m.
Proof.
  unfold is44, four. rewrite andb_true_iff, Nat.eqb_eq, forallb_forall, Forall_forall. split; intros [H1 H2]; (split; [exact H1|]); intros r Hr; now apply Nat.eqb_eq, H2.
Qed.
(** What a record of a superelement's own transformation says: the rows of the matrix *)
Definition own_says (_ : nat) (e : StoreSpec.entry) (t : list (list cell)) : Prop :=
  exists rows, nth_error (e_row e) 2 = Some (PT (tuples rows)) /\ LayoutSpec.matrix 4 4 rows /\ t = map reals_ rows.
Definition own_on (segs : list seg) (ts : list (list (list cell))) : Prop := listed "RSUPTRAN" segs own_says ts.
Definition own_in (h : h5) (w : path) (ts : list (list (list cell))) : Prop :=
  exists rows, holds h w "RSUPTRAN" (mkC rows []) /\ Forall2 (fun t row => exists a b, row = [CI a; CI b; CV (map CV t)]) ts rows.

Lemma stored_matrix rows c : stored (TV 4 (TV 4 TF)) (PT (tuples rows)) c -> c = CV (map CV (map reals_ rows)).
Proof.
  destruct c as [| | | |cs]; try (cbn; tauto). cbn. intros [_ F]. f_equal. unfold tuples in F. revert cs F. induction rows as [|r rows IH]; intros cs F.
  - inversion F; reflexivity.
  - cbn [map] in F. inversion F as [|? c ? cs' H1 H2]; subst. cbn [map]. f_equal; [|now apply IH]. destruct c as [| | | |ds]; try (now destruct H1). destruct H1 as [_ H1]. f_equal. exact (stored_reals r ds H1).
Qed.
Lemma own_found h w segs ts : tables h w segs -> own_on segs ts -> own_in h w ts.
Proof.
  intros T HL. table0_ "RSUPTRAN" T HL rows H LO. exists rows. split; [exact H|].
  apply (listed_Forall2 "RSUPTRAN" segs own_says ts _ _ HL LO). intros j e t cs He (rs & I2 & _ & ->) O. change (seq 0 (length (elts_of "RSUPTRAN"))) with (@nil nat). cbn [map range_cells flat_map]. rewrite app_nil_r.
  cells_ O cs. any_ O 0%nat z0. any_ O 1%nat z1. destruct (own_nth _ _ _ 2%nat (TV 4 (TV 4 TF)) "t" _ O eq_refl I2) as (d & Hn & S). cbn [nth_error] in Hn. injection Hn as ->. rewrite (stored_matrix _ _ S). eauto.
Qed.

Section Moved.
  Context {A : Type} (zero one : A) (add mul sub : A -> A -> A) (opp : A -> A) (num : cell -> A).
  Hypothesis Rth : ring_theory zero one add mul sub opp eq.
  Add Ring RA : Rth.
  Notation nodes := (get_nodes zero one add mul num).
  Lemma four_move p m : length p = 3%nat -> four m -> firstn 3 (rowdot zero add mul (p ++ [one]) m) = move add mul p m.
  Proof.
    intros Hp [L F]. destruct p as [|x [|y [|z [|]]]]; try discriminate Hp. destruct m as [|r1 [|r2 [|r3 [|r4 [|]]]]]; try discriminate L.
    inversion F as [|? ? F1 G1]; subst. inversion G1 as [|? ? F2 G2]; subst. inversion G2 as [|? ? F3 G3]; subst. inversion G3 as [|? ? F4 G4]; subst.
    destruct r1 as [|a1 [|a2 [|a3 [|a4 [|]]]]]; try discriminate F1. destruct r2 as [|b1 [|b2 [|b3 [|b4 [|]]]]]; try discriminate F2.
    destruct r3 as [|c1 [|c2 [|c3 [|c4 [|]]]]]; try discriminate F3. destruct r4 as [|d1 [|d2 [|d3 [|d4 [|]]]]]; try discriminate F4.
    unfold rowdot, Trans.column, dots, move. cbn [map nth app firstn]. f_equal; [ring|]. f_equal; [ring|]. f_equal. ring.
  Qed.
  Lemma matrix_given t : matrix num (CV (map CV t)) = Ok (map (map num) t).
  Proof. exact (matrix_ok num t). Qed.
  (** Results data with a transformation of its own *)
  Lemma nodes_own h d tops sets kind dis index t ts pts : get_coords h d sets kind dis = Ok pts -> d_open d = true -> d_top d = None ->
    In "RSUPTRAN" (d_names d) -> own_in h (d_group d) (t :: ts) ->
    nodes h d tops sets kind dis (Some (TText "top")) index = Ok (map (fun q => firstn 3 (rowdot zero add mul (map num q ++ [one]) (map (map num) t))) pts).
  Proof.
    intros HC HO HT HN (rows & H & F). unfold get_nodes, get_nodes_with. rewrite HC. cbn [rbind]. rewrite HT.
    assert (E : has_record_name d "RSUPTRAN" = true) by (apply str_in_spec; exact HN). rewrite E. cbn [andb]. rewrite String.eqb_refl.
    rewrite (holds_record0 _ _ _ rows _ HO H). cbn [rbind t_rows]. inversion F as [|? row ? rows' (a & b & ->) F']; subst.
    replace (pyget ([CI a; CI b; CV (map CV t)] :: rows') 0) with (@Ok (list cell) [CI a; CI b; CV (map CV t)]) by reflexivity. cbn [rbind].
    replace (field (mkTab (descr_of "RSUPTRAN") _) "t" [CI a; CI b; CV (map CV t)]) with (@Ok cell (CV (map CV t))) by reflexivity. cbn [rbind].
    rewrite matrix_given. cbn [rbind]. unfold dot. now rewrite !map_map.
  Qed.
  (** With any product in the place of the sums of products *)
  Lemma given_with times h d tops sets kind dis index m pts : get_coords h d sets kind dis = Ok pts -> four m ->
    get_nodes_with zero one add mul num times h d tops sets kind dis (Some (TArr m)) index = Ok (map (firstn 3) (times (map (fun q => map num q ++ [one]) pts) m)).
  Proof. intros HC HM. unfold get_nodes_with. rewrite HC. cbn [rbind]. now rewrite (proj2 (is44_spec m) HM). Qed.
  Lemma own_with times h d tops sets kind dis index t ts pts : get_coords h d sets kind dis = Ok pts -> d_open d = true -> d_top d = None ->
    In "RSUPTRAN" (d_names d) -> own_in h (d_group d) (t :: ts) ->
    get_nodes_with zero one add mul num times h d tops sets kind dis (Some (TText "top")) index = Ok (map (firstn 3) (times (map (fun q => map num q ++ [one]) pts) (map (map num) t))).
  Proof.
    intros HC HO HT HN (rows & H & F). unfold get_nodes_with. rewrite HC. cbn [rbind]. rewrite HT.
    assert (E : has_record_name d "RSUPTRAN" = true) by (apply str_in_spec; exact HN). rewrite E. cbn [andb]. rewrite String.eqb_refl.
    rewrite (holds_record0 _ _ _ rows _ HO H). cbn [rbind t_rows]. inversion F as [|? row ? rows' (a & b & ->) F']; subst.
    replace (pyget ([CI a; CI b; CV (map CV t)] :: rows') 0) with (@Ok (list cell) [CI a; CI b; CV (map CV t)]) by reflexivity. cbn [rbind].
    replace (field (mkTab (descr_of "RSUPTRAN") _) "t" [CI a; CI b; CV (map CV t)]) with (@Ok cell (CV (map CV t))) by reflexivity. cbn [rbind].
    now rewrite matrix_given.
  Qed.
End Moved.

(** The data object of an opened file is one of its data objects. *)
Lemma get_data_obj k : forall es x, get_data k es = Ok x -> exists e, In e es /\ (kind_of e, obj_of e) = x.
Proof.
  induction es as [|e es IH]; intros x; [discriminate|]. cbn [get_data]. destruct (String.eqb k (key_of e)).
  - intros H. injection H as <-. exists e. split; [now left|reflexivity].
  - intro H. destruct (IH x H) as (e' & I & X). exists e'. split; [now right|exact X].
Qed.
