(** * ElemProofs: element results at nodes. *)
From Coq Require Import Field.
From Verif Require Import Base Flt H5 Schema Data Struc Nd NdProofs ListFacts Elem ElemSpec.
Open Scope string_scope.
Open Scope Z_scope.
Open Scope list_scope.
Open Scope monad_scope.

Lemma cons_eq {A} (x y : A) l m : x = y -> l = m -> x :: l = y :: m. Proof. congruence. Qed.
Lemma skip_skip {A} a b (l : list A) : skipn a (skipn b l) = skipn (a + b) l.
Proof. revert l. induction b as [|b IH]; intro l; [now rewrite Nat.add_0_r|]. destruct l; [now rewrite !skipn_nil|]. rewrite Nat.add_succ_r. apply IH. Qed.
Section Numbers.
  Context {F : Type}.
  Variables (zero one : F) (add mul sub : F -> F -> F) (opp : F -> F) (div : F -> F -> F) (inv : F -> F) (s3 : F).
  Hypothesis Ff : field_theory zero one add mul sub opp div inv eq.
  Notation "x + y" := (add x y).
  Notation "x * y" := (mul x y).
  Notation "x - y" := (sub x y).
  Notation "x / y" := (div x y).
  Notation "- x" := (opp x).
  Notation "0" := zero.
  Notation "1" := one.
  Hypothesis H2 : 1 + 1 <> 0.
  Hypothesis H3 : 1 + 1 + 1 <> 0.
  Hypothesis Hs : s3 * s3 = 1 + 1 + 1.
  Add Field Ffield : Ff.
  Notation process := (process zero one add mul sub opp div s3).
  Notation gauss := (gauss one div s3).

  Lemma s3_nz : s3 <> 0.
  Proof using Ff Hs H3. intro E. apply H3. rewrite <- Hs, E. ring. Qed.
  Lemma nz_mul x y : x <> 0 -> y <> 0 -> x * y <> 0.
  Proof using Ff. intros Hx Hy E. apply Hy. transitivity (inv x * (x * y)); [field; exact Hx|]. rewrite E. ring. Qed.
  Lemma nz_eq x y : x <> 0 -> x = y -> y <> 0. Proof. congruence. Qed.
  Lemma n3 : 1 + (1 + 1) <> 0. Proof using Ff H3. apply (nz_eq _ _ H3). ring. Qed.
  Lemma n4 : 1 + (1 + (1 + 1)) <> 0. Proof using Ff H2. apply (nz_eq ((1 + 1) * (1 + 1))); [now apply nz_mul|ring]. Qed.
  Lemma n6 : 1 + (1 + (1 + (1 + (1 + 1)))) <> 0. Proof using Ff H2 H3. apply (nz_eq ((1 + 1) * (1 + 1 + 1))); [now apply nz_mul|ring]. Qed.
  Ltac nz := repeat split; first [assumption | exact n3 | exact n4 | exact n6 | exact s3_nz | apply nz_mul; nz].
  Lemma gauss_3 : gauss = s3 / (1 + 1 + 1).
  Proof using Ff Hs H3. unfold gauss. rewrite <- Hs. field. nz. Qed.
  Lemma to_lower_ok m b : to_lower one add mul sub opp div s3 (m + (- gauss) * b) (m + gauss * b) = m + (- (1)) * b.
  Proof using Ff Hs H2 H3.
    unfold to_lower, three, two. rewrite gauss_3. set (a := s3 / (1 + 1 + 1)).
    assert (Ha : a <> 0). { intro E. apply s3_nz. transitivity (a * (1 + 1 + 1)); [unfold a; field; nz|]. rewrite E. ring. }
    clearbody a. field. nz.
  Qed.
  Lemma to_upper_ok m b : to_upper one add mul sub div s3 (m + (- gauss) * b) (m + gauss * b) = m + 1 * b.
  Proof using Ff Hs H2 H3.
    unfold to_upper, three, two. rewrite gauss_3. set (a := s3 / (1 + 1 + 1)).
    assert (Ha : a <> 0). { intro E. apply s3_nz. transitivity (a * (1 + 1 + 1)); [unfold a; field; nz|]. rewrite E. ring. }
    clearbody a. field. nz.
  Qed.
  Lemma quad_nodes_ok (f : F * F -> F) : bilinear add mul f -> map (fun r => dots zero add mul r (map f (quad_points one opp div s3))) (xquad one add mul sub div s3) = map f (quad_nodes zero one opp).
  Proof using Ff Hs H2 H3.
    intros (a & b & c & d & H). unfold quad_points, quad_nodes, xquad, scale, quarter, two. cbn [map dots]. rewrite !H, !gauss_3.
    repeat (apply cons_eq; [field [Hs]; nz|]). reflexivity.
  Qed.
  Lemma tri_nodes_ok (f : F * F * F -> F) : linear3 add mul f -> map (fun r => dots zero add mul r (map f (tri_points one add mul div))) (xtri one add opp div) = map f (tri_nodes zero one add div).
  Proof using Ff H2 H3.
    intros (a & b & c & H). unfold tri_points, tri_nodes, xtri, five, three, two, int6, int3, int2. cbn [map dots]. rewrite !H.
    repeat (apply cons_eq; [field; nz|]). reflexivity.
  Qed.
  Lemma beam_nodes_ok (f : F -> F) : linear1 add mul f -> map (fun r => dots zero add mul r (map f (beam_points one opp div s3))) (xbm3 one add mul sub div s3) = map f (beam_nodes zero one opp).
  Proof using Ff Hs H2 H3.
    intros (a & b & H). unfold beam_points, beam_nodes, xbm3, scale, half, two. cbn [map dots]. rewrite !H, !gauss_3.
    repeat (apply cons_eq; [field [Hs]; nz|]). reflexivity.
  Qed.

  (** *** Records and arrays *)
  Notation dots := (dots zero add mul).
  Definition vec {P} (h : nat -> P -> F) (n : nat) (p : P) : list F := map (fun c => h c p) (seq 0 n).
  Definition rec2 {P} (pts : list P) (lo up : nat -> P -> F) : list F := flat_map (vec lo 5) pts ++ flat_map (vec up 5) pts.
  Lemma vec_length {P} (h : nat -> P -> F) n p : length (vec h n p) = n.
  Proof using. unfold vec. now rewrite map_length, seq_length. Qed.
  Lemma flat_vec {P} (h : nat -> P -> F) n pts : flat_map (vec h n) pts = concat (map (vec h n) pts).
  Proof using. apply flat_map_concat_map. Qed.
  Lemma flat_vec_length {P} (h : nat -> P -> F) n pts : length (flat_map (vec h n) pts) = (length pts * n)%nat.
  Proof using. induction pts as [|p pts IH]; [reflexivity|]. cbn [flat_map length]. rewrite app_length, IH, vec_length. lia. Qed.
  Lemma chunk_vec {P} (h : nat -> P -> F) pts : chunks 5 (flat_map (vec h 5) pts) = map (vec h 5) pts.
  Proof using. rewrite flat_vec. apply chunks_concat; [lia|]. apply Forall_forall. intros l Hl. apply in_map_iff in Hl as (p & <- & _). apply vec_length. Qed.
  Lemma shape_rec2 {P} (pts : list P) lo up : pts <> [] -> shape3 2 (length pts) 5 (rec2 pts lo up) = Ok [map (vec lo 5) pts; map (vec up 5) pts].
  Proof using.
    intro Hp. unfold shape3, rec2. rewrite app_length, !flat_vec_length.
    replace (Nat.eqb _ _) with true by (symmetry; apply Nat.eqb_eq; lia).
    rewrite <- (app_nil_r (_ ++ _)), <- app_assoc. change (flat_map (vec lo 5) pts ++ flat_map (vec up 5) pts ++ []) with (concat [flat_map (vec lo 5) pts; flat_map (vec up 5) pts]).
    rewrite chunks_concat; [|destruct pts; [congruence|cbn [length]; lia]|repeat constructor; now rewrite flat_vec_length]. cbn [map]. now rewrite !chunk_vec.
  Qed.
  Lemma nth_vec {P} (h : nat -> P -> F) n p j : (j < n)%nat -> nth j (vec h n p) 0 = h j p.
  Proof using. intro Hj. unfold vec. rewrite nth_indep with (d' := (fun c => h c p) 0%nat) by (now rewrite map_length, seq_length). rewrite (map_nth (fun c => h c p)). now rewrite seq_nth. Qed.
  Lemma rowdot_vec {P} (h : nat -> P -> F) n r pts : rowdot zero add mul n r (map (vec h n) pts) = map (fun c => dots r (map (h c) pts)) (seq 0 n).
  Proof using.
    unfold rowdot. apply map_ext_in. intros j Hj. apply in_seq in Hj. f_equal. unfold column. rewrite map_map. apply map_ext. intro p. apply nth_vec. lia.
  Qed.
  (** m.T and back *)
  Lemma dot_transp k (x rows : list (list F)) : Forall (fun v => length v = k) rows ->
    transp zero (length rows) (dot2 zero add mul (length rows) x (transp zero k rows)) = map (fun v => map (fun r => dots r v) x) rows.
  Proof using.
    intro HF. unfold transp at 1.
    assert (G : forall j v, nth_error rows j = Some v -> column zero (dot2 zero add mul (length rows) x (transp zero k rows)) j = map (fun r => dots r v) x).
    { intros j v Hj. unfold column, dot2. rewrite map_map. apply map_ext. intro r. assert (Hl : (j < length rows)%nat) by (apply nth_error_Some; congruence).
      unfold rowdot. rewrite nth_indep with (d' := (fun j => dots r (column zero (transp zero k rows) j)) 0%nat) by (now rewrite map_length, seq_length).
      rewrite (map_nth (fun j => dots r (column zero (transp zero k rows) j))), seq_nth by exact Hl. f_equal. unfold transp, column. rewrite map_map. cbn [Nat.add].
      assert (Hv : length v = k) by (rewrite Forall_forall in HF; apply HF; apply nth_error_In in Hj; exact Hj).
      transitivity (map (fun c => nth c v 0) (seq 0 k)).
      - apply map_ext_in. intros c _. rewrite nth_indep with (d' := (fun r => nth c r 0) v) by (now rewrite map_length). rewrite (map_nth (fun r => nth c r 0)). now rewrite (nth_error_nth _ _ _ Hj).
      - subst k. clear. induction v as [|y v IH]; [reflexivity|]. cbn [length seq map]. f_equal. rewrite <- seq_shift, map_map. exact IH. }
    clear HF. revert G. generalize (column zero (dot2 zero add mul (length rows) x (transp zero k rows))). intros g G. clear -G.
    revert g G. induction rows as [|v rows IH]; intros g G; [reflexivity|]. cbn [length seq map]. f_equal; [now apply G|]. rewrite <- seq_shift, map_map. apply IH. intros j w Hj. now apply (G (S j)).
  Qed.
  Lemma roll_two {A} (l u : list A) (d : A) : length u = length l -> map (fun j => map (fun m => nth j m d) [l; u]) (seq 0 (length l)) = zip_with (fun a b => [a; b]) l u.
  Proof using.
    revert u. induction l as [|a l IH]; intros [|b u] H; try discriminate; [reflexivity|]. unfold zip_with. cbn [length seq map combine fst snd nth]. f_equal.
    rewrite <- seq_shift, map_map. cbn [nth]. injection H as H. exact (IH u H).
  Qed.
  Lemma zip_map {A B C P} (f : A -> B -> C) (g : P -> A) (h : P -> B) pts : zip_with f (map g pts) (map h pts) = map (fun p => f (g p) (h p)) pts.
  Proof using. unfold zip_with. induction pts as [|p pts IH]; [reflexivity|]. cbn [map combine fst snd]. now rewrite IH. Qed.

  (** *** Thick shells: what is returned, in terms of the stored values *)
  Notation lower := (to_lower one add mul sub opp div s3).
  Notation upper := (to_upper one add mul sub div s3).
  Definition sl {P} (lo up : nat -> P -> F) (c : nat) (p : P) : F := if Nat.ltb c 3 then lower (lo c p) (up c p) else lo c p.
  Definition su {P} (lo up : nat -> P -> F) (c : nat) (p : P) : F := if Nat.ltb c 3 then upper (lo c p) (up c p) else up c p.
  Lemma surfaces_ok {P} (pts : list P) lo up : to_surfaces one add mul sub opp div s3 [map (vec lo 5) pts; map (vec up 5) pts] = [map (vec (sl lo up) 5) pts; map (vec (su lo up) 5) pts].
  Proof using. unfold to_surfaces. rewrite !zip_map. reflexivity. Qed.
  Definition ns {P} (h : nat -> P -> F) (c : nat) (p : P) : F := if Nat.ltb c 3 then h c p else 0.
  Lemma no_shear_ok {P} (pts : list P) h h' : no_shear zero [map (vec h 5) pts; map (vec h' 5) pts] = [map (vec (ns h) 5) pts; map (vec (ns h') 5) pts].
  Proof using. unfold no_shear. cbn [map]. rewrite !map_map. reflexivity. Qed.
  (** membrane, bending, shear *)
  Definition dc {P} (l u : nat -> P -> F) (c : nat) (p : P) : F :=
    if Nat.ltb c 3 then (l c p + u c p) / (1 + 1) else if Nat.ltb c 6 then (u (c - 3)%nat p - l (c - 3)%nat p) / (1 + 1) else (1 + 1 + 1) / (1 + 1) * l (c - 3)%nat p.
  Lemma decompose_ok {P} (pts : list P) l u : decompose_thick zero one add mul opp div (length pts) [map (vec l 5) pts; map (vec u 5) pts] = map (vec (dc l u) 8) pts.
  Proof using Ff H2.
    unfold decompose_thick, roll1. rewrite <- (map_length (vec l 5) pts) at 3. rewrite roll_two by (now rewrite !map_length). rewrite zip_map, map_map. cbn [concat].
    replace (length pts) with (length (map (fun p => vec l 5 p ++ vec u 5 p ++ []) pts)) by apply map_length.
    rewrite dot_transp. 2:{ apply Forall_forall. intros v Hv. apply in_map_iff in Hv as (p & <- & _). rewrite !app_length, !vec_length. reflexivity. }
    rewrite map_map. apply map_ext. intro p. unfold vec, x_decomp_thick, dc, half, three, two. cbn [seq map app Elem.dots Nat.ltb Nat.leb Nat.sub].
    repeat (apply cons_eq; [field; nz|]). reflexivity.
  Qed.
  Lemma thick_general {P} x (pts : list P) lo up : pts <> [] ->
    process_thick zero one add mul sub opp div s3 (length pts) x "generalstress" "nodes" (rec2 pts lo up) =
    Ok (arr3 2 5 (map (fun r => map (fun h => map (fun c => dots r (map (h c) pts)) (seq 0 5)) [ns (sl lo up); ns (su lo up)]) x)).
  Proof using.
    intro Hp. unfold process_thick. rewrite (shape_rec2 pts lo up Hp). cbn [rbind String.eqb Ascii.eqb Bool.eqb]. rewrite surfaces_ok, no_shear_ok. do 2 f_equal. unfold dot3. apply map_ext. intro r. cbn [map]. now rewrite !rowdot_vec.
  Qed.
  Lemma thick_decomposed {P} x (pts : list P) lo up : pts <> [] ->
    process_thick zero one add mul sub opp div s3 (length pts) x "decomposedstress" "nodes" (rec2 pts lo up) =
    Ok (arr2 8 (map (fun r => map (fun c => dots r (map (dc (sl lo up) (su lo up) c) pts)) (seq 0 8)) x)).
  Proof using Ff H2.
    intro Hp. unfold process_thick. rewrite (shape_rec2 pts lo up Hp). cbn [rbind String.eqb Ascii.eqb Bool.eqb]. rewrite surfaces_ok, decompose_ok. do 2 f_equal. unfold dot2. apply map_ext. intro r. now rewrite rowdot_vec.
  Qed.
  Lemma thick_points {P} x (pts : list P) lo up restype : pts <> [] ->
    process_thick zero one add mul sub opp div s3 (length pts) x restype "respts" (rec2 pts lo up) = Ok (arr3 2 5 (map (fun p => [vec lo 5 p; vec up 5 p]) pts)).
  Proof using.
    intro Hp. unfold process_thick. rewrite (shape_rec2 pts lo up Hp). cbn [rbind String.eqb Ascii.eqb Bool.eqb]. do 2 f_equal. unfold roll1.
    rewrite <- (map_length (vec lo 5) pts) at 1. rewrite roll_two by (now rewrite !map_length). exact (zip_map (fun a b => [a; b]) (vec lo 5) (vec up 5) pts).
  Qed.

  (** *** Fields *)
  Lemma nodes_all {P} x (pts nodes : list P) (cs : list nat) (g : nat -> P -> F) : length x = length nodes ->
    (forall c, In c cs -> map (fun r => dots r (map (g c) pts)) x = map (g c) nodes) ->
    map (fun r => map (fun c => dots r (map (g c) pts)) cs) x = map (fun p => map (fun c => g c p) cs) nodes.
  Proof using.
    revert nodes. induction x as [|r x IH]; intros [|p nodes] HL H; try discriminate; [reflexivity|]. cbn [map]. f_equal.
    - apply map_ext_in. intros c Hc. specialize (H c Hc). cbn [map] in H. congruence.
    - apply IH; [now injection HL|]. intros c Hc. specialize (H c Hc). cbn [map] in H. congruence.
  Qed.
  Lemma two_rows {P} (x : list (list F)) (nodes : list P) (cs : list nat) (A B : nat -> list F -> F) (a b : nat -> P -> F) : length x = length nodes ->
    (forall c, In c cs -> map (A c) x = map (a c) nodes) -> (forall c, In c cs -> map (B c) x = map (b c) nodes) ->
    map (fun r => [map (fun c => A c r) cs; map (fun c => B c r) cs]) x = map (fun p => [map (fun c => a c p) cs; map (fun c => b c p) cs]) nodes.
  Proof using.
    revert nodes. induction x as [|r x IH]; intros [|p nodes] HL HA HB; try discriminate; [reflexivity|].
    cbn [map] in *. apply cons_eq.
    - apply cons_eq; [|apply cons_eq; [|reflexivity]]; apply map_ext_in; intros c Hc; [specialize (HA c Hc)|specialize (HB c Hc)]; congruence.
    - apply IH; [now injection HL|intros c Hc; specialize (HA c Hc); congruence|intros c Hc; specialize (HB c Hc); congruence].
  Qed.
  Section Thick.
    Context {P : Type}.
    Variables (lin : (P -> F) -> Prop) (x : list (list F)) (pts nodes : list P).
    Hypothesis Hpts : pts <> [].
    Hypothesis Hlen : length x = length nodes.
    Hypothesis Hex : forall f, lin f -> map (fun r => dots r (map f pts)) x = map f nodes.
    Hypothesis Hcomb : forall f g h s t, lin f -> lin g -> (forall p, h p = s * f p + t * g p) -> lin h.
    Variable f : nat -> P -> F -> F.
    Hypothesis Hf : forall c, (c < 5)%nat -> through add mul lin (f c).
    Let lo c p := f c p (- gauss).
    Let up c p := f c p gauss.
    Lemma record_rec2 : thick_record one opp div s3 pts f = rec2 pts lo up.
    Proof using. unfold thick_record, rec2. cbn [flat_map]. now rewrite app_nil_r. Qed.
    Lemma lin_at c z : (c < 5)%nat -> lin (fun p => f c p z).
    Proof using Ff Hcomb Hf. intro Hc. destruct (Hf c Hc) as (m & b & Hm & Hb & H). apply (Hcomb m b _ 1 z Hm Hb). intro p. rewrite H. ring. Qed.
    Lemma sl_ok c p : (c < 3)%nat -> sl lo up c p = f c p (- (1)).
    Proof using Ff H2 H3 Hs Hf.
      intro Hc. unfold sl. replace (Nat.ltb c 3) with true by (symmetry; now apply Nat.ltb_lt). destruct (Hf c ltac:(clear -Hc; lia)) as (m & b & _ & _ & H). unfold lo, up. rewrite !H. apply to_lower_ok.
    Qed.
    Lemma su_ok c p : (c < 3)%nat -> su lo up c p = f c p 1.
    Proof using Ff H2 H3 Hs Hf.
      intro Hc. unfold su. replace (Nat.ltb c 3) with true by (symmetry; now apply Nat.ltb_lt). destruct (Hf c ltac:(clear -Hc; lia)) as (m & b & _ & _ & H). unfold lo, up. rewrite !H. apply to_upper_ok.
    Qed.
    Definition or0 (c : nat) (y : F) : F := if Nat.ltb c 3 then y else 0.
    Lemma thick_general_field : process_thick zero one add mul sub opp div s3 (length pts) x "generalstress" "nodes" (thick_record one opp div s3 pts f) =
      Ok (arr3 2 5 (map (fun p => map (fun z => map (fun c => or0 c (f c p z)) (seq 0 5)) [- (1); 1]) nodes)).
    Proof using Ff H2 H3 Hs Hpts Hlen Hex Hcomb Hf.
      rewrite record_rec2, thick_general by exact Hpts. do 2 f_equal.
      assert (G : forall h z, (forall c p, (c < 3)%nat -> h c p = f c p z) -> forall c, In c (seq 0 5) -> map (fun r => dots r (map (ns h c) pts)) x = map (fun p => or0 c (f c p z)) nodes).
      { intros h z Hh c Hc. apply in_seq in Hc. transitivity (map (ns h c) nodes).
        - apply Hex. unfold ns. destruct (Nat.ltb_spec c 3) as [L|L].
          + apply (Hcomb (fun p => f c p z) (fun p => f c p z) _ 1 0); try (apply lin_at; lia). intro p. rewrite (Hh c p L). ring.
          + apply (Hcomb (fun p => f c p z) (fun p => f c p z) _ 0 0); try (apply lin_at; lia). intro p. ring.
        - apply map_ext. intro p. unfold ns, or0. destruct (Nat.ltb_spec c 3) as [L|L]; [now apply Hh|reflexivity]. }
      assert (GL := G _ _ sl_ok). assert (GU := G _ _ su_ok). clear G. cbn [map].
      apply (two_rows x nodes (seq 0 5) (fun c r => dots r (map (ns (sl lo up) c) pts)) (fun c r => dots r (map (ns (su lo up) c) pts))
        (fun c p => or0 c (f c p (- (1)))) (fun c p => or0 c (f c p 1)) Hlen GL GU).
    Qed.
    Definition parts (p : P) (c : nat) : F :=
      if Nat.ltb c 3 then f c p 0 else if Nat.ltb c 6 then f (c - 3)%nat p 1 - f (c - 3)%nat p 0 else (1 + 1 + 1) / (1 + 1) * f (c - 3)%nat p (- gauss).
    Lemma dc_ok c p : (c < 8)%nat -> dc (sl lo up) (su lo up) c p = parts p c.
    Proof using Ff H2 H3 Hs Hf.
      intro Hc. unfold dc, parts. destruct (Nat.ltb_spec c 3) as [L|L].
      - rewrite sl_ok, su_ok by exact L. destruct (Hf c ltac:(clear -L; lia)) as (m & b & _ & _ & H). rewrite !H. field. nz.
      - destruct (Nat.ltb_spec c 6) as [L'|L'].
        + rewrite sl_ok, su_ok by (clear -L'; lia). destruct (Hf (c - 3)%nat ltac:(clear -L'; lia)) as (m & b & _ & _ & H). rewrite !H. field. nz.
        + unfold sl. replace (Nat.ltb (c - 3) 3) with false by (symmetry; apply Nat.ltb_ge; clear -L'; lia). reflexivity.
    Qed.
    Lemma thick_decomposed_field : process_thick zero one add mul sub opp div s3 (length pts) x "decomposedstress" "nodes" (thick_record one opp div s3 pts f) =
      Ok (arr2 8 (map (fun p => map (parts p) (seq 0 8)) nodes)).
    Proof using Ff H2 H3 Hs Hpts Hlen Hex Hcomb Hf.
      rewrite record_rec2, thick_decomposed by exact Hpts. do 2 f_equal.
      rewrite (nodes_all x pts nodes (seq 0 8) (dc (sl lo up) (su lo up)) Hlen).
      - apply map_ext. intro p. apply map_ext_in. intros c Hc. apply in_seq in Hc. apply dc_ok. lia.
      - intros c Hc. apply in_seq in Hc. apply Hex.
        assert (G : lin (fun p => parts p c)).
        { unfold parts. destruct (Nat.ltb_spec c 3); [apply lin_at; lia|]. destruct (Nat.ltb_spec c 6).
          - apply (Hcomb (fun p => f (c - 3)%nat p 1) (fun p => f (c - 3)%nat p 0) _ 1 (- (1))); try (apply lin_at; lia). intro p. ring.
          - apply (Hcomb (fun p => f (c - 3)%nat p (- gauss)) (fun p => f (c - 3)%nat p 0) _ ((1 + 1 + 1) / (1 + 1)) 0); try (apply lin_at; lia). intro p. ring. }
        apply (Hcomb _ _ _ 1 0 G G). intro p. rewrite dc_ok by lia. ring.
    Qed.
  End Thick.
  Lemma bilinear_comb f g h s t : bilinear add mul f -> bilinear add mul g -> (forall p, h p = s * f p + t * g p) -> bilinear add mul h.
  Proof using Ff.
    intros (a & b & c & d & Ef) (a' & b' & c' & d' & Eg) E. exists (s * a + t * a'), (s * b + t * b'), (s * c + t * c'), (s * d + t * d'). intros x y. rewrite E, Ef, Eg. ring.
  Qed.
  Lemma linear3_comb f g h s t : linear3 add mul f -> linear3 add mul g -> (forall p, h p = s * f p + t * g p) -> linear3 add mul h.
  Proof using Ff.
    intros (a & b & c & Ef) (a' & b' & c' & Eg) E. exists (s * a + t * a'), (s * b + t * b'), (s * c + t * c'). intros x y z. rewrite E, Ef, Eg. ring.
  Qed.
  Theorem quad_general f : (forall c, (c < 5)%nat -> through add mul (bilinear add mul) (f c)) ->
    process 28 "generalstress" "nodes" (thick_record one opp div s3 (quad_points one opp div s3) f) =
    Ok (mkNd [8; 2; 5]%nat (flat_map (fun p => flat_map (fun z => [f 0%nat p z; f 1%nat p z; f 2%nat p z; 0; 0]) [- (1); 1]) (quad_nodes zero one opp))).
  Proof using Ff H2 H3 Hs.
    intro Hf. unfold Elem.process. cbn [Z.eqb Pos.eqb]. change 4%nat with (length (quad_points one opp div s3)).
    rewrite (thick_general_field (bilinear add mul) (xquad one add mul sub div s3) (quad_points one opp div s3) (quad_nodes zero one opp)); [reflexivity|discriminate|reflexivity|exact quad_nodes_ok|exact bilinear_comb|exact Hf].
  Qed.
  Theorem tri_general f : (forall c, (c < 5)%nat -> through add mul (linear3 add mul) (f c)) ->
    process 26 "generalstress" "nodes" (thick_record one opp div s3 (tri_points one add mul div) f) =
    Ok (mkNd [6; 2; 5]%nat (flat_map (fun p => flat_map (fun z => [f 0%nat p z; f 1%nat p z; f 2%nat p z; 0; 0]) [- (1); 1]) (tri_nodes zero one add div))).
  Proof using Ff H2 H3 Hs.
    intro Hf. unfold Elem.process. cbn [Z.eqb Pos.eqb]. change 3%nat with (length (tri_points one add mul div)).
    rewrite (thick_general_field (linear3 add mul) (xtri one add opp div) (tri_points one add mul div) (tri_nodes zero one add div)); [reflexivity|discriminate|reflexivity|exact tri_nodes_ok|exact linear3_comb|exact Hf].
  Qed.
  Theorem quad_decomposed f : (forall c, (c < 5)%nat -> through add mul (bilinear add mul) (f c)) ->
    process 28 "decomposedstress" "nodes" (thick_record one opp div s3 (quad_points one opp div s3) f) =
    Ok (mkNd [8; 8]%nat (flat_map (decomposed zero one add mul sub opp div s3 f) (quad_nodes zero one opp))).
  Proof using Ff H2 H3 Hs.
    intro Hf. unfold Elem.process. cbn [Z.eqb Pos.eqb]. change 4%nat with (length (quad_points one opp div s3)) at 1.
    rewrite (thick_decomposed_field (bilinear add mul) (xquad one add mul sub div s3) (quad_points one opp div s3) (quad_nodes zero one opp)); [reflexivity|discriminate|reflexivity|exact quad_nodes_ok|exact bilinear_comb|exact Hf].
  Qed.
  Theorem tri_decomposed f : (forall c, (c < 5)%nat -> through add mul (linear3 add mul) (f c)) ->
    process 26 "decomposedstress" "nodes" (thick_record one opp div s3 (tri_points one add mul div) f) =
    Ok (mkNd [6; 8]%nat (flat_map (decomposed zero one add mul sub opp div s3 f) (tri_nodes zero one add div))).
  Proof using Ff H2 H3 Hs.
    intro Hf. unfold Elem.process. cbn [Z.eqb Pos.eqb]. change 3%nat with (length (tri_points one add mul div)) at 1.
    rewrite (thick_decomposed_field (linear3 add mul) (xtri one add opp div) (tri_points one add mul div) (tri_nodes zero one add div)); [reflexivity|discriminate|reflexivity|exact tri_nodes_ok|exact linear3_comb|exact Hf].
  Qed.
  Theorem quad_respts f restype :
    process 28 restype "respts" (thick_record one opp div s3 (quad_points one opp div s3) f) =
    Ok (mkNd [4; 2; 5]%nat (flat_map (fun p => flat_map (fun z => map (fun c => f c p z) (seq 0 5)) [- gauss; gauss]) (quad_points one opp div s3))).
  Proof using. reflexivity. Qed.
  Theorem tri_respts f restype :
    process 26 restype "respts" (thick_record one opp div s3 (tri_points one add mul div) f) =
    Ok (mkNd [3; 2; 5]%nat (flat_map (fun p => flat_map (fun z => map (fun c => f c p z) (seq 0 5)) [- gauss; gauss]) (tri_points one add mul div))).
  Proof using. reflexivity. Qed.
  Theorem beam3_nodes (f : nat -> F -> F) restype : (forall c, (c < 6)%nat -> linear1 add mul (f c)) ->
    process 23 restype "nodes" (flat_map (fun p => map (fun c => f c p) (seq 0 6)) (beam_points one opp div s3)) =
    Ok (mkNd [3; 6]%nat (flat_map (fun p => map (fun c => f c p) (seq 0 6)) (beam_nodes zero one opp))).
  Proof using Ff H2 H3 Hs.
    intro Hf. unfold Elem.process. cbn [Z.eqb Pos.eqb]. unfold process_23. replace (shape2 2 6 _) with (Ok (map (vec f 6) (beam_points one opp div s3))) by reflexivity. cbn [rbind String.eqb Ascii.eqb Bool.eqb].
    unfold arr2, dot2. rewrite (map_ext _ _ (fun r => rowdot_vec f 6 r (beam_points one opp div s3))).
    rewrite (nodes_all (xbm3 one add mul sub div s3) (beam_points one opp div s3) (beam_nodes zero one opp) (seq 0 6) f); [|reflexivity|intros c Hc; apply in_seq in Hc; apply beam_nodes_ok, Hf; lia]. reflexivity.
  Qed.
  Theorem beam2_nodes (a b c : list F) restype pos : length a = 6%nat -> length b = 6%nat -> length c = 6%nat ->
    process 15 restype pos (a ++ b ++ c) = Ok (mkNd [2; 6]%nat (a ++ c)).
  Proof using.
    intros Ha Hb Hc. unfold Elem.process. cbn [Z.eqb Pos.eqb]. unfold process_15, shape2. rewrite !app_length, Ha, Hb, Hc. cbn [Nat.add Nat.mul Nat.eqb rbind].
    replace (chunks 6 (a ++ b ++ c)) with [a; b; c]. { unfold rows_at, arr2. cbn. now rewrite app_nil_r. }
    rewrite <- (app_nil_r c) at 2. change (a ++ b ++ c ++ []) with (concat [a; b; c]). symmetry. apply chunks_concat; [lia|]. repeat constructor; assumption.
  Qed.
  Theorem quad4_nodes (f : option nat -> bool -> nat -> F) pos :
    process 24 "generalstress" pos (thin_record quad_place f) =
    Ok (mkNd [4; 2; 3]%nat (flat_map (fun n => flat_map (fun u => map (f (Some n) u) (seq 0 3)) [false; true]) [0; 1; 2; 3]%nat)).
  Proof using. reflexivity. Qed.
  Theorem tri3_nodes (f : option nat -> bool -> nat -> F) pos :
    process 25 "generalstress" pos (thin_record tri_place f) =
    Ok (mkNd [3; 2; 3]%nat (flat_map (fun n => flat_map (fun u => map (f (Some n) u) (seq 0 3)) [false; true]) [0; 1; 2]%nat)).
  Proof using. reflexivity. Qed.

  (** *** Decomposed stress *)
  Lemma dots_comb {P} (A B C : P -> F) k pts : (forall p, A p = B p + k * C p) -> forall r, dots r (map A pts) = dots r (map B pts) + k * dots r (map C pts).
  Proof using Ff.
    intro H. induction pts as [|p pts IH]; intros [|y r]; cbn [map Elem.dots]; try ring. rewrite H, IH. ring.
  Qed.
  Notation recombine := (recombine add sub).
  Lemma thick_entries (x : list (list F)) (lo up du : nat -> list F -> F) i c : (i < length x)%nat -> (length x <= 8)%nat -> (c < 3)%nat ->
    (forall r, lo c r = du c r - du (3 + c)%nat r) -> (forall r, up c r = du c r + du (3 + c)%nat r) ->
    recombine (arr3 2 5 (map (fun r => [map (fun c => lo c r) (seq 0 5); map (fun c => up c r) (seq 0 5)]) x)) (arr2 8 (map (fun r => map (fun c => du c r) (seq 0 8)) x)) i c.
  Proof using.
    intros Hi Hx Hc HL HU. assert (exists r, nth_error x i = Some r) as [r Hr] by (destruct (nth_error x i) eqn:E; [eauto|apply nth_error_None in E; lia]).
    exists (du c r), (du (3 + c)%nat r). rewrite <- HL, <- HU. clear HL HU Hx.
    assert (G2 : forall k, (k < 8)%nat -> at_ (arr2 8 (map (fun r => map (fun c => du c r) (seq 0 8)) x)) [i; k] = Some (du k r)).
    { intros k Hk. unfold at_, arr2. cbn [n_shape n_flat inside ravel size fold_right]. rewrite map_length, (proj2 (Nat.ltb_lt _ _) Hi), (proj2 (Nat.ltb_lt _ _) Hk). cbn [andb].
      rewrite <- flat_map_concat_map. replace (i * (8 * 1) + (k * 1 + 0))%nat with (i * 8 + k)%nat by lia.
      rewrite (nth_blocks _ 8 x i k r); [|intros a _; reflexivity|exact Hr|exact Hk]. do 8 (destruct k as [|k]; [reflexivity|]). lia. }
    assert (G3 : forall s k, (s < 2)%nat -> (k < 5)%nat -> at_ (arr3 2 5 (map (fun r => [map (fun c => lo c r) (seq 0 5); map (fun c => up c r) (seq 0 5)]) x)) [i; s; k] = Some (if Nat.eqb s 0 then lo k r else up k r)).
    { intros s k Hs' Hk. unfold at_, arr3. cbn [n_shape n_flat inside ravel size fold_right]. rewrite map_length, (proj2 (Nat.ltb_lt _ _) Hi), (proj2 (Nat.ltb_lt _ _) Hs'), (proj2 (Nat.ltb_lt _ _) Hk). cbn [andb].
      rewrite map_map, <- flat_map_concat_map. replace (i * (2 * (5 * 1)) + (s * (5 * 1) + (k * 1 + 0)))%nat with (i * 10 + (s * 5 + k))%nat by lia.
      rewrite (nth_blocks _ 10 x i (s * 5 + k) r); [|intros a _; reflexivity|exact Hr|lia]. destruct s as [|[|s]]; [| |lia]; do 5 (destruct k as [|k]; [reflexivity|]); lia. }
    rewrite !G2, !G3 by lia. repeat split.
  Qed.
  Lemma thick_recombine {P} x (pts : list P) lo up : pts <> [] -> (length x <= 8)%nat -> exists g q,
    process_thick zero one add mul sub opp div s3 (length pts) x "generalstress" "nodes" (rec2 pts lo up) = Ok g /\
    process_thick zero one add mul sub opp div s3 (length pts) x "decomposedstress" "nodes" (rec2 pts lo up) = Ok q /\
    n_shape g = [length x; 2; 5]%nat /\ n_shape q = [length x; 8]%nat /\
    forall i c, (i < length x)%nat -> (c < 3)%nat -> recombine g q i c.
  Proof using Ff H2.
    intros Hp Hx. eexists _, _. split; [now apply thick_general|]. split; [now apply thick_decomposed|]. unfold arr2, arr3. cbn [n_shape]. rewrite !map_length. split; [reflexivity|]. split; [reflexivity|].
    intros i c Hi Hc. pose proof (thick_entries x (fun c r => dots r (map (ns (sl lo up) c) pts)) (fun c r => dots r (map (ns (su lo up) c) pts)) (fun c r => dots r (map (dc (sl lo up) (su lo up) c) pts)) i c Hi Hx Hc) as G.
    assert (L3 : Nat.ltb c 3 = true) by (now apply Nat.ltb_lt). assert (L3' : Nat.ltb (3 + c) 3 = false) by (apply Nat.ltb_ge; lia). assert (L6 : Nat.ltb (3 + c) 6 = true) by (apply Nat.ltb_lt; lia).
    unfold arr2, arr3 in G. rewrite !map_length in G. apply G; intro r.
    - rewrite (dots_comb (ns (sl lo up) c) (dc (sl lo up) (su lo up) c) (dc (sl lo up) (su lo up) (3 + c)) (- (1)) pts); [ring|].
      intro p. unfold ns, dc. rewrite L3, L3', L6. replace (3 + c - 3)%nat with c by lia. field. nz.
    - rewrite (dots_comb (ns (su lo up) c) (dc (sl lo up) (su lo up) c) (dc (sl lo up) (su lo up) (3 + c)) 1 pts); [ring|].
      intro p. unfold ns, dc. rewrite L3, L3', L6. replace (3 + c - 3)%nat with c by lia. field. nz.
  Qed.
  Ltac listed d H := repeat (destruct d as [|? d]; [discriminate H|]); destruct d; [|discriminate H].
  Lemma listed_rec2 n d : length d = (2 * (n * 5))%nat -> d = rec2 (seq 0 n) (fun c j => nth (5 * j + c) d 0) (fun c j => nth (5 * (n + j) + c) d 0).
  Proof using.
    intro H. unfold rec2.
    assert (G : forall k m, (k * 5 + m * 5 <= length d)%nat -> flat_map (vec (fun c j => nth (5 * (k + j) + c) d 0) 5) (seq 0 m) = firstn (m * 5) (skipn (k * 5) d)).
    { intros k m. revert k. induction m as [|m IH]; intros k Hk; [reflexivity|]. cbn [seq flat_map]. rewrite <- seq_shift, flat_map_concat_map, map_map, <- flat_map_concat_map.
      replace (flat_map (fun j => vec (fun c j => nth (5 * (k + j) + c) d 0) 5 (S j)) (seq 0 m)) with (flat_map (vec (fun c j => nth (5 * (S k + j) + c) d 0) 5) (seq 0 m)).
      2:{ apply flat_map_ext. intro j. unfold vec. apply map_ext. intro c. f_equal. lia. }
      rewrite IH by lia. unfold vec. cbn [seq map].
      replace (S k * 5)%nat with (5 + k * 5)%nat by lia. replace (S m * 5)%nat with (5 + m * 5)%nat by lia. 
      assert (E : forall l : list F, (5 <= length l)%nat -> firstn (5 + m * 5) l = [nth 0 l 0; nth 1 l 0; nth 2 l 0; nth 3 l 0; nth 4 l 0] ++ firstn (m * 5) (skipn 5 l)).
      { intros l Hl. do 5 (destruct l as [|? l]; [cbn in Hl; lia|]). reflexivity. }
      rewrite E by (rewrite skipn_length; lia). rewrite skip_skip.
      assert (N : forall i, nth i (skipn (k * 5) d) 0 = nth (k * 5 + i) d 0).
      { intro i. clear. revert d. generalize (k * 5)%nat as n. induction n as [|n IH]; intro d; [reflexivity|]. destruct d; [destruct i; reflexivity|]. apply IH. }
      rewrite !N. replace (5 * (k + 0))%nat with (k * 5)%nat by lia. reflexivity. }
    pose proof (G 0%nat n ltac:(lia)) as G0. pose proof (G n n ltac:(lia)) as G1. cbn [Nat.add Nat.mul skipn] in G0.
    cbn [Nat.mul Nat.add] in G0 |- *. transitivity (firstn (n * 5) d ++ firstn (n * 5) (skipn (n * 5) d)); [|rewrite <- G0, <- G1; reflexivity].
    rewrite (firstn_all2 (skipn (n * 5) d)) by (rewrite skipn_length; lia). symmetry. apply firstn_skipn.
  Qed.
  Theorem decomposed_recombine t len nn nc nq d : In (t, (len, nn, nc, nq)) shell_sizes -> length d = len -> exists g q,
    process t "generalstress" "nodes" d = Ok g /\ process t "decomposedstress" "nodes" d = Ok q /\
    n_shape g = [nn; 2%nat; nc] /\ n_shape q = [nn; nq] /\
    forall i c, (i < nn)%nat -> (c < 3)%nat -> recombine g q i c.
  Proof using Ff H2.
    intros [E|[E|[E|[E|[]]]]] HL; injection E as <- <- <- <- <-.
    - listed d HL. unfold Elem.process. cbn [Z.eqb Pos.eqb]. unfold process_24, rows_at. cbn [shape2 length Nat.mul Nat.add Nat.eqb rbind idxquad rmap chunks chunks_aux firstn skipn nth_error String.eqb Ascii.eqb Bool.eqb].
      eexists _, _. split; [reflexivity|]. split; [reflexivity|]. split; [reflexivity|]. split; [reflexivity|]. intros i c Hi Hc.
      do 4 (destruct i as [|i]; [do 3 (destruct c as [|c]; [eexists _, _; split; [reflexivity|]; split; [reflexivity|]; split; (cbn; f_equal; unfold half, two; field; nz)|]); lia|]). lia.
    - listed d HL. unfold Elem.process. cbn [Z.eqb Pos.eqb]. unfold process_25, rows_at. cbn [shape2 length Nat.mul Nat.add Nat.eqb rbind idxtri rmap chunks chunks_aux firstn skipn nth_error String.eqb Ascii.eqb Bool.eqb].
      eexists _, _. split; [reflexivity|]. split; [reflexivity|]. split; [reflexivity|]. split; [reflexivity|]. intros i c Hi Hc.
      do 3 (destruct i as [|i]; [do 3 (destruct c as [|c]; [eexists _, _; split; [reflexivity|]; split; [reflexivity|]; split; (cbn; f_equal; unfold half, two; field; nz)|]); lia|]). lia.
    - unfold Elem.process. cbn [Z.eqb Pos.eqb]. rewrite (listed_rec2 3 d HL). apply (thick_recombine (xtri one add opp div) (seq 0 3)); [discriminate|cbn; lia].
    - unfold Elem.process. cbn [Z.eqb Pos.eqb]. rewrite (listed_rec2 4 d HL). apply (thick_recombine (xquad one add mul sub div s3) (seq 0 4)); [discriminate|cbn; lia].
  Qed.
End Numbers.
