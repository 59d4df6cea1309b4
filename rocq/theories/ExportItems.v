(** * ExportItems: the bytes of items and of arrays. *)
From Verif Require Import Base Flt FltProofs RoundProofs NumeralMore DecFacts H5 Schema Data Struc SeqSpec FileSpec StrucSpec StrucRes SaysSpec
  Vtu VtuSpec VtuText VtuProofs Export ExportSpec.
From Coq Require Import ZifyBool.
Open Scope string_scope.
Open Scope Z_scope.
Open Scope list_scope.

(** ** Singles *)
Definition in_single (v : flt) : Prop :=
  match v with FFin _ m e => Z.odd (Zpos m) = true /\ nbits m <= 24 /\ -149 <= e /\ nbits m + e <= 128 | _ => True end.

Lemma round32_in v : canonical v -> in_single (round32 v).
Proof.
  destruct v as [|s|s|s m e]; cbn [canonical]; try (intros; exact I). intro O. pose proof (nbits_pos m) as NP. pose proof (nbits_bound m) as NB.
  unfold round32. destruct (Z_lt_le_dec e (Z.max (nbits m + e - 24) (-149))) as [L|L].
  - rewrite fround_finish by exact L. set (q := Z.max (nbits m + e - 24) (-149)) in *. unfold finish.
    pose proof (pow2_pos (q - e) ltac:(lia)) as P. pose proof (half_even_bounds (Zpos m) (2 ^ (q - e)) P) as HB.
    assert (D : Zpos m / 2 ^ (q - e) < 2 ^ 24).
    { apply Z.div_lt_upper_bound; [exact P|]. rewrite <- Z.pow_add_r by lia. apply Z.lt_le_trans with (2 ^ nbits m); [lia|]. apply Z.pow_le_mono_r; lia. }
    destruct (half_even (Zpos m) (2 ^ (q - e))) as [|p|p] eqn:EH; try exact I. destruct (128 <? nbits p + q) eqn:EM; [exact I|].
    destruct (fmk_fin s p q) as (m' & e' & -> & O' & Hq & HP). cbn [in_single]. pose proof (nbits_mul p m' (e' - q) ltac:(lia) HP) as NM.
    split; [exact O'|]. split; [|lia]. apply nbits_le. pose proof (pow2_pos (e' - q) ltac:(lia)) as P'.
    assert (Zpos m' <= Zpos p) by nia. assert (Zpos m' <> 2 ^ 24) by (intro X; rewrite X in O'; discriminate). lia.
  - unfold fround. cbv zeta. replace (_ <=? e) with true by lia. destruct (128 <? nbits m + e) eqn:E; [exact I|]. cbn [in_single]. repeat split; trivial; lia.
Qed.

Lemma le_four w : le_bytes 4 w = [chr (w mod 256); chr (w / 256 mod 256); chr (w / 256 / 256 mod 256); chr (w / 256 / 256 / 256 mod 256)].
Proof. reflexivity. Qed.
Lemma word_single s ex fr v : 0 <= ex < 256 -> 0 <= fr < 8388608 -> single s ex fr v -> single_bytes (le_bytes 4 (sign_bit s + ex * 8388608 + fr)) v.
Proof.
  intros Hex Hfr HS. set (w := sign_bit s + ex * 8388608 + fr). assert (Hw : 0 <= w < 4294967296) by (unfold w, sign_bit; destruct s; lia).
  rewrite le_four. do 4 eexists. exists s, ex, fr. split; [reflexivity|]. split; [exact Hex|]. split; [exact Hfr|]. split; [|exact HS].
  change ((if s then 2147483648 else 0) + ex * 8388608 + fr) with w.
  pose proof (Z.mod_pos_bound w 256 ltac:(lia)). pose proof (Z.mod_pos_bound (w / 256) 256 ltac:(lia)). pose proof (Z.mod_pos_bound (w / 256 / 256) 256 ltac:(lia)).
  pose proof (Z.mod_pos_bound (w / 256 / 256 / 256) 256 ltac:(lia)).
  rewrite !code_chr by lia.
  pose proof (Z.div_mod w 256 ltac:(lia)). pose proof (Z.div_mod (w / 256) 256 ltac:(lia)). pose proof (Z.div_mod (w / 256 / 256) 256 ltac:(lia)).
  pose proof (Z.div_mod (w / 256 / 256 / 256) 256 ltac:(lia)).
  assert (w / 256 / 256 / 256 / 256 = 0) by (rewrite !Z.div_div by lia; apply Z.div_small; lia). lia.
Qed.
Lemma float_item_single v : in_single v -> single_bytes (float_item v) v.
Proof.
  unfold float_item. destruct v as [|s|s|s m e]; cbn [in_single float_word]; intro H.
  - change 2143289344 with (sign_bit false + 255 * 8388608 + 4194304). apply word_single; [lia|lia|]. now constructor.
  - replace (sign_bit s + 255 * 8388608) with (sign_bit s + 255 * 8388608 + 0) by lia. apply word_single; [lia|lia|constructor].
  - replace (sign_bit s) with (sign_bit s + 0 * 8388608 + 0) by lia. apply word_single; [lia|lia|constructor].
  - destruct H as (O & H1 & H2 & H3). pose proof (nbits_pos m) as NP. pose proof (nbits_bound m) as NB. cbv zeta.
    set (q := Z.max (nbits m + e - 24) (-149)). assert (Q : q <= e) by lia. pose proof (pow2_pos (e - q) ltac:(lia)) as P.
    assert (U : Zpos m * 2 ^ (e - q) < 16777216).
    { change 16777216 with (2 ^ 24). apply Z.lt_le_trans with (2 ^ nbits m * 2 ^ (e - q)); [nia|]. rewrite <- Z.pow_add_r by lia. apply Z.pow_le_mono_r; lia. }
    destruct (Zpos m * 2 ^ (e - q) <? 8388608) eqn:E.
    + assert (q = -149) as Eq.
      { destruct (Z.max_spec (nbits m + e - 24) (-149)) as [[_ ?]|[L X]]; [assumption|]. exfalso. fold q in X.
        assert (8388608 <= Zpos m * 2 ^ (e - q)); [|lia]. change 8388608 with (2 ^ 23). replace 23 with ((nbits m - 1) + (e - q)) by lia. rewrite Z.pow_add_r by lia. nia. }
      replace (sign_bit s + Zpos m * 2 ^ (e - q)) with (sign_bit s + 0 * 8388608 + Zpos m * 2 ^ (e - q)) by lia.
      apply word_single; [lia|nia|]. rewrite Eq. replace (e - -149) with (e + 149) in * by lia. rewrite Eq in P, E. replace (e - -149) with (e + 149) in * by lia.
      apply single_sub; trivial; nia.
    + replace (sign_bit s + ((q + 150) * 8388608 + (Zpos m * 2 ^ (e - q) - 8388608))) with (sign_bit s + (q + 150) * 8388608 + (Zpos m * 2 ^ (e - q) - 8388608)) by lia.
      apply word_single; [lia|lia|]. apply single_norm; trivial; try lia. replace (e - (q + 150 - 150)) with (e - q) by lia. lia.
Qed.

(** ** Whole numbers *)
Lemma le_signed n z : 0 <= z -> 2 * z < 256 ^ Z.of_nat n -> signed n (le_bytes n z) z.
Proof. intros H1 H2. split; [apply le_bytes_length|]. exists z. split; [apply le_bytes_unsigned; lia|]. left. lia. Qed.
Lemma le_integers n zs : Forall (fun z => 0 <= z /\ 2 * z < 256 ^ Z.of_nat n) zs -> integers n (concat (concat (map (fun z => [le_bytes n z]) zs))) zs.
Proof.
  induction 1 as [|z zs [H1 H2] _ IH]; [constructor|]. cbn [map concat app]. constructor; [now apply le_signed|exact IH].
Qed.

(** ** Arrays *)
Definition single_cell (c : cell) (v : flt) : Prop := c = CF v /\ in_single v.
Lemma items_singles cs vs : Forall2 single_cell cs vs -> singles (concat (map item cs)) vs.
Proof. induction 1 as [|c v cs vs [-> H] _ IH]; [constructor|]. cbn [map concat item]. constructor; [now apply float_item_single|exact IH]. Qed.
Lemma rows_singles rows vals : Forall2 (Forall2 single_cell) rows vals -> singles (concat (concat (map (map item) rows))) (concat vals).
Proof.
  intro H. assert (G : concat (concat (map (map item) rows)) = concat (map item (concat rows))).
  { clear. induction rows as [|r rows IH]; [reflexivity|]. cbn [map concat]. rewrite !concat_app, map_app, concat_app, IH. reflexivity. }
  rewrite G. apply items_singles. clear G. induction H; cbn [concat]; [constructor|]. now apply Forall2_app.
Qed.
Lemma items_length (w : nat) (f : cell -> bytes) cs : Forall (fun c => length (f c) = w) cs -> Forall (fun i => length i = w) (map f cs).
Proof. intro H. now apply Forall_map. Qed.
Lemma vtk_float32 t : vtk_name "float32" t -> t = "Float32".
Proof. intro H. remember "float32" as n eqn:En. destruct H; cbn in En; try discriminate; injection En as ->; reflexivity. Qed.
Lemma vtk_int32 t : vtk_name "int32" t -> t = "Int32".
Proof. intro H. remember "int32" as n eqn:En. destruct H; cbn in En; try discriminate; injection En as ->; reflexivity. Qed.
Lemma vtk_float64 t : vtk_name "float64" t -> t = "Float64".
Proof. intro H. remember "float64" as n eqn:En. destruct H; cbn in En; try discriminate; injection En as ->; reflexivity. Qed.
Lemma vtk_int64 t : vtk_name "int64" t -> t = "Int64".
Proof. intro H. remember "int64" as n eqn:En. destruct H; cbn in En; try discriminate; injection En as ->; reflexivity. Qed.
Lemma real_array_ok rows vals nc name x : Forall2 (Forall2 single_cell) rows vals -> Forall (fun r => length r = nc) rows ->
  array_xml (mkA "float32" 4 [nc] (map (map item) rows)) name [] x -> real_array name nc vals x.
Proof.
  intros HV HL (t & nc' & header & payload & N & T & E & D & L & U). cbn [a_dtype a_tail a_rows] in *. apply vtk_float32 in N. subst t.
  destruct T as [[T _]|T]; [discriminate|]. injection T as <-. exists (concat (concat (map (map item) rows))). split; [|split].
  - exists header, payload. cbn [numbered app] in E. rewrite ?app_nil_r in E. split; [exact E|]. split; [exact D|]. split; [exact L|]. apply U.
    unfold VtuSpec.shaped. cbn [a_rows a_tail a_isize prod fold_right]. apply Forall_map. clear - HV HL. induction HV as [|r v rows vals H _ IH]; constructor.
    + inversion HL; subst. rewrite map_length. split; [lia|]. apply Forall_map. clear - H. induction H as [|c f cs fs [-> _] _ IH]; constructor; [apply le_bytes_length|exact IH].
    + apply IH. now inversion HL.
  - now apply rows_singles.
  - clear - HV HL. induction HV as [|r v rows vals H _ IH]; constructor; [|apply IH; now inversion HL]. inversion HL; subst. symmetry. clear - H. induction H; cbn; auto.
Qed.
Lemma whole_array_ok w zs name x : Forall (fun z => 0 <= z < 2147483648) zs -> array_xml (of_ints (int_arr w zs)) name [] x -> whole_array name zs x.
Proof.
  intros HZ (t & nc' & header & payload & N & T & E & D & L & U). cbn [a_dtype a_tail a_rows of_ints int_arr i_dtype i_isize i_vals] in *.
  destruct T as [[_ ->]|T]; [|discriminate]. cbn [numbered app] in E. rewrite ?app_nil_r in E.
  exists t, (w_size w), (concat (concat (map (fun z => [le_bytes (w_size w) z]) zs))). split; [|split].
  - destruct w; cbn [w_name w_size] in *; [apply vtk_int32 in N|apply vtk_int64 in N]; subst t; cbn; auto.
  - exists header, payload. split; [exact E|]. split; [exact D|]. split; [exact L|]. apply U. unfold VtuSpec.shaped. cbn [a_rows a_tail a_isize prod fold_right].
    apply Forall_map. clear. induction zs; constructor; auto. split; [reflexivity|]. constructor; [apply le_bytes_length|constructor].
  - apply le_integers. eapply Forall_impl; [|exact HZ]. cbv beta. intros z Hz. destruct w; cbn [w_size]; lia.
Qed.
