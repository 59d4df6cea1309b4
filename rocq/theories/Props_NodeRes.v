(** * Complex node results: C16, for every record. *)
From Verif Require Import Base Flt SeqFile H5 Schema Parsers SeqSpec StoreSpec ParserSpec LayoutSpec FileSpec Sample2 Sample ParseMore.
Open Scope string_scope.
Open Scope Z_scope.
Open Scope list_scope.
Open Scope monad_scope.

Lemma slice_to_len {A} (n : Z) (l : list A) : 0 <= n -> Zlen (slice_to n l) <= n.
Proof. intros H. unfold slice_to, Zlen, clamp. rewrite firstn_length. destruct (n <? 0) eqn:E; lia. Qed.
Lemma read_floats_len n sk s l s' : 0 <= n -> read_floats n sk s = Ok (l, s') -> Zlen l <= n.
Proof.
  intros H E. unfold read_floats in E. destruct (n =? 0) eqn:N; [injection E as <- _; unfold Zlen; cbn [length]; lia|].
  match type of E with match ?m with _ => _ end = _ => destruct m as [[fl s1]|]; [|discriminate] end. injection E as <- _. now apply slice_to_len.
Qed.
(** Whatever was read before and whatever follows: when the result reference of a
    record of node results has complex values, the reader that comes to an end
    stores at most half of the numbers which the record announces. *)
Theorem C16_half_refuted : forall name f0 f1 rest s row ad s' nfield ires icompl,
  b_rvnodres name (f0 :: f1 :: rest) s = Ok ((row, ad), s') -> int_of f0 = Ok nfield -> int_of f1 = Ok ires ->
  dget Z.eqb ires (g_compl (p_g s)) = Some icompl -> 1 <= icompl -> 5 <= nfield ->
  exists stored, ad = [(0%nat, map PF stored)] /\ 2 * Zlen stored <= nfield - 5.
Proof.
  intros name f0 f1 rest s row ad s' nfield ires icompl E H0 H1 HC LC LN. unfold b_rvnodres, rfloats, liftF, liftR, slift, getg, sbind, sret, sraise in E.
  destruct (read_floats 1 0 (p_in s)) as [[r1 i1]|]; [|discriminate]. unfold int_at, pyget in E. cbn [app nth_error rbind] in E. rewrite H0 in E. rewrite H1 in E. cbn [p_g] in E.
  unfold dictZ in E. rewrite HC in E. destruct (icompl + 1 =? 0) eqn:Z0; [lia|]. cbn [p_in] in E.
  destruct (read_floats ((nfield - 5) / (icompl + 1)) 0 i1) as [[res i2]|] eqn:R; [|discriminate]. injection E as _ <- _.
  exists res. split; [reflexivity|]. apply read_floats_len in R; [|apply Z.div_pos; lia].
  assert ((nfield - 5) / (icompl + 1) <= (nfield - 5) / 2) by (apply Z.div_le_compat_l; lia). pose proof (Z.mul_div_le (nfield - 5) 2). lia.
Qed.
Print Assumptions C16_half_refuted.
(** Twelve numbers in the record, six of them stored. *)
Definition n_state : pst := mkP (open_in Fmt (dlines [0; 1; 2; 3; 4; 5; 6; 7; 8; 9; 10; 11; 12])) (add_compl 1 1 glob0) [].
Example C16_half_case : dget Z.eqb 1 (g_compl (p_g n_state)) = Some 1 /\ (exists nf ir a b s', fl [17; 1; 1; 1] = [nf; ir; a; b] /\ int_of nf = Ok 17 /\ int_of ir = Ok 1 /\
  b_rvnodres "RVNODDIS" [nf; ir; a; b] n_state = Ok ((map PF (fl [17; 1; 1; 1; 0]), [(0%nat, map PF (fl [1; 2; 3; 4; 5; 6]))]), s')) /\ 1 <= 1 /\ 5 <= 17.
Proof. split; [vm_compute; reflexivity|]. split; [do 5 eexists; split; [reflexivity|]; repeat (split; [vm_compute; reflexivity|]); vm_compute; reflexivity|lia]. Qed.
