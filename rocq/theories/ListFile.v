(** * ListFile: the records of each data set of a converted assembly are counted. *)
From Coq Require Import Sorting.Sorted.
From Verif Require Import Base Flt SeqFile H5 Schema Parsers Data Files SifName Convert SeqSpec StoreSpec ParserSpec LayoutSpec FileSpec DataSpec
  ListFacts StoreProofs SifNameSpec SifNameProofs ConvertSpec AssemblySpec ConvertProofs AssemblyProofs AssemblyOpen AssemblyData Listing ListSpec ListProofs.
Open Scope string_scope.
Open Scope Z_scope.
Open Scope list_scope.

Lemma put_count cols elts c es c' : put_entries cols elts c es c' -> length (c_rows c') = (length (c_rows c) + length es)%nat.
Proof.
  induction 1 as [c|c r c1 rs c2 P _ IH]; cbn [length]; [lia|]. rewrite IH. destruct P. cbn [c_rows]. rewrite app_length. cbn [length]. lia.
Qed.
Lemma arrays_not_tables h w n con q : holds h w n con -> In q (apaths w n) -> forall ds rows, h5_find q h <> Some (Table ds rows).
Proof.
  intros (_ & H2) H ds rows E. assert (L : length (apaths w n) = length (elts_of n)) by (unfold apaths, arr_names, elts_of; now rewrite !map_length).
  revert H2 L H. generalize (c_arrs con). generalize (elts_of n). induction (apaths w n) as [|p ps IH]; intros ts arrs F L I; [destruct I|].
  destruct ts as [|t ts]; [discriminate|]. cbn [combine] in F. inversion F as [|x y l l' X F']; subst. cbn [fst snd] in X. destruct I as [->|I]; [congruence|].
  injection L as L. exact (IH ts l' F' L I).
Qed.
Lemma own_tables h w segs q ds rows : tables h w segs -> In q (all_own w) -> h5_find q h = Some (Table ds rows) ->
  exists m, In m stored_types /\ q = tpath w m /\ entries_of m segs <> [] /\ length rows = length (entries_of m segs).
Proof.
  intros T I E. apply in_flat_map in I as (m & Hm & I). pose proof (T m Hm) as X. destruct (entries_of m segs) as [|e es] eqn:EE.
  - rewrite (X q I) in E. discriminate.
  - destruct X as (con & P & H). destruct I as [<-|I]; [|now destruct (arrays_not_tables h w m con q H I ds rows)]. exists m. split; [exact Hm|]. split; [reflexivity|]. rewrite EE. split; [discriminate|].
    destruct H as (H & _). rewrite H in E. injection E as _ <-. exact (put_count _ _ _ _ _ P).
Qed.
(** A table of the group for each type of record found, with as many rows as there
    are records. *)
Definition counts (segs : list seg) (n : string) (c : nat) : Prop :=
  exists m, In m stored_types /\ n = lower_s m /\ entries_of m segs <> [] /\ c = length (entries_of m segs).
Lemma group_counts h w segs : tables h w segs -> (forall n ds rows, h5_find (w ++ [n]) h = Some (Table ds rows) -> In (w ++ [n]) (all_own w)) ->
  forall n c, (exists ds rows, h5_find (w ++ [n]) h = Some (Table ds rows) /\ c = length rows) <-> counts segs n c.
Proof.
  intros T O n c. split.
  - intros (ds & rows & E & ->). destruct (own_tables h w segs _ ds rows T (O n ds rows E) E) as (m & M1 & M2 & M3 & M4). exists m. split; [exact M1|]. split; [|now split].
    unfold tpath in M2. apply app_inv_head in M2. now injection M2.
  - intros (m & M1 & -> & M3 & ->). pose proof (T m M1) as X. destruct (entries_of m segs) as [|e es]; [now elim M3|]. destruct X as (con & P & H & _).
    exists (descr_of m), (c_rows con). split; [exact H|]. symmetry. exact (put_count _ _ _ _ _ P).
Qed.
Lemma info_counts h o segs : d_open o = true -> tables h (d_group o) segs ->
  (forall n ds rows, h5_find (d_group o ++ [n]) h = Some (Table ds rows) -> In (d_group o ++ [n]) (all_own (d_group o))) ->
  exists l ls, record_info h o = Ok (joined ls) /\ Forall2 count_line l ls /\ StronglySorted str_lt (map fst l) /\ forall n c, In (n, c) l <-> counts segs n c.
Proof.
  intros D T O. destruct (record_info_ok h o D) as (l & ls & E & F & S & C). exists l, ls. split; [exact E|]. split; [exact F|]. split; [exact S|].
  intros n c. rewrite C. exact (group_counts h _ segs T O n c).
Qed.

Lemma all_own_under w q : In q (all_own w) -> exists m, q = w ++ [m].
Proof.
  intros I. apply in_flat_map in I as (n & _ & [<-|I]); [now exists (lower_s n)|]. apply in_map_iff in I as (m & <- & _). now exists m.
Qed.
(** Nothing but what was read is in the groups of a converted assembly. *)
Lemma assembly_only d top fp letter no ext (usefp : bool) prefix pre k id b segs ps g g' h evs :
  pre = (if usefp then prefix ++ fp else prefix)%string -> upper_letter letter -> assembly d fp letter ext pre k id b segs ps ->
  file_in d top = Some b -> 0 < g_batch g -> convert d top (s2l fp, s2l letter, no, s2l ext) usefp prefix [] g [] = Ok (g', h, evs) ->
  let nm := nm_of pre letter id in
  (forall n ds rows, h5_find ([nm] ++ [n]) h = Some (Table ds rows) -> In ([nm] ++ [n]) (all_own [nm])) /\
  forall p b' n ds rows, In p (lower_places ext ps) -> file_in d (lower_file fp ext p) = Some b' ->
    h5_find (lower_group pre letter id p ++ [n]) h = Some (Table ds rows) -> In (lower_group pre letter id p ++ [n]) (all_own (lower_group pre letter id p)).
Proof.
  intros P U A F G C nm. destruct (convert_assembly d top fp letter no ext usefp prefix pre k id b segs ps g [] P U A F G) as (g2 & h2 & E & _ & T & PR & FR); [intros q _; reflexivity|].
  assert (h2 = h) as -> by (pose proof (eq_trans (eq_sym C) E) as X; now injection X). split.
  - intros n ds rows H. destruct (In_dec (list_eq_dec string_dec) ([nm] ++ [n]) (all_own [nm])) as [I|I]; [exact I|exfalso]. rewrite FR in H; [discriminate| |].
    + intros [X|X]; [discriminate|now apply I].
    + intros p b' Hp Hf [X|X]; [|apply all_own_length in X; rewrite lower_group_sub in X; discriminate].
      destruct (as_lower _ _ _ _ _ _ _ _ _ _ A p b' Hp Hf) as (_ & bs & sg & C1 & C2 & C3). destruct (PR p b' Hp Hf bs sg C1 C2 C3) as (_ & a & rs & ty & lev & L & _). rewrite <- X, H in L. discriminate.
  - intros p b' n ds rows Hp Hf H. destruct (In_dec (list_eq_dec string_dec) (lower_group pre letter id p ++ [n]) (all_own (lower_group pre letter id p))) as [I|I]; [exact I|exfalso].
    rewrite FR in H; [discriminate| |].
    + rewrite lower_group_sub. intros [X|X]; [discriminate|]. apply all_own_length in X. discriminate.
    + intros p2 b2 Hp2 Hf2 [X|X]; [rewrite (lower_group_sub pre letter id p), (lower_group_sub pre letter id p2) in X; discriminate|].
      assert (EQ : lower_group pre letter id p2 = lower_group pre letter id p); [|rewrite EQ in X; now apply I].
      apply all_own_under in X. destruct X as (m & X). now apply app_inj_tail in X as [X _].
Qed.
