(** * HaltProofs: the functions of Halt give what those of Parsers and Convert give *)
From Verif Require Import Base Flt SeqFile H5 Schema Parsers ListFacts StoreProofs ParserRun ParserTerm ConvertFrame Data Files SifName Convert ConvertSpec ConvertProofs Halt.
Open Scope string_scope.
Open Scope Z_scope.
Open Scope list_scope.
Open Scope monad_scope.

(* ---- the same results ---- *)
Definition says {A} (m : E A) (p : P A) : Prop := forall s,
  match m s with (s', Ok a) => p s = Ok (a, s') | (_, Err e) => p s = Err e end.
Lemma says_stop {A} (p : P A) : says (stop p) p.
Proof. intro s. unfold stop. destruct (p s) as [[a s']|e]; reflexivity. Qed.
Lemma says_ret {A} (a : A) : says (eret a) (sret a). Proof. intro s. reflexivity. Qed.
Lemma says_raise {A} e : says (@eraise A e) (sraise e). Proof. intro s. reflexivity. Qed.
Lemma says_bind {A B} (m : E A) p (k : A -> E B) q : says m p -> (forall a, says (k a) (q a)) -> says (ebind m k) (sbind p q).
Proof.
  intros H K s. unfold ebind, sbind. specialize (H s). destruct (m s) as [s1 [a|e]]; rewrite H; [apply K|reflexivity].
Qed.
Lemma says_state {A} (m : pst -> E A) (p : pst -> P A) : (forall s, says (m s) (p s)) -> says (fun s => m s s) (fun s => p s s).
Proof. intros H s. apply H. Qed.
Ltac says_with t := repeat first
  [ t | apply says_ret | apply says_raise | apply says_stop
  | match goal with |- says (match ?x with _ => _ end) _ => destruct x end
  | apply says_bind; [|intro] | assumption ].
Ltac sayss := says_with fail.

Lemma mkgroups_says : forall p pre h, match e_mkgroups pre p h with (h', Ok _) => mkgroups pre p h = Ok h' | (_, Err e) => mkgroups pre p h = Err e end.
Proof.
  induction p as [|a p IH]; intros pre h; cbn [e_mkgroups mkgroups]; [reflexivity|].
  destruct (h5_find (pre ++ [a]) h) as [[]|]; try reflexivity; apply IH.
Qed.
Definition p_create (w : path) (n : string) (nd : node) : P unit := fun s => match h5_create w n nd (p_out s) with Ok h => Ok (tt, with_out h s) | Err e => Err e end.
Lemma create_says w n nd : says (e_create w n nd) (p_create w n nd).
Proof.
  intro s. unfold e_create, p_create, h5_create. pose proof (mkgroups_says w [] (p_out s)) as H.
  destruct (e_mkgroups [] w (p_out s)) as [h1 [u|e]]; rewrite H; cbn [rbind]; [|reflexivity].
  destruct (h5_find (w ++ [n]) h1); reflexivity.
Qed.
Definition p_arrays (w : path) (n : string) (l : descr) : P (list path) := fun s =>
  match create_arrays w n l (p_out s) with Ok (ps, h) => Ok (ps, with_out h s) | Err e => Err e end.
Lemma arrays_says w n : forall l, says (e_arrays w n l) (p_arrays w n l).
Proof.
  induction l as [|[a t] l IH]; intro s; cbn [e_arrays]; unfold p_arrays; cbn [create_arrays].
  - unfold eret, with_out. now destruct s.
  - unfold ebind at 1. pose proof (create_says w (lower_s n ++ "_" ++ a)%string (Arr t []) s) as H. unfold p_create in H.
    destruct (e_create w _ _ s) as [s1 [u|e]]; destruct (h5_create w _ _ (p_out s)) as [h1|]; try discriminate; [|now injection H as ->].
    injection H as _ <-. cbn [rbind]. unfold ebind. specialize (IH (with_out h1 s)). unfold p_arrays in IH. cbn [with_out p_out] in IH.
    destruct (e_arrays w n l _) as [s2 [ps|e]]; destruct (create_arrays w n l h1) as [[ps' h2]|]; try discriminate; cbn [rbind]; [|now injection IH as ->].
    injection IH as <- <-. reflexivity.
Qed.
Lemma get_table_says n : says (e_get_table n) (get_table n).
Proof.
  intro s. unfold e_get_table, get_table, ebind, sbind, stop, getg, geth, liftR, slift.
  destruct (sget n (g_tables (p_g s))) as [[p [|a l]]|].
  - destruct (tab_rows p (p_out s)) as [|row rows]; [|reflexivity].
    destruct (get_path (p_g s) (p_out s)) as [w|]; [|reflexivity].
    pose proof (create_says w (lower_s n) (Table (table_descr n) []) s) as H. unfold p_create in H.
    destruct (e_create w _ _ s) as [s1 [u|e]]; destruct (h5_create w _ _ (p_out s)) as [h1|]; try discriminate; [|now injection H as ->].
    injection H as _ <-. reflexivity.
  - reflexivity.
  - destruct (get_path (p_g s) (p_out s)) as [w|]; [|reflexivity].
    pose proof (arrays_says w n (atoms_of n) s) as H. unfold p_arrays in H.
    destruct (e_arrays w n _ s) as [s1 [ps|e]]; destruct (create_arrays w n _ (p_out s)) as [[ps' h1]|]; try discriminate; [|now injection H as ->].
    injection H as <- <-.
    pose proof (create_says w (lower_s n) (Table (table_descr n) []) (with_out h1 s)) as H. unfold p_create in H. cbn [with_out p_out] in H.
    destruct (e_create w _ _ _) as [s2 [u|e]]; destruct (h5_create w _ _ h1) as [h2|]; try discriminate; [|now injection H as ->].
    injection H as _ <-. reflexivity.
Qed.
Lemma vls_write_says : forall l, says (e_vls_write l) (vls_write l).
Proof. induction l; cbn [e_vls_write vls_write]; sayss. Qed.
Lemma rd_write_says r : says (e_rd_write r) (rd_write r).
Proof. unfold e_rd_write, rd_write. says_with ltac:(apply vls_write_says). Qed.
Lemma rd_add_says row r : says (e_rd_add row r) (rd_add row r).
Proof. unfold e_rd_add, rd_add. cbv zeta. says_with ltac:(apply rd_write_says). Qed.
Definition says_body (b : ebody) (c : body) : Prop := forall n rec, says (b n rec) (c n rec).
Lemma one_says b : says_body (one b) b. Proof. intros n rec. apply says_stop. Qed.
Lemma run_loop_says b c : says_body b c -> forall fuel n m fs r, says (e_run_loop fuel n b m fs r) (run_loop fuel n c m fs r).
Proof.
  intros H. induction fuel as [|fuel IH]; intros n m fs r; cbn [e_run_loop run_loop]; destruct (String.eqb m n); says_with ltac:(first [apply H|apply rd_add_says|apply IH]).
Qed.
Lemma run_reader_says b c n fs : says_body b c -> says (e_run_reader b n fs) (run_reader c n fs).
Proof.
  intros H. unfold e_run_reader, run_reader. apply says_bind; [apply get_table_says|intro t]. apply says_bind; [apply says_stop|intro h].
  apply (says_state (fun s => _) (fun s => _)). intro s.
  apply says_bind; [now apply run_loop_says|intros [x r]]. apply says_bind; [apply rd_write_says|intro]. apply says_ret.
Qed.
Lemma gelmnt1_says : says_body e_gelmnt1 b_gelmnt1. Proof. intros n rec. unfold e_gelmnt1, b_gelmnt1. sayss. Qed.
Lemma compdef_says : says_body e_compdef b_compdef. Proof. intros n rec. unfold e_compdef, b_compdef. sayss. Qed.
Lemma rdpoints_says : says_body e_rdpoints b_rdpoints. Proof. intros n rec. unfold e_rdpoints, b_rdpoints. cbv zeta. sayss. Qed.
Lemma rdielcor_says : says_body e_rdielcor b_rdielcor.
Proof. intros n rec. unfold e_rdielcor, b_rdielcor. apply says_bind; [apply says_stop|intro]. apply says_bind; [apply says_stop|intro]. apply says_bind; [apply says_stop|intro].
  apply says_bind; [apply says_stop|intro]. destruct a1 as [[[nlay nok] noj] noi]. sayss. Qed.
Lemma rdresref_says : says_body e_rdresref b_rdresref. Proof. intros n rec. unfold e_rdresref, b_rdresref. cbv zeta. sayss. Qed.
Definition says_reader (rd : ereader) (q : reader) : Prop := forall n rec, says (rd n rec) (q n rec).
Lemma hierarch_says : says_reader e_hierarch rd_hierarch.
Proof.
  intros n rec. unfold e_hierarch, rd_hierarch. repeat (apply says_bind; [first [apply says_stop|apply get_table_says|apply rd_add_says]|intro]).
  destruct a7 as [n1 fs1]. apply (says_state (fun s => _) (fun s => _)). intro s.
  apply says_bind; [apply run_loop_says, one_says|intros [x r]]. apply says_bind; [apply rd_write_says|intro]. sayss.
Qed.
Lemma ident_says : says_reader e_ident rd_ident.
Proof. intros n rec. unfold e_ident, rd_ident. repeat (apply says_bind; [first [apply says_stop|apply get_table_says]|intro]). apply says_stop. Qed.
Lemma xsup_says p : forall fuel n m fs, says (e_xsup_loop fuel n p m fs) (xsup_loop fuel n p m fs).
Proof.
  induction fuel as [|fuel IH]; intros n m fs; cbn [e_xsup_loop xsup_loop]; destruct (String.eqb m n); says_with ltac:(apply IH).
Qed.
Lemma xsuptran_says : says_reader e_xsuptran rd_xsuptran.
Proof.
  intros n rec. unfold e_xsuptran, rd_xsuptran. apply says_bind; [apply get_table_says|intro t]. intro s. apply xsup_says.
Qed.
Lemma run_says b c : says_body b c -> says_reader (e_run_reader b) (run_reader c).
Proof. intros H n rec. now apply run_reader_says. Qed.
Lemma sconmesh_says : says_reader e_sconmesh rd_sconmesh.
Proof. intros n rec. unfold e_sconmesh, rd_sconmesh. says_with ltac:(apply run_reader_says, one_says). Qed.
Lemma rd_rdielcor_says : says_reader e_rd_rdielcor rd_rdielcor.
Proof. intros n rec. unfold e_rd_rdielcor, rd_rdielcor. says_with ltac:(apply run_reader_says, rdielcor_says). Qed.
Lemma readers_says : Forall2 (fun a b => fst a = fst b /\ says_reader (snd a) (snd b)) e_readers readers.
Proof.
  unfold e_readers, readers, e_std, e_opt, std, opt. repeat constructor.
  all: cbn [snd]; first [ apply hierarch_says | apply ident_says | apply xsuptran_says | apply sconmesh_says | apply rd_rdielcor_says
    | apply run_says; first [apply one_says | apply gelmnt1_says | apply compdef_says | apply rdpoints_says | apply rdresref_says]
    | intros n rec; apply says_stop ].
Qed.
Lemma sget_says n : match sget n e_readers, sget n readers with Some a, Some b => says_reader a b | None, None => True | _, _ => False end.
Proof.
  unfold sget. induction readers_says as [|[k a] [k' b] l l' [E S] F IH]; cbn [dget]; [exact I|]. cbn [fst snd] in *. subst k'.
  destruct (String.eqb n k); [exact S|exact IH].
Qed.
Lemma general_says n rec : says (e_general_parser n rec) (general_parser n rec).
Proof.
  unfold e_general_parser, general_parser. apply says_bind; [apply says_stop|intro a]. destruct (flt_lt a f0); [sayss|].
  pose proof (sget_says n) as H. destruct (sget n e_readers), (sget n readers); try easy; [|apply says_stop]. apply says_bind; [apply says_stop|intro; apply H].
Qed.
Lemma parse_loop_says only : forall fuel n rec, says (e_parse_loop fuel only n rec) (parse_loop fuel only n rec).
Proof.
  induction fuel as [|fuel IH]; intros n rec; cbn [e_parse_loop parse_loop]; destruct (String.eqb n ""); try apply says_ret; try apply says_raise.
  apply says_bind; [destruct (wanted only n); [apply general_says|apply says_stop]|]. intros [n1 fs1]. apply IH.
Qed.
Lemma upd_upd p f g h : h5_upd p f (h5_upd p g h) = h5_upd p (fun n => f (g n)) h.
Proof. unfold h5_upd. rewrite map_map. apply map_ext. intros [q n]. cbn [fst snd]. destruct (path_eqb p q) eqn:E; cbn [fst snd]; rewrite ?E; reflexivity. Qed.
Lemma attributes_says : says e_set_attributes set_attributes.
Proof.
  intro s. unfold e_set_attributes, set_attributes, ebind, sbind, stop, getg, geth, seth, liftR, slift.
  destruct (get_path (p_g s) (p_out s)) as [w|]; [|reflexivity]. destruct (h5_find w (p_out s)); [|reflexivity].
  destruct (level_of (p_g s) (p_out s)) as [[lev idx]|]; [|reflexivity]. cbn [p_in p_g p_out]. now rewrite upd_upd.
Qed.
Lemma parse_file_says only : says (e_parse_file only) (parse_file only).
Proof.
  unfold e_parse_file, parse_file. apply says_bind; [apply says_stop|intros [n rec]]. apply says_bind; [|intro; apply attributes_says].
  intro s. apply parse_loop_says.
Qed.
Lemma ihref_says i : says (e_current_ihref i) (set_current_ihref i).
Proof. unfold e_current_ihref, set_current_ihref. sayss. Qed.
Definition saysR {A B} (x : A * Res B) (y : Res (A * B)) : Prop := match x with (a, Ok b) => y = Ok (a, b) | (_, Err e) => y = Err e end.
Lemma parse_into_says k bs only pre pre' gh : says pre pre' ->
  match e_parse_into k bs only pre gh with (gh', Ok _) => parse_into k bs only pre' gh = Ok gh' | (_, Err e) => parse_into k bs only pre' gh = Err e end.
Proof.
  intros H. unfold e_parse_into, parse_into. set (s := mkP _ _ _).
  pose proof (says_bind pre pre' _ _ H (fun _ => parse_file_says only) s) as G.
  destruct ((des pre; e_parse_file only) s) as [s' [u|e]]; rewrite G; reflexivity.
Qed.
Lemma read_lower_says d k only : forall l gh, saysR (e_read_lower d k only l gh) (read_lower d k only l gh).
Proof.
  induction l as [|[n i] l IH]; intros gh; cbn [e_read_lower read_lower]; [reflexivity|]. destruct (file_in d n) as [bs|].
  - pose proof (parse_into_says k bs only _ _ (reset false (fst gh), snd gh) (ihref_says i)) as H.
    destruct (e_parse_into k bs only _ _) as [gh1 [u|e]]; rewrite H; [|reflexivity]. cbn [rbind]. specialize (IH gh1).
    destruct (e_read_lower d k only l gh1) as [gh2 [evs|e]]; cbn [saysR] in *; rewrite IH; reflexivity.
  - specialize (IH gh). destruct (e_read_lower d k only l gh) as [gh2 [evs|e]]; cbn [saysR] in *; rewrite IH; reflexivity.
Qed.
Theorem convert_says d top x usefp prefix only g h0 : saysR (e_convert d top x usefp prefix only g h0) (convert d top x usefp prefix only g h0).
Proof.
  destruct x as [[[fp letter] no] ext]. unfold e_convert, convert. destruct (file_in d top) as [bs|]; [|reflexivity]. cbv zeta.
  match goal with |- context [e_parse_into ?k bs only _ ?gh] => pose proof (parse_into_says k bs only (eret tt) (sret tt) gh (says_ret tt)) as H end.
  destruct (e_parse_into _ bs only _ _) as [gh [u|e]]; rewrite H; [|reflexivity]. cbn [rbind]. destruct (g_hashier (fst gh)); [|reflexivity].
  destruct (g_htab (fst gh)) as [p|]; [|reflexivity]. cbn [rbind]. destruct (candidates _ _ _) as [names|]; [|reflexivity]. cbn [rbind].
  pose proof (read_lower_says d (kind_of_bytes bs) only names gh) as L.
  destruct (e_read_lower d _ only names gh) as [gh2 [evs|e]]; cbn [saysR] in *; rewrite L; reflexivity.
Qed.
