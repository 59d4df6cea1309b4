(** * SessionMore: files in use, paths, files opened by path *)
From Verif Require Import Base Flt SeqFile H5 Schema Parsers Data Files SifName Convert Halt HaltProofs HaltConv Session SessionSpec SessionProofs ListFacts ConvertProofs.
Open Scope string_scope.
Open Scope Z_scope.
Open Scope list_scope.
Open Scope monad_scope.

Definition all_held (s : sess) : Prop := forall e, In e (ss_open s) -> hn_file (snd e) <> None.
Lemma in_ids s id : In id (map fst (ss_open s)) <-> exists e, In (id, e) (ss_open s).
Proof. rewrite in_map_iff. split; [intros ([i e] & E & I); cbn in E; subst; now exists e|intros (e & I); now exists (id, e)]. Qed.
Lemma close_ids s i id : In id (map fst (ss_open (tb_close i s))) <-> In id (map fst (ss_open s)) /\ i <> id.
Proof.
  unfold tb_close, set_open. cbn [ss_open]. rewrite !in_map_iff. split.
  - intros (x & <- & I). apply filter_In in I as [I N]. split; [now exists x|]. intros ->. now rewrite Nat.eqb_refl in N.
  - intros ((x & <- & I) & N). exists x. split; [reflexivity|]. apply filter_In. split; [exact I|]. destruct (Nat.eqb_spec (fst x) i); [congruence|reflexivity].
Qed.
Lemma gives_none id : ~ gives_id (Ok GNone) id.
Proof. intros [(es & H)|(k & o & H)]; discriminate. Qed.
Lemma step_ids s c s1 g : sane s -> all_held s -> s_step s c = (s1, Ok g) ->
  all_held s1 /\ forall id, In id (map fst (ss_open s1)) <-> (In id (map fst (ss_open s)) /\ c <> CClose id) \/ gives_id (Ok g) id.
Proof.
  intros S A H. destruct c as [n o a u p l|n|n|i|n|p|fs]; cbn [s_step] in H.
  - apply convert_step in H as [(_ & _ & _ & _ & _ & e & X)|(out & m & at_ & s2 & _ & _ & _ & _ & _ & _ & [((e & X) & _)|((evs & X) & E)])]; try discriminate.
    rewrite filter_fresh in E by exact S. injection X as ->. split; [unfold all_held; now rewrite E|]. intro id. rewrite E. split; [intro I; left; split; [exact I|discriminate]|].
    intros [(I & _)|[(es & G)|(k & x & G)]]; [exact I|discriminate|discriminate].
  - apply open_sif_step in H as [(_ & _ & _ & _ & _ & e & X)|(out & s2 & f & O & _ & _ & _ & _ & E & [(e & X)|(F & k & x & X)])]; try discriminate.
    injection X as ->. apply tb_open_ok in O as (-> & _). destruct f as [h|]; [|contradiction]. rewrite hold_fresh in E by exact S. split.
    + unfold all_held. rewrite E. intros e I. apply in_app_or in I as [I|[<-|[]]]; [exact (A e I)|cbn; discriminate].
    + intro id. rewrite E, map_app, in_app_iff. cbn [map fst]. split.
      * intros [I|[<-|[]]]; [left; split; [exact I|discriminate]|right; right; now do 2 eexists].
      * intros [(I & _)|[(es & G)|(k' & x' & G)]]; [now left|discriminate|]. injection G as <- _ _. right. now left.
  - apply open_hdf5_step in H as [(_ & e & X)|(out & at_ & s2 & f & O & -> & [(_ & e & X)|(h & es & -> & _ & _ & X)])]; try discriminate.
    injection X as ->. apply tb_open_ok in O as (-> & _). pose proof (hold_fresh s out MRead (Some at_) h S) as E. split.
    + unfold all_held. rewrite E. intros e I. apply in_app_or in I as [I|[<-|[]]]; [exact (A e I)|cbn; discriminate].
    + intro id. rewrite E, map_app, in_app_iff. cbn [map fst]. split.
      * intros [I|[<-|[]]]; [left; split; [exact I|discriminate]|right; left; now eexists].
      * intros [(I & _)|[(es' & G)|(k' & x' & G)]]; [now left| |discriminate]. injection G as <- _. right. now left.
  - injection H as <- <-. destruct (existsb (Nat.eqb i) (held s)) eqn:X.
    + split.
      * intros e I. unfold tb_close, set_open in I. cbn [ss_open] in I. apply filter_In in I as [I _]. exact (A e I).
      * intro id. rewrite close_ids. split; [intros (I & N); left; split; [exact I|congruence]|intros [(I & N)|G]; [split; [exact I|congruence]|now apply gives_none in G]].
    + split; [exact A|]. intro id. split; [|intros [(I & _)|G]; [exact I|now apply gives_none in G]]. intro I. left. split; [exact I|]. intro Y. injection Y as ->.
      apply in_ids in I as (e & I). pose proof (A _ I) as K. cbn [snd] in K. destruct (hn_file e) as [h|] eqn:F; [|contradiction].
      rewrite <- Bool.not_true_iff_false in X. apply X. apply existsb_exists. exists id. split; [apply held_in; now exists e, h|apply Nat.eqb_refl].
  - destruct (held s); [injection H as <- <-|discriminate]. split; [exact A|]. intro id. split; [intro I; left; split; [exact I|discriminate]|intros [(I & _)|G]; [exact I|now apply gives_none in G]].
  - injection H as <- <-. split; [exact A|]. intro id. cbn [ss_open]. split; [intro I; left; split; [exact I|discriminate]|intros [(I & _)|G]; [exact I|now apply gives_none in G]].
  - injection H as <- <-. split; [exact A|]. intro id. cbn [ss_open]. split; [intro I; left; split; [exact I|discriminate]|intros [(I & _)|G]; [exact I|now apply gives_none in G]].
Qed.
Lemma in_use_cons c r cs rs id : in_use (c :: cs) (r :: rs) id <-> (gives_id r id /\ ~ In (CClose id) cs) \/ in_use cs rs id.
Proof.
  unfold in_use. split.
  - intros ([|i] & x & H & G & N); cbn [nth_error] in H.
    + injection H as ->. left. split; [exact G|]. intro I. apply In_nth_error in I as (j & J). apply (N (S j)); [lia|exact J].
    + right. exists i, x. repeat split; [exact H|exact G|]. intros j L. apply (N (S j)). lia.
  - intros [(G & N)|(i & x & H & G & N)].
    + exists 0%nat, r. repeat split; [exact G|]. intros [|j] L J; [lia|]. cbn [nth_error] in J. apply N. exact (nth_error_In _ _ J).
    + exists (S i), x. repeat split; [exact H|exact G|]. intros [|j] L; [lia|]. apply N. lia.
Qed.
Lemma run_ids cs : forall s s' rs, sane s -> all_held s -> s_run s cs = (s', rs) -> (forall r, In r rs -> ~ raised r) ->
  forall id, In id (map fst (ss_open s')) <-> (In id (map fst (ss_open s)) /\ ~ In (CClose id) cs) \/ in_use cs rs id.
Proof.
  induction cs as [|c cs IH]; intros s s' rs S A H OK id; cbn [s_run] in H.
  - injection H as <- <-. split; [intro I; left; split; [exact I|intros []]|intros [(I & _)|([|i] & r & X & _)]; [exact I|discriminate|discriminate]].
  - destruct (s_step s c) as [s1 a] eqn:E. destruct (s_run s1 cs) as [s2 as_] eqn:R. injection H as <- <-.
    destruct a as [g|e]; [|exfalso; apply (OK (Err e) (or_introl eq_refl)); now exists e].
    destruct (step_ids s c s1 g S A E) as (A1 & B). rewrite (IH s1 s2 as_ (step_sane _ _ _ _ S E) A1 R (fun r I => OK r (or_intror I)) id), B, in_use_cons. cbn [In]. split.
    + intros [([(I & N)|G] & N2)|U]; [left; split; [exact I|intros [X|X]; [now apply N|now apply N2]]|right; left; now split|right; now right].
    + intros [(I & N)|[(G & N)|U]]; [left; split; [left; split; [exact I|intro X; apply N; now left]|intro X; apply N; now right]|left; split; [now right|exact N]|now right].
Qed.

(** ** Paths as text *)
Lemma parts_app a b : ~ In "/"%char a -> parts (a ++ "/"%char :: b) = a :: parts b.
Proof.
  induction a as [|c a IH]; intro N; [reflexivity|]. cbn [app parts]. destruct (slash c) eqn:S.
  - exfalso. apply N. left. unfold slash in S. now apply Ascii.eqb_eq in S.
  - rewrite IH by (intro I; apply N; now right). reflexivity.
Qed.
Lemma parts_one a : ~ In "/"%char a -> parts a = [a].
Proof.
  induction a as [|c a IH]; intro N; [reflexivity|]. cbn [parts]. destruct (slash c) eqn:S.
  - exfalso. apply N. left. unfold slash in S. now apply Ascii.eqb_eq in S.
  - rewrite IH by (intro I; apply N; now right). reflexivity.
Qed.
Lemma parts_plain s : Forall (fun x => ~ In "/"%char x) (parts s).
Proof.
  induction s as [|c s IH]; [repeat constructor; intros []|]. cbn [parts]. destruct (slash c) eqn:S; [constructor; [intros []|exact IH]|].
  destruct (parts s) as [|x l]; [constructor; [|constructor]|inversion IH; subst; constructor; [|assumption]].
  - intros [X|[]]. subst c. discriminate.
  - intros [X|X]; [subst c; discriminate|contradiction].
Qed.
Lemma go_plain p x : plain_path p -> ~ In "/"%char (s2l x) -> plain_path (go p x).
Proof.
  intros P N. unfold go. destruct (String.eqb_spec x ""); [exact P|]. destruct (String.eqb_spec x "."); [exact P|]. cbn [orb]. destruct (String.eqb_spec x "..").
  - induction P as [|y p Y P IH]; [constructor|]. cbn [removelast]. destruct p; [constructor|]. constructor; [exact Y|exact IH].
  - apply Forall_app. split; [exact P|]. repeat constructor; assumption.
Qed.
Lemma abs_plain cwd p : plain_path cwd -> plain_path (abs_path cwd p).
Proof.
  intro C. unfold abs_path. set (st := match s2l p with c :: _ => _ | [] => _ end).
  assert (P : plain_path st) by (unfold st; destruct (s2l p) as [|c r]; [exact C|]; destruct (slash c); [constructor|exact C]).
  clearbody st. pose proof (parts_plain (s2l p)) as F. revert st P. induction (parts (s2l p)) as [|x l IH]; intros st P; [exact P|]. inversion F; subst. cbn [map fold_left]. apply IH; [assumption|]. apply go_plain; [exact P|]. now rewrite s2l_l2s.
Qed.
Lemma go_part p n : plain_part n -> go p n = p ++ [n].
Proof. intros (A & B & C & _). unfold go. destruct (String.eqb_spec n ""); [contradiction|]. destruct (String.eqb_spec n "."); [contradiction|]. destruct (String.eqb_spec n ".."); [contradiction|]. reflexivity. Qed.
(** A plain name is a name in the current directory. *)
Lemma abs_name cwd n : plain_part n -> abs_path cwd n = cwd ++ [n].
Proof.
  intro N. pose proof N as (A & _ & _ & D). unfold abs_path. rewrite parts_one by exact D. cbn [map fold_left]. rewrite l2s_s2l, go_part by exact N.
  destruct (s2l n) as [|c r] eqn:E; [reflexivity|]. destruct (slash c) eqn:S; [|reflexivity]. exfalso. apply D. left. unfold slash in S. now apply Ascii.eqb_eq in S.
Qed.
Lemma path_text_list n p : s2l (path_text (n :: p)) = flat_map (fun m => "/"%char :: s2l m) (n :: p).
Proof.
  unfold path_text. assert (G : forall q a, s2l (fold_left (fun s m => (s ++ "/" ++ m)%string) q a) = s2l a ++ flat_map (fun m => "/"%char :: s2l m) q).
  { intros q. induction q as [|m q IH]; intro a; [cbn; now rewrite app_nil_r|]. cbn [fold_left flat_map]. rewrite IH, !s2l_app. cbn [s2l]. now rewrite <- app_assoc. }
  rewrite G. reflexivity.
Qed.
Lemma parts_path p : plain_path p -> parts (flat_map (fun m => "/"%char :: s2l m) p) = [] :: map s2l p.
Proof.
  induction 1 as [|n p (_ & _ & _ & D) P IH]; [reflexivity|]. cbn [flat_map app parts map]. change (slash "/") with true. cbv iota. f_equal.
  destruct p as [|m p]; [cbn [flat_map map]; now rewrite app_nil_r, parts_one|]. cbn [flat_map app] in *. rewrite parts_app by exact D. f_equal.
  cbn [parts] in IH. change (slash "/") with true in IH. cbv iota in IH. now injection IH.
Qed.
(** The text of a path leads back to it, from any directory. *)
Lemma abs_text cwd p : plain_path p -> abs_path cwd (path_text p) = p.
Proof.
  intro P. destruct p as [|n p]; [reflexivity|]. unfold abs_path. rewrite path_text_list, parts_path by exact P. cbn [flat_map app]. change (slash "/") with true. cbv iota.
  cbn [map fold_left]. change (go [] (l2s [])) with (@nil string). assert (G : forall q a, Forall plain_part q -> fold_left go (map l2s (map s2l q)) a = a ++ q).
  { intros q. induction q as [|m q IH]; intros a F; [now rewrite app_nil_r|]. inversion F; subst. cbn [map fold_left]. rewrite l2s_s2l, go_part by assumption. rewrite IH by assumption. now rewrite <- app_assoc. }
  exact (G (n :: p) [] P).
Qed.
Lemma base_text n p : plain_path (p ++ [n]) -> base_name (path_text (p ++ [n])) = n.
Proof.
  intro P. unfold base_name. destruct (p ++ [n]) as [|m q] eqn:E; [now apply app_eq_nil in E as [_ X]|]. rewrite path_text_list, parts_path by exact P. rewrite <- E, map_app. cbn [map].
  rewrite app_comm_cons, last_last. apply l2s_s2l.
Qed.
Lemma base_plain n : ~ In "/"%char (s2l n) -> base_name n = n.
Proof. intro N. unfold base_name. rewrite parts_one by exact N. apply l2s_s2l. Qed.

(** ** Calls that succeed *)
Lemma place_split s n d top : sif_place s n = d ++ [top] -> last (sif_place s n) "" = top /\ removelast (sif_place s n) = d.
Proof. intros ->. split; [apply last_last|apply removelast_last]. Qed.
Lemma open_sif_at s sifname d top D b g' h k o : sane s -> sif_place s sifname = d ++ [top] -> base_name sifname = top ->
  (forall n, file_in D n = content (ss_files s) (d ++ [n])) -> content (ss_files s) (d ++ [top]) = Some b ->
  (forall e, In e (ss_open s) -> hn_name (snd e) <> default_name top) -> open_sif D top (ss_glob s) = Ok (g', h, k, o) ->
  s_open_sif s sifname = (mkSs g' (ss_cwd s) (ss_files s) (ss_disk s) (ss_open s ++ [(ss_next s, mkH (default_name top) MWrite None (Some h))]) (S (ss_next s)), Ok (GData (ss_next s) k o)).
Proof.
  intros S P B L C N H. destruct (place_split s sifname d top P) as (P1 & P2). unfold s_open_sif. cbv zeta. rewrite P1, P2, B. rewrite P. unfold open_sif in H.
  destruct (sif_checked (s2l top)) as [x|]; [|discriminate]. cbn [rbind] in H. rewrite C. rewrite tb_open_free; [|discriminate|exact N|discriminate].
  rewrite (e_convert_ext (listing (ss_files s) d) D) by (intro n; now rewrite found_listing, L).
  destruct (convert D top x true "" [] (ss_glob s) []) as [[gh evs]|] eqn:CV; [|discriminate]. apply e_ok in CV. rewrite CV. cbn [rbind] in H.
  destruct (parse_sifname (s2l top)) as [[[[fp lt] no] ext]|]; [|discriminate]. cbn [rbind] in H. destruct (file_data (snd gh)) as [es|]; [|discriminate]. cbn [rbind] in H.
  destruct (get_data _ es) as [[k' o']|]; [|discriminate]. cbn [rbind] in H. injection H as <- <- <- <-.
  f_equal. pose proof (hold_fresh s (default_name top) MWrite None (snd gh) S) as F. unfold hold, set_open, set_glob in *. cbn [ss_open ss_glob ss_cwd ss_files ss_disk ss_next] in *. now rewrite F.
Qed.
Lemma convert_at s sifname out append u prefix only d top D b st g' st' evs : sane s -> sif_place s sifname = d ++ [top] ->
  (forall n, file_in D n = content (ss_files s) (d ++ [n])) -> content (ss_files s) (d ++ [top]) = Some b ->
  let name := match given out with Some n => n | None => default_name top end in
  let at_ := abs_path (ss_cwd s) name in
  (forall e, In e (ss_open s) -> hn_name (snd e) <> name) -> (forall e, In e (ss_open s) -> hn_at (snd e) <> Some at_) ->
  store_in st name = match on_disk s at_ with Some h => h | None => [] end ->
  sif2hdf5 D top out append u prefix only (ss_glob s) st = Ok (g', st', evs) ->
  exists s', s_convert s sifname out append u prefix only = (s', Ok (GPlace at_ evs)) /\ on_disk s' at_ = Some (store_in st' name) /\
    (forall q, q <> at_ -> on_disk s' q = on_disk s q) /\ ss_open s' = ss_open s /\ ss_cwd s' = ss_cwd s /\ ss_files s' = ss_files s /\ ss_glob s' = g'.
Proof.
  intros S P L C name at_ N A E H. destruct (place_split s sifname d top P) as (P1 & P2). unfold s_convert, sif2hdf5 in *.
  assert (G : match given out, append with None, true => False | _, _ => True end) by (destruct (given out), append; try exact I; discriminate).
  assert (H' : (dor x <- sif_checked (s2l top); dor (gh, evs0) <- convert D top x u prefix only (ss_glob s) (if append then store_in st name else []); Ok (fst gh, dset name (snd gh) st, evs0)) = Ok (g', st', evs))
    by (destruct (given out), append; try contradiction; exact H). clear H.
  destruct (sif_checked (s2l top)) as [x|] eqn:X; [|discriminate]. cbn [rbind] in H'. rewrite E in H'. clear E.
  destruct (convert D top x u prefix only (ss_glob s) _) as [[gh evs']|] eqn:V; [|discriminate]. cbn [rbind] in H'. injection H' as <- <- <-.
  rewrite <- (convert_ext (listing (ss_files s) d) D) in V by (intro n; now rewrite found_listing, L).
  apply e_ok in V. eexists. split.
  - cbv zeta. rewrite P1, P2, X, P. fold name.
    assert (R : match content (ss_files s) (d ++ [top]) with
       | Some _ => match tb_open s name (if append then MAppend else MWrite) (Some (abs_path (ss_cwd s) name)) with
          | Ok s1 => match e_convert (listing (ss_files s) d) top x u prefix only (ss_glob s) (if append then match on_disk s (abs_path (ss_cwd s) name) with Some h => h | None => [] end else []) with
              | (gh0, Ok evs0) => (tb_close (ss_next s) (set_disk (abs_path (ss_cwd s) name) (snd gh0) (set_glob (fst gh0) s1)), Ok (GPlace (abs_path (ss_cwd s) name) evs0))
              | (gh0, Err e) => (set_disk (abs_path (ss_cwd s) name) (snd gh0) (set_glob (fst gh0) s1), Err e)
              end
          | Err e => (set_glob (begun x u prefix (ss_glob s)) s, Err e)
          end
       | None => (set_glob (begun x u prefix (ss_glob s)) s, Err FileNotFoundError)
       end = (tb_close (ss_next s) (set_disk at_ (snd gh) (set_glob (fst gh) (mkSs (ss_glob s) (ss_cwd s) (ss_files s) (ss_disk s) (ss_open s ++ [(ss_next s, mkH name (if append then MAppend else MWrite) (Some at_) None)]) (Datatypes.S (ss_next s))))), Ok (GPlace at_ evs'))).
    { rewrite C. rewrite tb_open_free; [|now destruct append|exact N|intros e q I Q; injection Q as <-; exact (A e I)]. fold at_. now rewrite V. }
    unfold at_, name in R |- *. clear - R G. destruct (given out) as [n'|]; [exact R|]. destruct append; [contradiction|exact R].
  - split; [|split; [|split]].
    + unfold on_disk, tb_close, set_disk, set_glob, set_open. cbn [ss_disk]. rewrite dget_dset, here_refl. unfold store_in. cbn [dset dget]. now rewrite String.eqb_refl.
    + intros q Q. unfold on_disk, tb_close, set_disk, set_glob, set_open. cbn [ss_disk]. rewrite dget_dset. now rewrite here_false.
    + unfold tb_close, set_disk, set_glob, set_open. cbn [ss_open]. now apply filter_fresh.
    + auto.
Qed.
Lemma open_hdf5_at s name at_ h es : sane s -> abs_path (ss_cwd s) name = at_ -> on_disk s at_ = Some h -> file_data h = Ok es ->
  (forall e, In e (ss_open s) -> hn_name (snd e) = path_text at_ -> hn_mode (snd e) = MRead) ->
  exists s', s_open_hdf5 s name = (s', Ok (GFile (ss_next s) es)) /\ ss_open s' = ss_open s ++ [(ss_next s, mkH (path_text at_) MRead (Some at_) (Some h))] /\ ss_disk s' = ss_disk s.
Proof.
  intros S A D F N. unfold s_open_hdf5. cbv zeta. rewrite A, D. unfold tb_open.
  replace (existsb _ (ss_open s)) with false.
  - replace (existsb _ (ss_open s)) with false.
    + rewrite D, F. eexists. split; [reflexivity|]. split; [|reflexivity]. exact (hold_fresh s (path_text at_) MRead (Some at_) h S).
    + symmetry. clear. induction (ss_open s) as [|e l IH]; [reflexivity|]. cbn [existsb]. rewrite IH. destruct (hn_at (snd e)) as [q|]; [|reflexivity]. destruct (here_eqb at_ q); [|reflexivity]. now destruct (hn_mode (snd e)).
  - symmetry. destruct (existsb _ (ss_open s)) eqn:X; [|reflexivity]. exfalso. apply existsb_exists in X as (e & I & X). apply andb_prop in X as [X Y]. apply String.eqb_eq in X. rewrite (N e I X) in Y. discriminate.
Qed.
(** ** Calls that fail leave the name taken *)
Lemma left_open s sifname x e : sane s -> let p := sif_place s sifname in let top := last p "" in
  sif_checked (s2l top) = Ok x -> content (ss_files s) p <> None -> (forall a, In a (ss_open s) -> hn_name (snd a) <> default_name top) ->
  (convert (listing (ss_files s) (removelast p)) top x true "" [] (ss_glob s) [] = Err e \/
   exists gh evs y, convert (listing (ss_files s) (removelast p)) top x true "" [] (ss_glob s) [] = Ok (gh, evs) /\ parse_sifname (s2l (base_name sifname)) = Ok y /\ file_data (snd gh) = Err e) ->
  snd (s_open_sif s sifname) = Err e /\ In (ss_next s, mkH (default_name top) MWrite None None) (ss_open (fst (s_open_sif s sifname))).
Proof.
  intros S p top X C N V. unfold s_open_sif. cbv zeta. fold p. fold top. rewrite X. destruct (content (ss_files s) p); [|contradiction].
  rewrite tb_open_free; [|discriminate|exact N|discriminate]. destruct V as [V|(gh & evs & y & V & Y & F)]; [apply e_err in V as (gh & V)|apply e_ok in V]; rewrite V.
  - split; [reflexivity|]. cbn [fst set_glob ss_open]. apply in_or_app. right. now left.
  - rewrite Y. destruct y as [[[fp lt] no] ext]. rewrite F. split; [reflexivity|]. cbn [fst set_glob ss_open]. apply in_or_app. right. now left.
Qed.
Lemma name_taken s sifname a x : In a (ss_open s) -> sif_checked (s2l (last (sif_place s sifname) "")) = Ok x -> content (ss_files s) (sif_place s sifname) <> None ->
  hn_name (snd a) = default_name (last (sif_place s sifname) "") -> snd (s_open_sif s sifname) = Err ValueError.
Proof.
  intros I X C N. unfold s_open_sif. cbv zeta. rewrite X. destruct (content _ _); [|contradiction]. rewrite (tb_open_name s _ _ _ a I N); [reflexivity|]. now destruct (hn_mode (snd a)).
Qed.
Lemma name_taken_convert s sifname out a x u prefix only : In a (ss_open s) -> sif_checked (s2l (last (sif_place s sifname) "")) = Ok x -> content (ss_files s) (sif_place s sifname) <> None ->
  hn_name (snd a) = match given out with Some n => n | None => default_name (last (sif_place s sifname) "") end -> snd (s_convert s sifname out false u prefix only) = Err ValueError.
Proof.
  intros I X C N. unfold s_convert. cbv zeta. rewrite X. destruct (content _ _); [|contradiction].
  destruct (given out) as [n|]; rewrite (tb_open_name s _ _ _ a I N); try reflexivity; now destruct (hn_mode (snd a)).
Qed.
