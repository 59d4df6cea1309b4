(** * SessionProofs: facts about Session *)
From Verif Require Import Base Flt SeqFile H5 Schema Parsers Data Files SifName Convert Halt HaltProofs HaltConv Session SessionSpec StoreProofs.
Open Scope string_scope.
Open Scope Z_scope.
Open Scope list_scope.
Open Scope monad_scope.

(** ** Files of a directory *)
Lemma here_spec p q : here_eqb p q = true <-> p = q.
Proof. unfold here_eqb. split; [apply path_eqb_spec|intros ->; apply path_eqb_refl]. Qed.
Lemma here_refl p : here_eqb p p = true.
Proof. apply here_spec. reflexivity. Qed.
Lemma here_false p q : p <> q -> here_eqb p q = false.
Proof. intro N. destruct (here_eqb p q) eqn:E; [|reflexivity]. now apply here_spec in E. Qed.
Lemma removelast_snoc {A} (l : list A) x : removelast (l ++ [x]) = l.
Proof. apply removelast_last. Qed.
Lemma content_none fs p : found fs p = None -> content fs p = None.
Proof. intro H. unfold content, real_path. destruct fs as [|e fs]; [reflexivity|]. cbn [length follow]. now rewrite H, H. Qed.
Lemma found_listing fs d n : file_in (listing fs d) n = content fs (d ++ [n]).
Proof.
  unfold listing. assert (G : forall l, (found l (d ++ [n]) = None -> content fs (d ++ [n]) = None) ->
    file_in (flat_map (fun e => if negb (here_eqb (fst e) []) && here_eqb (removelast (fst e)) d
                     then match content fs (fst e) with Some b => [(last (fst e) "", b)] | None => [] end else []) l) n = content fs (d ++ [n])).
  { intros l. induction l as [|[p v] l IH]; intro H; [cbn; now rewrite H|]. cbn [flat_map fst].
    destruct (here_eqb p (d ++ [n])) eqn:E.
    - apply here_spec in E. subst p. rewrite here_false by (intro X; now apply app_eq_nil in X). rewrite removelast_snoc, here_refl. cbn [negb andb].
      destruct (content fs (d ++ [n])) as [b|] eqn:C.
      + rewrite last_last. unfold file_in. cbn [app dget]. now rewrite String.eqb_refl.
      + cbn [app]. apply IH. auto.
    - assert (S : file_in (match (if negb (here_eqb p []) && here_eqb (removelast p) d then match content fs p with Some b => [(last p "", b)] | None => [] end else []) with l0 => l0 ++
          flat_map (fun e => if negb (here_eqb (fst e) []) && here_eqb (removelast (fst e)) d then match content fs (fst e) with Some b => [(last (fst e) "", b)] | None => [] end else []) l end) n =
        file_in (flat_map (fun e => if negb (here_eqb (fst e) []) && here_eqb (removelast (fst e)) d then match content fs (fst e) with Some b => [(last (fst e) "", b)] | None => [] end else []) l) n).
      { destruct (negb (here_eqb p []) && here_eqb (removelast p) d) eqn:B; [|reflexivity]. destruct (content fs p) as [b|]; [|reflexivity].
        apply andb_prop in B as [B1 B2]. apply here_spec in B2. unfold file_in. cbn [app dget]. destruct (String.eqb_spec n (last p "")) as [X|X]; [|reflexivity]. exfalso.
        assert (p <> []) as NP by (intros ->; discriminate). rewrite (app_removelast_last "" NP), B2, <- X, here_refl in E. discriminate. }
      cbv beta iota in S. rewrite S. apply IH. intro F. apply H. unfold found. cbn [dget].
      destruct (here_eqb (d ++ [n]) p) eqn:E'; [apply here_spec in E'; subst p; now rewrite here_refl in E|exact F]. }
  apply G. apply content_none.
Qed.
(** A file that is found is no link. *)
Lemma content_real fs p b : content fs p = Some b -> content fs (real_path fs p) = Some b /\ real_path fs (real_path fs p) = real_path fs p.
Proof.
  unfold content. intro H. destruct (found fs (real_path fs p)) as [[c|t]|] eqn:F; try discriminate.
  assert (R : real_path fs (real_path fs p) = real_path fs p).
  { unfold real_path at 1. destruct (length fs); [reflexivity|]. cbn [follow]. now rewrite F. }
  split; [now rewrite R, F|exact R].
Qed.

(** ** Conversion looks at the files of one directory only *)
Lemma read_lower_ext d d' k only : (forall n, file_in d n = file_in d' n) -> forall l gh, read_lower d k only l gh = read_lower d' k only l gh.
Proof.
  intros E l. induction l as [|[n i] l IH]; intro gh; [reflexivity|]. cbn [read_lower]. rewrite E. destruct (file_in d' n).
  - destruct (parse_into k l0 only (set_current_ihref i) (reset false (fst gh), snd gh)); [|reflexivity]. cbn [rbind]. now rewrite IH.
  - now rewrite IH.
Qed.
Lemma convert_ext d d' top x u p only g h : (forall n, file_in d n = file_in d' n) -> convert d top x u p only g h = convert d' top x u p only g h.
Proof.
  intro E. destruct x as [[[fp l] no] ext]. cbn [convert]. rewrite E. destruct (file_in d' top) as [bs|]; [|reflexivity].
  destruct (parse_into _ _ _ _ _) as [gh|]; [|reflexivity]. cbn [rbind]. destruct (g_hashier (fst gh)); [|reflexivity].
  destruct (match g_htab (fst gh) with Some p0 => Ok (tab_rows p0 (snd gh)) | None => Err TypeError end); [|reflexivity]. cbn [rbind].
  destruct (candidates (l2s fp) (l2s ext) a); [|reflexivity]. cbn [rbind]. now rewrite (read_lower_ext d d' _ _ E).
Qed.

Lemma e_read_lower_ext d d' k only : (forall n, file_in d n = file_in d' n) -> forall l gh, e_read_lower d k only l gh = e_read_lower d' k only l gh.
Proof.
  intros E l. induction l as [|[n i] l IH]; intro gh; [reflexivity|]. cbn [e_read_lower]. rewrite E. destruct (file_in d' n).
  - destruct (e_parse_into k _ only (e_current_ihref i) (reset false (fst gh), snd gh)) as [gh1 [u|e]]; [|reflexivity]. now rewrite IH.
  - now rewrite IH.
Qed.
Lemma e_convert_ext d d' top x u p only g h : (forall n, file_in d n = file_in d' n) -> e_convert d top x u p only g h = e_convert d' top x u p only g h.
Proof.
  intro E. destruct x as [[[fp l] no] ext]. unfold e_convert. rewrite E. destruct (file_in d' top) as [bs|]; [|reflexivity]. cbv zeta.
  destruct (e_parse_into _ _ _ _ _) as [gh [v|e]]; [|reflexivity]. destruct (g_hashier (fst gh)); [|reflexivity].
  destruct (g_htab (fst gh)); [|reflexivity]. destruct (candidates (l2s fp) (l2s ext) _); [|reflexivity]. now rewrite (e_read_lower_ext d d' _ _ E).
Qed.
(** With the state left when it raises. *)
Lemma e_ok d top x u p only g h gh evs : convert d top x u p only g h = Ok (gh, evs) -> e_convert d top x u p only g h = (gh, Ok evs).
Proof. pose proof (convert_says d top x u p only g h) as S. intros H. rewrite H in S. destruct (e_convert d top x u p only g h) as [gh' [evs'|e]]; [|discriminate]. now injection S as <- <-. Qed.
Lemma e_err d top x u p only g h e : convert d top x u p only g h = Err e -> exists gh, e_convert d top x u p only g h = (gh, Err e).
Proof. pose proof (convert_says d top x u p only g h) as S. intros H. rewrite H in S. destruct (e_convert d top x u p only g h) as [gh' [evs'|e']]; [discriminate|]. injection S as <-. now exists gh'. Qed.

(** ** Open files *)
Record sane (s : sess) : Prop := { sn_nodup : NoDup (map fst (ss_open s)); sn_below : forall e, In e (ss_open s) -> (fst e < ss_next s)%nat }.
Lemma tb_open_ok s n m a s1 : tb_open s n m a = Ok s1 ->
  s1 = mkSs (ss_glob s) (ss_cwd s) (ss_files s) (ss_disk s) (ss_open s ++ [(ss_next s, mkH n m a None)]) (S (ss_next s)) /\
  (forall e, In e (ss_open s) -> hn_name (snd e) = n -> name_clash m (hn_mode (snd e)) = false) /\
  (forall e p, In e (ss_open s) -> a = Some p -> hn_at (snd e) = Some p -> place_clash m (hn_mode (snd e)) = false) /\
  (forall p, m = MRead -> a = Some p -> on_disk s p <> None).
Proof.
  unfold tb_open. destruct (existsb _ (ss_open s)) eqn:X; [discriminate|].
  assert (A : forall e, In e (ss_open s) -> hn_name (snd e) = n -> name_clash m (hn_mode (snd e)) = false).
  { intros e I N. destruct (name_clash m (hn_mode (snd e))) eqn:C; [|reflexivity]. rewrite <- Bool.not_true_iff_false in X. exfalso. apply X. apply existsb_exists. exists e. split; [exact I|].
    now rewrite N, String.eqb_refl, C. }
  match goal with |- (if ?b then _ else _) = _ -> _ => destruct b eqn:Y end; [discriminate|].
  assert (B : forall e p, In e (ss_open s) -> a = Some p -> hn_at (snd e) = Some p -> place_clash m (hn_mode (snd e)) = false).
  { intros e p I -> N. destruct (place_clash m (hn_mode (snd e))) eqn:C; [|reflexivity]. rewrite <- Bool.not_true_iff_false in Y. exfalso. apply Y. apply existsb_exists. exists e. split; [exact I|].
    now rewrite N, here_refl, C. }
  intro H. destruct m; [destruct a as [p|]; [destruct (on_disk s p) eqn:D; [|discriminate]|]| |]; injection H as <-; (split; [reflexivity|]); (split; [exact A|]); (split; [exact B|]); try discriminate.
  intros q _ Q. injection Q as <-. congruence.
Qed.
Lemma tb_open_name s n m a e : In e (ss_open s) -> hn_name (snd e) = n -> name_clash m (hn_mode (snd e)) = true -> tb_open s n m a = Err ValueError.
Proof.
  intros I N C. unfold tb_open. replace (existsb _ (ss_open s)) with true; [reflexivity|]. symmetry. apply existsb_exists. exists e. split; [exact I|]. now rewrite N, String.eqb_refl, C.
Qed.
Lemma tb_open_free s n m a : m <> MRead -> (forall e, In e (ss_open s) -> hn_name (snd e) <> n) -> (forall e p, In e (ss_open s) -> a = Some p -> hn_at (snd e) <> Some p) ->
  tb_open s n m a = Ok (mkSs (ss_glob s) (ss_cwd s) (ss_files s) (ss_disk s) (ss_open s ++ [(ss_next s, mkH n m a None)]) (S (ss_next s))).
Proof.
  intros M N P. unfold tb_open. destruct (existsb _ (ss_open s)) eqn:X.
  - apply existsb_exists in X as (e & I & X). apply andb_prop in X as [X _]. apply String.eqb_eq in X. now apply N in I.
  - match goal with |- (if ?b then _ else _) = _ => destruct b eqn:Y end; [|destruct m; [congruence|reflexivity|reflexivity]].
    destruct a as [p|]; [|discriminate]. apply existsb_exists in Y as (e & I & Y). exfalso. apply (P e p I eq_refl). destruct (hn_at (snd e)) as [q|]; [|discriminate].
    apply andb_prop in Y as [Y _]. apply here_spec in Y. now subst.
Qed.
Lemma hold_in id h s e : In e (ss_open s) -> fst e <> id -> In e (ss_open (hold id h s)).
Proof.
  intros I N. unfold hold, set_open. cbn [ss_open]. apply in_map_iff. exists e. split; [|exact I]. destruct (Nat.eqb_spec (fst e) id); [contradiction|reflexivity].
Qed.
Lemma close_in id s e : In e (ss_open s) -> fst e <> id -> In e (ss_open (tb_close id s)).
Proof. intros I N. unfold tb_close, set_open. cbn [ss_open]. apply filter_In. split; [exact I|]. destruct (Nat.eqb_spec (fst e) id); [contradiction|reflexivity]. Qed.
Lemma map_fst_hold id h l : map fst (map (fun e : nat * hnd => if Nat.eqb (fst e) id then (id, mkH (hn_name (snd e)) (hn_mode (snd e)) (hn_at (snd e)) (Some h)) else e) l) = map fst l.
Proof. induction l as [|[i e] l IH]; [reflexivity|]. cbn [map fst]. rewrite IH. destruct (Nat.eqb_spec i id); [now subst|reflexivity]. Qed.
Lemma nodup_filter {A B} (f : A -> B) (t : A -> bool) l : NoDup (map f l) -> NoDup (map f (filter t l)).
Proof.
  induction l as [|x l IH]; intro H; [constructor|]. cbn [map] in H. inversion H as [|? ? N D]; subst. cbn [filter]. destruct (t x); [|auto]. cbn [map]. constructor; [|auto].
  intro I. apply N. apply in_map_iff in I as (y & E & I). apply filter_In in I as [I _]. rewrite <- E. now apply in_map.
Qed.
Lemma nodup_app {A} (l m : list A) : NoDup l -> NoDup m -> (forall x, In x l -> ~ In x m) -> NoDup (l ++ m).
Proof.
  intros D1 D2 H. induction D1 as [|x l N D1 IH]; [exact D2|]. cbn [app]. constructor.
  - intro I. apply in_app_or in I as [I|I]; [contradiction|]. exact (H x (or_introl eq_refl) I).
  - apply IH. intros y I. apply H. now right.
Qed.
Lemma sane_open s n m a s1 : sane s -> tb_open s n m a = Ok s1 -> sane s1.
Proof.
  intros [D L] H. apply tb_open_ok in H as (-> & _). split; cbn [ss_open ss_next].
  - rewrite map_app. cbn [map fst]. apply nodup_app; [exact D|repeat constructor; intros []|]. intros x I [<-|[]]. apply in_map_iff in I as (e & E & I). apply L in I. lia.
  - intros e I. apply in_app_or in I as [I|[<-|[]]]; [apply L in I; lia|cbn; lia].
Qed.
Lemma sane_hold s id h : sane s -> sane (hold id h s).
Proof.
  intros [D L]. split; unfold hold, set_open; cbn [ss_open ss_next]; [now rewrite map_fst_hold|]. intros e I. apply in_map_iff in I as (x & <- & I). apply L in I. destruct (Nat.eqb_spec (fst x) id); [cbn; lia|exact I].
Qed.
Lemma sane_close s id : sane s -> sane (tb_close id s).
Proof. intros [D L]. split; unfold tb_close, set_open; cbn [ss_open ss_next]; [now apply nodup_filter|]. intros e I. apply filter_In in I as [I _]. auto. Qed.
Lemma sane_with s g c f d : sane s -> sane (mkSs g c f d (ss_open s) (ss_next s)).
Proof. intros [D L]. now split. Qed.

(** ** One call *)
Lemma convert_step s n o a u p l s' v : s_convert s n o a u p l = (s', v) ->
  (* nothing opened *)
  (ss_open s' = ss_open s /\ ss_next s' = ss_next s /\ ss_disk s' = ss_disk s /\ ss_cwd s' = ss_cwd s /\ ss_files s' = ss_files s /\ exists e, v = Err e) \/
  (exists out m at_ s1, tb_open s out m (Some at_) = Ok s1 /\ m <> MRead /\ ss_cwd s' = ss_cwd s /\ ss_files s' = ss_files s /\ ss_next s' = S (ss_next s) /\
     (exists h, ss_disk s' = dset at_ h (ss_disk s)) /\
     ((exists e, v = Err e) /\ ss_open s' = ss_open s ++ [(ss_next s, mkH out m (Some at_) None)] \/
      (exists evs, v = Ok (GPlace at_ evs)) /\ ss_open s' = filter (fun e => negb (Nat.eqb (fst e) (ss_next s))) (ss_open s ++ [(ss_next s, mkH out m (Some at_) None)]))).
Proof.
  unfold s_convert. intro H.
  assert (L : forall (X : option string), (let p0 := sif_place s n in
      let fname := last p0 "" in
      match sif_checked (s2l fname) with
      | Err e => (s, Err e)
      | Ok x =>
          let g1 := begun x u p (ss_glob s) in
          match content (ss_files s) p0 with
          | None => (set_glob g1 s, Err FileNotFoundError)
          | Some _ =>
              let out := match X with Some n => n | None => default_name fname end in
              let at_ := abs_path (ss_cwd s) out in
              match tb_open s out (if a then MAppend else MWrite) (Some at_) with
              | Err e => (set_glob g1 s, Err e)
              | Ok s1 =>
                  match e_convert (listing (ss_files s) (removelast p0)) fname x u p l (ss_glob s)
                          (if a then match on_disk s at_ with Some h => h | None => [] end else []) with
                  | (gh, Err e) => (set_disk at_ (snd gh) (set_glob (fst gh) s1), Err e)
                  | (gh, Ok evs) => (tb_close (ss_next s) (set_disk at_ (snd gh) (set_glob (fst gh) s1)), Ok (GPlace at_ evs))
                  end
              end
          end
      end) = (s', v) -> 
    (ss_open s' = ss_open s /\ ss_next s' = ss_next s /\ ss_disk s' = ss_disk s /\ ss_cwd s' = ss_cwd s /\ ss_files s' = ss_files s /\ exists e, v = Err e) \/
    (exists out m at_ s1, tb_open s out m (Some at_) = Ok s1 /\ m <> MRead /\ ss_cwd s' = ss_cwd s /\ ss_files s' = ss_files s /\ ss_next s' = S (ss_next s) /\
     (exists h, ss_disk s' = dset at_ h (ss_disk s)) /\
     ((exists e, v = Err e) /\ ss_open s' = ss_open s ++ [(ss_next s, mkH out m (Some at_) None)] \/
      (exists evs, v = Ok (GPlace at_ evs)) /\ ss_open s' = filter (fun e => negb (Nat.eqb (fst e) (ss_next s))) (ss_open s ++ [(ss_next s, mkH out m (Some at_) None)])))).
  { clear H. intros X H. cbv zeta in H. destruct (sif_checked _) as [x|e]; [|injection H as <- <-; left; repeat split; now eexists].
    destruct (content _ _); [|injection H as <- <-; left; repeat split; now eexists].
    destruct (tb_open _ _ _ _) as [s1|e] eqn:O; [|injection H as <- <-; left; repeat split; now eexists].
    right. do 4 eexists. split; [exact O|]. split; [now destruct a|]. pose proof O as O'. apply tb_open_ok in O' as (-> & _).
    destruct (e_convert _ _ _ _ _ _ _ _) as [gh [evs|e]]; injection H as <- <-; repeat (split; [try reflexivity; now eexists|]); [right|left]; (split; [now eexists|reflexivity]). }
  destruct (given o) as [x|]; [|destruct a].
  - exact (L (Some x) H).
  - injection H as <- <-. left. repeat split. now eexists.
  - exact (L None H).
Qed.
Lemma open_sif_step s n s' v : s_open_sif s n = (s', v) ->
  (ss_open s' = ss_open s /\ ss_next s' = ss_next s /\ ss_disk s' = ss_disk s /\ ss_cwd s' = ss_cwd s /\ ss_files s' = ss_files s /\ exists e, v = Err e) \/
  (exists out s1 f, tb_open s out MWrite None = Ok s1 /\ ss_cwd s' = ss_cwd s /\ ss_files s' = ss_files s /\ ss_next s' = S (ss_next s) /\ ss_disk s' = ss_disk s /\
     ss_open s' = ss_open (match f with Some h => hold (ss_next s) h s1 | None => s1 end) /\
     ((exists e, v = Err e) \/ f <> None /\ exists k o, v = Ok (GData (ss_next s) k o))).
Proof.
  unfold s_open_sif. cbv zeta. intro H. destruct (sif_checked _) as [x|e]; [|injection H as <- <-; left; repeat split; now eexists].
  destruct (content _ _); [|injection H as <- <-; left; repeat split; now eexists].
  destruct (tb_open _ _ _ _) as [s1|e] eqn:O; [|injection H as <- <-; left; repeat split; now eexists].
  right. pose proof O as O'. apply tb_open_ok in O' as (E1 & _).
  destruct (e_convert _ _ _ _ _ _ _ _) as [gh [evs|e]]; [|exists (default_name (last (sif_place s n) "")), s1, None; injection H as <- <-; subst s1; repeat (split; [first [reflexivity|exact O]|]); left; now eexists].
  destruct (parse_sifname _) as [[[[fp lt] no] ext]|e]; [|exists (default_name (last (sif_place s n) "")), s1, None; injection H as <- <-; subst s1; repeat (split; [first [reflexivity|exact O]|]); left; now eexists].
  destruct (file_data _) as [es|e]; [|exists (default_name (last (sif_place s n) "")), s1, None; injection H as <- <-; subst s1; repeat (split; [first [reflexivity|exact O]|]); left; now eexists].
  exists (default_name (last (sif_place s n) "")), s1, (Some (snd gh)).
  destruct (get_data _ _) as [[k o]|e]; injection H as <- <-; subst s1; repeat (split; [first [reflexivity|exact O]|]); [right; split; [discriminate|now do 2 eexists]|left; now eexists].
Qed.
Lemma open_hdf5_step s n s' v : s_open_hdf5 s n = (s', v) ->
  (s' = s /\ exists e, v = Err e) \/
  (exists out at_ s1 f, tb_open s out MRead (Some at_) = Ok s1 /\ s' = match f with Some h => hold (ss_next s) h s1 | None => s1 end /\
     (f = None /\ (exists e, v = Err e) \/ exists h es, f = Some h /\ on_disk s at_ = Some h /\ file_data h = Ok es /\ v = Ok (GFile (ss_next s) es))).
Proof.
  unfold s_open_hdf5. cbv zeta. intro H. destruct (tb_open _ _ _ _) as [s1|e] eqn:O; [|injection H as <- <-; left; split; [reflexivity|now eexists]].
  right. pose proof O as O'. apply tb_open_ok in O' as (_ & _ & _ & D). specialize (D _ eq_refl eq_refl). destruct (on_disk s _) as [h|] eqn:E; [|contradiction].
  destruct (file_data h) as [es|e] eqn:F; injection H as <- <-.
  - do 3 eexists. exists (Some h). split; [exact O|]. split; [reflexivity|]. right. now exists h, es.
  - do 3 eexists. exists None. split; [exact O|]. split; [reflexivity|]. left. split; [reflexivity|now eexists].
Qed.

Lemma held_in s id : In id (held s) <-> exists e h, In (id, e) (ss_open s) /\ hn_file e = Some h.
Proof.
  unfold held. rewrite in_map_iff. split.
  - intros ([i e] & E & I). cbn in E. subst i. apply filter_In in I as [I F]. cbn [snd] in F. destruct (hn_file e) as [h|] eqn:X; [|discriminate]. now exists e, h.
  - intros (e & h & I & F). exists (id, e). split; [reflexivity|]. apply filter_In. split; [exact I|]. cbn [snd]. now rewrite F.
Qed.
Lemma same_entry s id (e e' : hnd) : sane s -> In (id, e) (ss_open s) -> In (id, e') (ss_open s) -> e = e'.
Proof.
  intros [D _]. induction (ss_open s) as [|[i x] l IH]; intros A B; [destruct A|]. cbn [map fst] in D. inversion D as [|? ? N D']; subst.
  destruct A as [A|A], B as [B|B].
  - congruence.
  - injection A as -> ->. exfalso. apply N. change id with (fst (id, e')). now apply in_map.
  - injection B as -> ->. exfalso. apply N. change id with (fst (id, e)). now apply in_map.
  - auto.
Qed.
Lemma first_held s n : held s <> [] -> In (nth (Nat.modulo n (length (held s))) (held s) 0%nat) (held s).
Proof. intro H. apply nth_In. apply Nat.mod_upper_bound. intro E. apply H. now destruct (held s). Qed.
Lemma filter_fresh s e : sane s -> filter (fun x : nat * hnd => negb (Nat.eqb (fst x) (ss_next s))) (ss_open s ++ [(ss_next s, e)]) = ss_open s.
Proof.
  intros [_ L]. rewrite filter_app. cbn [filter fst]. rewrite Nat.eqb_refl. cbn [negb]. rewrite app_nil_r.
  induction (ss_open s) as [|x l IH]; [reflexivity|]. cbn [filter]. pose proof (L x (or_introl eq_refl)). destruct (Nat.eqb_spec (fst x) (ss_next s)); [lia|]. cbn [negb]. f_equal. apply IH. intros y I. apply L. now right.
Qed.
Lemma hold_fresh s n m a h : sane s -> ss_open (hold (ss_next s) h (mkSs (ss_glob s) (ss_cwd s) (ss_files s) (ss_disk s) (ss_open s ++ [(ss_next s, mkH n m a None)]) (S (ss_next s)))) =
  ss_open s ++ [(ss_next s, mkH n m a (Some h))].
Proof.
  intros [_ L]. unfold hold, set_open. cbn [ss_open]. rewrite map_app. cbn [map fst snd hn_name hn_mode hn_at]. rewrite Nat.eqb_refl. f_equal.
  induction (ss_open s) as [|x l IH]; [reflexivity|]. cbn [map]. pose proof (L x (or_introl eq_refl)). destruct (Nat.eqb_spec (fst x) (ss_next s)); [lia|]. f_equal. apply IH. intros y I. apply L. now right.
Qed.
(** What a call can do to the files open. *)
Lemma step_open s c s' v : sane s -> s_step s c = (s', v) ->
  (ss_open s' = ss_open s /\ ss_next s' = ss_next s) \/
  (exists e, ss_open s' = ss_open s /\ ss_next s' = S (ss_next s) /\ (hn_file e = None)) \/
  (exists e, ss_open s' = ss_open s ++ [(ss_next s, e)] /\ ss_next s' = S (ss_next s)) \/
  (exists id, In id (held s) /\ ss_open s' = ss_open (tb_close id s) /\ ss_next s' = ss_next s /\ (c = CClose id \/ exists n, c = CCloseAll n)).
Proof.
  intros S H. destruct c as [n o a u p l|n|n|id|n|p|fs]; cbn [s_step] in H.
  - apply convert_step in H as [(E & N & _)|(out & m & at_ & s1 & O & _ & _ & _ & N & _ & [(_ & E)|(_ & E)])]; [now left| |].
    + right; right; left. eexists. split; [exact E|exact N].
    + right; left. rewrite filter_fresh in E by exact S. now exists (mkH out m (Some at_) None).
  - apply open_sif_step in H as [(E & N & _)|(out & s1 & f & O & _ & _ & N & _ & E & _)]; [now left|]. right; right; left. apply tb_open_ok in O as (-> & _).
    destruct f as [h|]; [rewrite hold_fresh in E by exact S|]; eexists; (split; [exact E|exact N]).
  - apply open_hdf5_step in H as [(-> & _)|(out & at_ & s1 & f & O & -> & _)]; [now left|]. right; right; left. apply tb_open_ok in O as (-> & _).
    destruct f as [h|]; eexists; (split; [|reflexivity]); [now rewrite hold_fresh|reflexivity].
  - injection H as <- _. destruct (existsb (Nat.eqb id) (held s)) eqn:X; [|now left]. right; right; right. apply existsb_exists in X as (i & I & X). apply Nat.eqb_eq in X. subst i. exists id. repeat split; [exact I|]. now left.
  - pose proof (first_held s n) as F. destruct (held s) as [|i l] eqn:X; injection H as <- _; [now left|]. right; right; right. eexists. split; [apply F; discriminate|]. repeat split. right. now eexists.
  - injection H as <- _. now left.
  - injection H as <- _. now left.
Qed.
Lemma step_sane s c s' v : sane s -> s_step s c = (s', v) -> sane s'.
Proof.
  intros S H. destruct (step_open s c s' v S H) as [(E & N)|[(e & E & N & _)|[(e & E & N)|(id & _ & E & N & _)]]].
  - destruct S as [D L]. split; [now rewrite E|rewrite E, N; exact L].
  - destruct S as [D L]. split; [now rewrite E|]. rewrite E, N. intros x I. apply L in I. lia.
  - destruct S as [D L]. split; rewrite E.
    + rewrite map_app. cbn [map fst]. apply nodup_app; [exact D|repeat constructor; intros []|]. intros x I [<-|[]]. apply in_map_iff in I as (y & F & I). apply L in I. lia.
    + rewrite N. intros x I. apply in_app_or in I as [I|[<-|[]]]; [apply L in I; lia|cbn; lia].
  - destruct (sane_close s id S) as [D L]. split; [now rewrite E|]. rewrite E, N. exact L.
Qed.
(** An open file stays open until it is closed; one that no File object holds
    cannot be closed. *)
Lemma step_keeps s c s' v e : sane s -> s_step s c = (s', v) -> In e (ss_open s) -> hn_file (snd e) = None \/ leaves_open (fst e) c -> In e (ss_open s').
Proof.
  intros S H I K. destruct (step_open s c s' v S H) as [(E & N)|[(x & E & N & _)|[(x & E & N)|(id & F & E & N & Hc)]]]; rewrite E; [exact I|exact I|apply in_or_app; now left|].
  apply close_in; [exact I|]. intro X. destruct K as [K|(K1 & K2)].
  - apply held_in in F as (y & h & F1 & F2). destruct e as [i e]. cbn in X, K. subst i. rewrite (same_entry s id e y S I F1) in K. congruence.
  - destruct Hc as [->|(n & ->)]; [now rewrite X in K1|now apply (K2 n)].
Qed.
Lemma run_sane cs : forall s, sane s -> sane (fst (s_run s cs)).
Proof.
  induction cs as [|c cs IH]; intros s S; [exact S|]. cbn [s_run]. destruct (s_step s c) as [s1 a] eqn:E. specialize (IH s1 (step_sane _ _ _ _ S E)). now destruct (s_run s1 cs).
Qed.
Lemma run_keeps cs : forall s e, sane s -> In e (ss_open s) -> hn_file (snd e) = None \/ Forall (leaves_open (fst e)) cs -> In e (ss_open (fst (s_run s cs))).
Proof.
  induction cs as [|c cs IH]; intros s e S I K; [exact I|]. cbn [s_run]. destruct (s_step s c) as [s1 a] eqn:E. pose proof (step_sane _ _ _ _ S E) as S1.
  assert (I1 : In e (ss_open s1)). { apply (step_keeps s c s1 a); try assumption. destruct K as [K|K]; [now left|right; now inversion K]. }
  specialize (IH s1 e S1 I1). destruct (s_run s1 cs). apply IH. destruct K as [K|K]; [now left|right; now inversion K].
Qed.
(** The HDF5 file behind an open file is not changed. *)
Lemma dget_dset {V} p q (v : V) d : dget here_eqb p (dset q v d) = if here_eqb p q then Some v else dget here_eqb p d.
Proof. reflexivity. Qed.
Lemma step_disk s c s' v e p : s_step s c = (s', v) -> In e (ss_open s) -> hn_mode (snd e) = MRead -> hn_at (snd e) = Some p -> on_disk s' p = on_disk s p.
Proof.
  intros H I M A. destruct c as [n o a u pr l|n|n|id|n|q|fs]; cbn [s_step] in H.
  - apply convert_step in H as [(_ & _ & D & _)|(out & m & at_ & s1 & O & NM & _ & _ & _ & (h & D) & _)]; unfold on_disk; rewrite D; [reflexivity|].
    apply tb_open_ok in O as (_ & _ & B & _). specialize (B e). rewrite dget_dset. destruct (here_eqb p at_) eqn:X; [|reflexivity]. exfalso. apply here_spec in X. subst at_.
    specialize (B p I eq_refl A). rewrite M in B. destruct m; [congruence|discriminate|discriminate].
  - apply open_sif_step in H as [(_ & _ & D & _)|(out & s1 & f & _ & _ & _ & _ & D & _)]; unfold on_disk; now rewrite D.
  - apply open_hdf5_step in H as [(-> & _)|(out & at_ & s1 & f & O & -> & _)]; [reflexivity|]. apply tb_open_ok in O as (-> & _). now destruct f.
  - injection H as <- _. now destruct (existsb (Nat.eqb id) (held s)).
  - destruct (held s); now injection H as <- _.
  - now injection H as <- _.
  - now injection H as <- _.
Qed.
Lemma run_disk cs : forall s e p, sane s -> In e (ss_open s) -> hn_mode (snd e) = MRead -> hn_at (snd e) = Some p -> hn_file (snd e) = None \/ Forall (leaves_open (fst e)) cs ->
  on_disk (fst (s_run s cs)) p = on_disk s p.
Proof.
  induction cs as [|c cs IH]; intros s e p S I M A K; [reflexivity|]. cbn [s_run]. destruct (s_step s c) as [s1 a] eqn:E. pose proof (step_sane _ _ _ _ S E) as S1.
  assert (I1 : In e (ss_open s1)). { apply (step_keeps s c s1 a); try assumption. destruct K as [K|K]; [now left|right; now inversion K]. }
  rewrite <- (step_disk s c s1 a e p E I M A). specialize (IH s1 e p S1 I1 M A). destruct (s_run s1 cs). apply IH. destruct K as [K|K]; [now left|right; now inversion K].
Qed.
(** The buffer size of the module stays. *)
Lemma e_convert_batch d top x u p only g h : g_batch (fst (fst (e_convert d top x u p only g h))) = g_batch g.
Proof. destruct x as [[[fp l] no] ext]. destruct (e_convert _ _ _ _ _ _ _ _) as [[g' h'] r] eqn:E. apply convert_left in E. now destruct E. Qed.
Lemma begun_batch x u p g : g_batch (begun x u p g) = g_batch g.
Proof. now destruct x as [[[fp l] no] ext]. Qed.
Lemma convert_batch s n o a u p l : g_batch (ss_glob (fst (s_convert s n o a u p l))) = g_batch (ss_glob s).
Proof.
  unfold s_convert. cbv zeta.
  destruct (given o) as [x|]; [|destruct a; [reflexivity|]]; (destruct (sif_checked _) as [y|]; [|reflexivity]); (destruct (content _ _); [|apply begun_batch]);
    (destruct (tb_open _ _ _ _) as [s1|] eqn:O; [|apply begun_batch]); match goal with |- context [e_convert ?d ?t ?y ?u ?p ?l ?g ?h] => pose proof (e_convert_batch d t y u p l g h) as B end;
    destruct (e_convert _ _ _ _ _ _ _ _) as [gh [evs|e]]; exact B.
Qed.
Lemma open_sif_batch s n : g_batch (ss_glob (fst (s_open_sif s n))) = g_batch (ss_glob s).
Proof.
  unfold s_open_sif. cbv zeta. destruct (sif_checked _) as [y|]; [|reflexivity]. destruct (content _ _); [|apply begun_batch]. destruct (tb_open _ _ _ _) as [s1|]; [|apply begun_batch].
  match goal with |- context [e_convert ?d ?t ?y ?u ?p ?l ?g ?h] => pose proof (e_convert_batch d t y u p l g h) as B end.
  destruct (e_convert _ _ _ _ _ _ _ _) as [gh [evs|e]]; [|exact B]. destruct (parse_sifname _) as [[[[fp lt] no] ext]|]; [|exact B]. destruct (file_data _); [|exact B].
  destruct (get_data _ _) as [[k o]|]; exact B.
Qed.
Lemma step_batch s c : g_batch (ss_glob (fst (s_step s c))) = g_batch (ss_glob s).
Proof.
  destruct c as [n o a u p l|n|n|id|n|p|fs]; cbn [s_step].
  - apply convert_batch.
  - apply open_sif_batch.
  - unfold s_open_hdf5. cbv zeta. destruct (tb_open _ _ _ _) as [s1|] eqn:O; [|reflexivity]. apply tb_open_ok in O as (-> & _). destruct (file_data _); reflexivity.
  - cbn [fst]. destruct (existsb _ _); reflexivity.
  - destruct (held s); reflexivity.
  - reflexivity.
  - reflexivity.
Qed.
Lemma run_batch cs : forall s, g_batch (ss_glob (fst (s_run s cs))) = g_batch (ss_glob s).
Proof.
  induction cs as [|c cs IH]; intros s; [reflexivity|]. cbn [s_run]. pose proof (step_batch s c) as B. destruct (s_step s c) as [s1 a]. specialize (IH s1).
  destruct (s_run s1 cs) as [s2 as_]. cbn [fst] in *. congruence.
Qed.
