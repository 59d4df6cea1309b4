(** * Properties of calls made one after the other: C73, C74 *)
From Verif Require Import Base Flt SeqFile H5 Schema Parsers Data Files SifName Convert SeqSpec StoreSpec ParserSpec LayoutSpec FileSpec DataSpec
  ParseMore Sample Sample2 SifNameSpec SifNameProofs ConvertSpec AssemblySpec ConvertProofs AssemblyProofs AssemblyOpen ConvertSample ListFacts StoreProofs Halt HaltSpec HaltProofs HaltConv Session SessionSpec SessionProofs SessionMore SessionPath.
Open Scope string_scope.
Open Scope Z_scope.
Open Scope list_scope.

(** [s] is reached by some calls from a program's start. *)
Definition reached (s : sess) : Prop := exists s0 cs, ss_open s0 = [] /\ 0 < g_batch (ss_glob s0) /\ s = fst (s_run s0 cs).
Lemma reached_sane s : reached s -> sane s.
Proof. intros (s0 & cs & E & _ & ->). apply run_sane. split; rewrite E; [constructor|intros e []]. Qed.
Lemma reached_batch s : reached s -> 0 < g_batch (ss_glob s).
Proof. intros (s0 & cs & _ & B & ->). now rewrite run_batch. Qed.

(** C73.  The paths as the operating system reads them: the place a path leads to, the
    last name in it, the text of a place, links followed as long as there are any, and
    the contents at the end. *)
Theorem C73_path : forall fs cwd path q n b,
  (abs_path cwd path = q <-> leads cwd path q) /\
  (base_name path = n <-> exists ns, Forall (fun x => ~ In "/"%char (s2l x)) (ns ++ [n]) /\ s2l path = between ["/"%char] (map s2l (ns ++ [n]))) /\
  (plain_path q -> leads cwd (path_text q) q) /\ (plain_path cwd -> plain_path (abs_path cwd path)) /\
  (links_to fs cwd q -> real_path fs cwd = q) /\
  (content fs q = Some b <-> exists r, links_to fs q r /\ is_at fs r (Body b)) /\
  (file_in (listing fs cwd) n = Some b <-> content fs (cwd ++ [n]) = Some b).
Proof.
  intros fs cwd path q n b. split; [symmetry; apply leads_abs|]. split; [apply base_last|]. split; [intro P; apply leads_abs; now apply abs_text|]. split; [intro P; now apply abs_plain|].
  split; [apply links_real|]. split; [apply content_links|]. now rewrite found_listing.
Qed.
Print Assumptions C73_path.
(** The file a call reads, and where a change of directory leads. *)
Theorem C73_place : forall s path q r, leads (ss_cwd s) path r ->
  (links_to (ss_files s) r q -> sif_place s path = q) /\ snd (s_step s (CChdir path)) = Ok GNone /\
  (forall path' q', leads r path' q' <-> abs_path (ss_cwd (fst (s_step s (CChdir path)))) path' = q').
Proof.
  intros s path q r L. apply leads_abs in L. split; [|split; [reflexivity|]].
  - intro K. unfold sif_place. rewrite L. now apply links_real.
  - intros path' q'. cbn [s_step fst ss_cwd]. rewrite L. apply leads_abs.
Qed.
Print Assumptions C73_place.
(** The directory of the file itself is where the other files are looked for;
    files elsewhere do not matter. *)
Definition with_files (fs : files) (s : sess) : sess := mkSs (ss_glob s) (ss_cwd s) fs (ss_disk s) (ss_open s) (ss_next s).
Theorem C73_directory : forall s fs sifname p out append usefp prefix only,
  sif_place s sifname = p -> sif_place (with_files fs s) sifname = p ->
  (forall n, content fs (removelast p ++ [n]) = content (ss_files s) (removelast p ++ [n])) ->
  (forall c, c = CConvert sifname out append usefp prefix only \/ c = COpenSif sifname ->
    snd (s_step (with_files fs s) c) = snd (s_step s c) /\ fst (s_step (with_files fs s) c) = with_files fs (fst (s_step s c))).
Proof.
  intros s fs sifname p out append usefp prefix only P P' L c [-> | ->]; cbn [s_step].
  - unfold s_convert. cbv zeta. rewrite P, P'. cbn [with_files ss_files ss_cwd ss_glob].
    assert (K : forall X : option string,
      let f (s1 : sess) (fs1 : files) := match sif_checked (s2l (last p "")) with
        | Err e => (s1, Err e)
        | Ok x => match content fs1 p with
          | None => (set_glob (begun x usefp prefix (ss_glob s)) s1, Err FileNotFoundError)
          | Some _ => match tb_open s1 (match X with Some n => n | None => default_name (last p "") end) (if append then MAppend else MWrite) (Some (abs_path (ss_cwd s) (match X with Some n => n | None => default_name (last p "") end))) with
            | Err e => (set_glob (begun x usefp prefix (ss_glob s)) s1, Err e)
            | Ok s2 => match e_convert (listing fs1 (removelast p)) (last p "") x usefp prefix only (ss_glob s)
                      (if append then match on_disk s1 (abs_path (ss_cwd s) (match X with Some n => n | None => default_name (last p "") end)) with Some h => h | None => [] end else []) with
              | (gh, Err e) => (set_disk (abs_path (ss_cwd s) (match X with Some n => n | None => default_name (last p "") end)) (snd gh) (set_glob (fst gh) s2), Err e)
              | (gh, Ok evs) => (tb_close (ss_next s1) (set_disk (abs_path (ss_cwd s) (match X with Some n => n | None => default_name (last p "") end)) (snd gh) (set_glob (fst gh) s2)),
                     Ok (GPlace (abs_path (ss_cwd s) (match X with Some n => n | None => default_name (last p "") end)) evs))
              end end end end in
      snd (f (with_files fs s) fs) = snd (f s (ss_files s)) /\ fst (f (with_files fs s) fs) = with_files fs (fst (f s (ss_files s)))).
    { intro X. cbv zeta. destruct (sif_checked (s2l (last p ""))) as [x|e] eqn:E; [|now split].
      assert (NP : p <> []) by (intros ->; discriminate). pose proof (L (last p "")) as Lp. rewrite <- (app_removelast_last "" NP) in Lp. rewrite Lp.
      destruct (content (ss_files s) p); [|now split]. set (n := match X with Some n => n | None => _ end). unfold tb_open, on_disk. cbn [with_files ss_open ss_disk ss_glob ss_cwd ss_files ss_next].
      destruct (existsb _ (ss_open s)); [now split|]. destruct (existsb _ (ss_open s)); [now split|].
      rewrite (e_convert_ext (listing fs (removelast p)) (listing (ss_files s) (removelast p))) by (intro m; now rewrite !found_listing).
      destruct append; cbv iota; destruct (e_convert _ _ _ _ _ _ _ _) as [gh [evs|e]]; now split. }
    destruct (given out) as [n|]; [exact (K (Some n))|]. destruct append; [now split|exact (K None)].
  - unfold s_open_sif. cbv zeta. rewrite P, P'. cbn [with_files ss_files ss_cwd ss_glob]. destruct (sif_checked (s2l (last p ""))) as [x|e] eqn:E; [|now split].
    assert (NP : p <> []) by (intros ->; discriminate). pose proof (L (last p "")) as Lp. rewrite <- (app_removelast_last "" NP) in Lp. rewrite Lp.
    destruct (content (ss_files s) p); [|now split]. unfold tb_open. cbn [with_files ss_open ss_disk ss_glob ss_cwd ss_files ss_next].
    destruct (existsb _ (ss_open s)); [now split|]. 
    rewrite (e_convert_ext (listing fs (removelast p)) (listing (ss_files s) (removelast p))) by (intro m; now rewrite !found_listing).
    destruct (e_convert _ _ _ _ _ _ _ _) as [gh [evs|e]]; [|now split]. destruct (parse_sifname _) as [[[[fp lt] no] ext]|e]; [|now split]. destruct (file_data _) as [es|e]; [|now split].
    destruct (get_data _ es) as [[k o]|e]; now split.
Qed.
Print Assumptions C73_directory.
(** A file opened by any path that leads to it under its own name. *)
Theorem C73_opened : forall s sifname d D top fp letter no ext k id b segs ps,
  reached s -> sif_place s sifname = d ++ [top] -> base_name sifname = top ->
  (forall n, file_in D n = content (ss_files s) (d ++ [n])) ->
  sesam_name (s2l top) (s2l fp, s2l letter, no, s2l ext) -> no_extension (s2l fp) -> ~ sin_ext (s2l ext) -> upper_letter letter ->
  no = s2l (dec id) -> assembly D fp letter ext fp k id b segs ps -> file_in D top = Some b -> complete letter segs ->
  (forall e, In e (ss_open s) -> hn_name (snd e) <> default_name top) ->
  exists s' h kd o pos, s_step s (COpenSif sifname) = (s', Ok (GData (ss_next s) kd o)) /\
    ss_open s' = ss_open s ++ [(ss_next s, mkH (default_name top) MWrite None (Some h))] /\ ss_disk s' = ss_disk s /\
    tables h [nm_of fp letter id] segs /\ top_pos segs pos /\ opens_as letter pos kd /\ d_group o = [nm_of fp letter id] /\ d_open o = true.
Proof.
  intros s sifname d D top fp letter no ext k id b segs ps R P B L N1 N2 N3 N4 N5 A F C N. pose proof (reached_batch s R) as G.
  destruct (open_assembly D top fp letter no ext k id b segs ps (ss_glob s) N1 N2 N3 N4 N5 A F C G) as (g' & h & kd & o & pos & O & T & TP & K & Q1 & _ & _ & _ & _ & Q2).
  cbn [s_step]. assert (F' : content (ss_files s) (d ++ [top]) = Some b) by now rewrite <- L.
  rewrite (open_sif_at s sifname d top D b g' h kd o (reached_sane s R) P B L F' N O). eexists. exists h, kd, o, pos. repeat (split; [first [reflexivity|assumption]|]). assumption.
Qed.
Print Assumptions C73_opened.
(** Converted, and opened again by the path that is given back, from any
    directory. *)
Theorem C73_returned : forall s sifname d D top out append usefp prefix only st g' st' evs b,
  reached s -> plain_path (ss_cwd s) -> sif_place s sifname = d ++ [top] -> (forall n, file_in D n = content (ss_files s) (d ++ [n])) -> file_in D top = Some b ->
  let name := match given out with Some n => n | None => default_name top end in
  let at_ := abs_path (ss_cwd s) name in
  (forall e, In e (ss_open s) -> hn_name (snd e) <> name /\ hn_at (snd e) <> Some at_ /\ hn_name (snd e) <> path_text at_) ->
  store_in st name = match on_disk s at_ with Some h => h | None => [] end ->
  sif2hdf5 D top out append usefp prefix only (ss_glob s) st = Ok (g', st', evs) ->
  exists s1, s_step s (CConvert sifname out append usefp prefix only) = (s1, Ok (GPlace at_ evs)) /\ ss_open s1 = ss_open s /\
    (forall q, q <> at_ -> on_disk s1 q = on_disk s q) /\
    forall there es, file_data (store_in st' name) = Ok es ->
      exists s3, s_run s1 [CChdir there; COpenHdf5 (path_text at_)] = (s3, [Ok GNone; Ok (GFile (ss_next s1) es)]) /\
        In (ss_next s1, mkH (path_text at_) MRead (Some at_) (Some (store_in st' name))) (ss_open s3).
Proof.
  intros s sifname d D top out append usefp prefix only st g' st' evs b R PC P L F name at_ N E H. assert (F' : content (ss_files s) (d ++ [top]) = Some b) by now rewrite <- L.
  pose proof (reached_sane s R) as S.
  destruct (convert_at s sifname out append usefp prefix only d top D b st g' st' evs S P L F' (fun e I => proj1 (N e I)) (fun e I => proj1 (proj2 (N e I))) E H)
    as (s1 & V & DK & OT & OP & CW & FS & GL). fold name in V, DK. fold at_ in V, DK, OT.
  exists s1. split; [exact V|]. split; [exact OP|]. split; [exact OT|]. intros there es FD.
  assert (S1 : sane s1) by exact (step_sane s (CConvert sifname out append usefp prefix only) s1 _ S V).
  set (s2 := mkSs (ss_glob s1) (abs_path (ss_cwd s1) there) (ss_files s1) (ss_disk s1) (ss_open s1) (ss_next s1)).
  assert (S2 : sane s2) by (unfold s2; now apply sane_with).
  destruct (open_hdf5_at s2 (path_text at_) at_ (store_in st' name) es S2) as (s3 & O3 & P3 & _).
  - apply abs_text. unfold at_. now apply abs_plain.
  - exact DK.
  - exact FD.
  - intros e I X. exfalso. unfold s2 in I. cbn [ss_open] in I. rewrite OP in I. exact (proj2 (proj2 (N e I)) X).
  - exists s3. cbn [s_run s_step]. fold s2. rewrite O3. split; [reflexivity|]. rewrite P3. apply in_or_app. right. now left.
Qed.
Print Assumptions C73_returned.

(** Examples: the assembly x_dir in /a, another file of the same name in /c, links
    in /b. *)
Definition x_files : files := map (fun e => (["a"; fst e], Body (snd e))) x_dir ++
  [(["b"; "xR1.SIF"], Link "../a/xR1.SIF"); (["b"; "yR2.SIF"], Link "/b/xR1.SIF"); (["b"; "xR2H2.SIF"], Body s_text); (["c"; "xR1.SIF"], Body s_text); (["c"; "o"], Link "o")].
Definition at0 (cwd : place_of) : sess := mkSs glob0 cwd x_files [] [] 0.
Definition brief (r : Res given_back) : Res (list string * list event * list (list string)) :=
  match r with
  | Ok GNone => Ok ([], [], []) | Ok (GPlace p evs) => Ok (p, evs, []) | Ok (GFile _ es) => Ok ([], [], map (fun e => d_group (obj_of e)) es)
  | Ok (GData _ _ o) => Ok ([], [], [d_group o]) | Err e => Err e
  end.
Definition ran (cwd : place_of) (cs : list scall) := map brief (snd (s_run (at0 cwd) cs)).
Example C73_case_path : leads ["c"; "d"] "../.././a//xR1.SIF" ["a"; "xR1.SIF"] /\ leads ["c"] "/b/yR2.SIF" ["b"; "yR2.SIF"] /\ plain_path ["a"; "xR1.SIF"] /\ path_text ["a"; "xR1.SIF"] = "/a/xR1.SIF" /\
  links_to x_files ["b"; "yR2.SIF"] ["a"; "xR1.SIF"] /\ (exists b, is_at x_files ["a"; "xR1.SIF"] (Body b)) /\ (forall q, ~ links_to x_files ["c"; "o"] q).
Proof.
  split; [apply leads_abs; reflexivity|]. split; [apply leads_abs; reflexivity|].
  split; [repeat constructor; try discriminate; cbv; intuition discriminate|]. split; [reflexivity|].
  assert (H : real_path x_files ["b"; "yR2.SIF"] = ["a"; "xR1.SIF"]) by (vm_compute; reflexivity).
  assert (B : exists b, found x_files ["a"; "xR1.SIF"] = Some (Body b)) by (eexists; vm_compute; reflexivity). destruct B as (b & B).
  split; [rewrite <- H; apply follow_links; fold (real_path x_files ["b"; "yR2.SIF"]); rewrite H; intros t X; congruence|]. split; [exists b; now apply found_at|].
  intros q L. pose proof (links_real _ _ _ L) as R. assert (R' : real_path x_files ["c"; "o"] = ["c"; "o"]) by (vm_compute; reflexivity). rewrite R' in R. subst q.
  apply links_chain in L as (l & C). destruct l as [|x l]; [destruct C as (_ & C); apply (C "o"); vm_compute; reflexivity|].
  assert (S : forall k l, (length l <= k)%nat -> ~ chain x_files l ["c"; "o"] ["c"; "o"]).
  { clear. induction k as [|k IH]; intros [|x l] L C; try (destruct C as (_ & C); apply (C "o"); vm_compute; reflexivity); [cbn in L; lia|].
    destruct C as (_ & t & F & C). assert (F' : found x_files ["c"; "o"] = Some (Link "o")) by (vm_compute; reflexivity). rewrite F' in F. injection F as <-.
    change (abs_path (removelast ["c"; "o"]) "o") with ["c"; "o"] in C. apply (IH l); [cbn [length] in L; lia|exact C]. }
  exact (S _ _ (le_n _) C).
Qed.
Example C73_case : reached (at0 ["b"]) /\ sif_place (at0 ["b"]) "xR1.SIF" = ["a"] ++ ["xR1.SIF"] /\ sif_place (at0 ["c"; "d"]) "../.././a//xR1.SIF" = ["a"; "xR1.SIF"] /\
  (forall n, file_in (listing x_files ["a"]) n = content x_files (["a"] ++ [n])) /\ content x_files ["c"; "o"] = None /\
  ran ["b"] [CConvert "xR1.SIF" None false true "" []; CChdir "../c"; COpenHdf5 "/b/xR1.h5"; COpenHdf5 "xR1.h5"] =
    [Ok (["b"; "xR1.h5"], [Read "xR1.SIF"; Read "xR2H2.SIF"], []); Ok ([], [], []); Ok ([], [], [["xR1"]; ["xR1"; "R2_1"]]); Err FileNotFoundError].
Proof.
  split; [exists (at0 ["b"]), []; now split|]. split; [reflexivity|]. split; [reflexivity|]. split; [intro n; apply found_listing|]. split; [reflexivity|]. vm_compute. reflexivity.
Qed.
(** Through a link of another name the file is read and stored, but looked up under
    the name of the link. *)
Theorem C73_link_refuted : exists s sifname, reached s /\ content (ss_files s) (abs_path (ss_cwd s) sifname) = Some s_text /\
  sif_checked (s2l (base_name sifname)) = Ok (s2l "y", s2l "R", s2l "2", s2l "SIF") /\ sif_place s sifname = ["a"; "xR1.SIF"] /\
  snd (s_step s (COpenSif sifname)) = Err KeyError.
Proof. exists (at0 ["b"]), "yR2.SIF". split; [exists (at0 ["b"]), []; now split|]. repeat split; vm_compute; reflexivity. Qed.
Print Assumptions C73_link_refuted.
(** Without an output name the HDF5 file gets the name of the input in the current
    directory: files of the same name replace each other. *)
Theorem C73_output_refuted : exists s a b p evs, reached s /\ sif_place s a <> sif_place s b /\
  map (fun r => match r with Ok (GPlace q l) => Some (q, l) | _ => None end)
    (snd (s_run s [CConvert a None false true "" []; CConvert b None false true "" []])) = [Some (p, evs); Some (p, [Read "xR1.SIF"; Missing "xR2H2.SIF"])] /\
  evs <> [Read "xR1.SIF"; Missing "xR2H2.SIF"].
Proof.
  exists (at0 []), "a/xR1.SIF", "c/xR1.SIF", ["xR1.h5"], [Read "xR1.SIF"; Read "xR2H2.SIF"]. split; [exists (at0 []), []; now split|].
  split; [vm_compute; discriminate|]. split; [vm_compute; reflexivity|discriminate].
Qed.
Print Assumptions C73_output_refuted.

(** C74.  When no call has raised, the HDF5 files open are those which calls have
    given and which have not been closed. *)
Theorem C74_in_use : forall s0 cs s rs, ss_open s0 = [] -> s_run s0 cs = (s, rs) -> (forall r, In r rs -> ~ raised r) ->
  forall id, In id (map fst (ss_open s)) <-> in_use cs rs id.
Proof.
  intros s0 cs s rs E R OK id. rewrite (run_ids cs s0 s rs); [|split; rewrite E; [constructor|intros e []]|intros e; rewrite E; intros []|exact R|exact OK].
  rewrite E. cbn [map In]. tauto.
Qed.
Print Assumptions C74_in_use.
(** Whatever is called afterwards, also calls that raise: a file in use stays as it
    is until it is closed, and so does the HDF5 file on disk behind it. *)
Theorem C74_stays : forall s cs e, reached s -> In e (ss_open s) -> Forall (leaves_open (fst e)) cs ->
  In e (ss_open (fst (s_run s cs))) /\ (forall p, hn_mode (snd e) = MRead -> hn_at (snd e) = Some p -> on_disk (fst (s_run s cs)) p = on_disk s p).
Proof.
  intros s cs e R I L. pose proof (reached_sane s R) as S. split; [apply run_keeps; auto|]. intros p M A. apply (run_disk cs s e p S I M A). now right.
Qed.
Print Assumptions C74_stays.
Example C74_case : 
  ran ["c"] [COpenSif "/a/xR1.SIF"; CConvert "xR1.SIF" (Some "z.h5") false true "" []; COpenHdf5 "z.h5"; COpenHdf5 "/c/z.h5"; CConvert "xR1.SIF" (Some "z.h5") false true "" [];
              CClose 0; COpenSif "xR1.SIF"; CClose 2; CClose 3; CConvert "xR1.SIF" (Some "z.h5") true true "p" []; COpenHdf5 "z.h5"] =
    [Ok ([], [], [["xR1"]]); Ok (["c"; "z.h5"], [Read "xR1.SIF"; Missing "xR2H2.SIF"], []); Ok ([], [], [["xR1"]]); Ok ([], [], [["xR1"]]); Err HDF5ExtError; Ok ([], [], []);
     Ok ([], [], [["xR1"]]); Ok ([], [], []); Ok ([], [], []); Ok (["c"; "z.h5"], [Read "xR1.SIF"; Missing "xR2H2.SIF"], []); Ok ([], [], [["pxR1"]; ["xR1"]])].
Proof. vm_compute. reflexivity. Qed.
(** A call that raises while the file is read, or when its data objects are made,
    leaves the HDF5 file in memory open, where nothing can close it: no file of that
    name is opened in this process any more. *)
Theorem C74_left_refuted : forall s sifname x e, reached s -> let p := sif_place s sifname in let top := last p "" in
  sif_checked (s2l top) = Ok x -> content (ss_files s) p <> None -> (forall a, In a (ss_open s) -> hn_name (snd a) <> default_name top) ->
  (convert (listing (ss_files s) (removelast p)) top x true "" [] (ss_glob s) [] = Err e \/
   exists gh evs y, convert (listing (ss_files s) (removelast p)) top x true "" [] (ss_glob s) [] = Ok (gh, evs) /\ parse_sifname (s2l (base_name sifname)) = Ok y /\ file_data (snd gh) = Err e) ->
  snd (s_step s (COpenSif sifname)) = Err e /\
  forall cs sifname' out usefp prefix only, let s' := fst (s_run (fst (s_step s (COpenSif sifname))) cs) in
    content (ss_files s') (sif_place s' sifname') <> None -> last (sif_place s' sifname') "" = top ->
    snd (s_step s' (COpenSif sifname')) = Err ValueError /\
    (given out = None -> snd (s_step s' (CConvert sifname' out false usefp prefix only)) = Err ValueError).
Proof.
  intros s sifname x e R p top X C N V. pose proof (reached_sane s R) as S. destruct (left_open s sifname x e S X C N V) as (E & I). split; [exact E|].
  intros cs sifname' out usefp prefix only s' C' T.
  assert (I' : In (ss_next s, mkH (default_name top) MWrite None None) (ss_open s')).
  { apply run_keeps; [|exact I|now left]. destruct (s_step s (COpenSif sifname)) as [s1 v] eqn:ST. exact (step_sane s _ s1 v S ST). }
  split.
  - apply (name_taken s' sifname' _ x I'); [now rewrite T|exact C'|now rewrite T].
  - intro O. apply (name_taken_convert s' sifname' out _ x usefp prefix only I'); [now rewrite T|exact C'|now rewrite O, T].
Qed.
Print Assumptions C74_left_refuted.
(** A file broken off in the middle, then replaced by the whole; a hydrodynamic file
    without WGLOBDEF. *)
Definition half : files := [(["xR1.SIF"], Body (firstn 120 s_text)); (["wG2.SIF"], Body b_text)].
Definition whole : files := [(["xR1.SIF"], Body s_text); (["wG2.SIF"], Body b_text)].
Example C74_case_left : (exists e, convert (listing half []) "xR1.SIF" (s2l "x", s2l "R", s2l "1", s2l "SIF") true "" [] glob0 [] = Err e) /\
  ran [] [CFiles half; COpenSif "xR1.SIF"; CFiles whole; COpenSif "xR1.SIF"; CCloseAll 0; CConvert "xR1.SIF" None false true "" [];
          COpenSif "wG2.SIF"; COpenSif "wG2.SIF"; CConvert "xR1.SIF" (Some "y.h5") false true "" []] =
    [Ok ([], [], []); Err IndexError; Ok ([], [], []); Err ValueError; Ok ([], [], []); Err ValueError; Err NoSuchRecordError; Err ValueError; Ok (["y.h5"], [Read "xR1.SIF"; Missing "xR2H2.SIF"], [])] /\
  ran [] [CFiles whole; COpenSif "xR1.SIF"] = [Ok ([], [], []); Ok ([], [], [["xR1"]])].
Proof. split; [eexists; vm_compute; reflexivity|]. split; vm_compute; reflexivity. Qed.
(** A conversion into an HDF5 file that is open for reading, appending or not, raises:
    the same name is refused by PyTables, another name of the same place by HDF5.
    The files open, and those on disk, stay. *)
Theorem C74_reading : forall s sifname n append u prefix only a x,
  In a (ss_open s) -> hn_mode (snd a) = MRead -> hn_at (snd a) = Some (abs_path (ss_cwd s) n) -> n <> "" ->
  sif_checked (s2l (last (sif_place s sifname) "")) = Ok x -> content (ss_files s) (sif_place s sifname) <> None ->
  let after := s_step s (CConvert sifname (Some n) append u prefix only) in
  (hn_name (snd a) = n -> snd after = Err ValueError) /\ ((forall b, In b (ss_open s) -> hn_name (snd b) <> n) -> snd after = Err HDF5ExtError) /\
  (exists e, snd after = Err e /\ (e = ValueError \/ e = HDF5ExtError)) /\
  ss_open (fst after) = ss_open s /\ ss_disk (fst after) = ss_disk s.
Proof.
  intros s sifname n append u prefix only a x I M A N X C. cbv zeta.
  assert (T : exists e, tb_open s n (if append then MAppend else MWrite) (Some (abs_path (ss_cwd s) n)) = Err e /\ (e = ValueError \/ e = HDF5ExtError) /\
    (hn_name (snd a) = n -> e = ValueError) /\ ((forall b, In b (ss_open s) -> hn_name (snd b) <> n) -> e = HDF5ExtError)).
  { unfold tb_open. destruct (existsb (fun e => String.eqb (hn_name (snd e)) n && name_clash _ (hn_mode (snd e))) (ss_open s)) eqn:Y.
    - exists ValueError. split; [reflexivity|]. split; [now left|]. split; [reflexivity|]. intro B. apply existsb_exists in Y as (b & Ib & Yb). apply andb_prop in Yb as [Yb _]. apply String.eqb_eq in Yb. now elim (B b Ib).
    - replace (existsb _ (ss_open s)) with true.
      + exists HDF5ExtError. split; [reflexivity|]. split; [now right|]. split; [|reflexivity]. intro B. rewrite <- not_true_iff_false in Y. elim Y. apply existsb_exists. exists a. split; [exact I|]. rewrite B, String.eqb_refl, M. now destruct append.
      + symmetry. apply existsb_exists. exists a. split; [exact I|]. rewrite A, M, (proj2 (here_spec _ _) eq_refl). now destruct append. }
  destruct T as (e & T & E1 & E2 & E3). cbn [s_step]. unfold s_convert. replace (given (Some n)) with (Some n) by (destruct n; [now elim N|reflexivity]). cbv zeta.
  rewrite X. destruct (content _ _); [|contradiction]. rewrite T. cbn [fst snd set_glob ss_open ss_disk]. split; [intro K; now rewrite (E2 K)|]. split; [intro K; now rewrite (E3 K)|]. split; [eauto|]. split; reflexivity.
Qed.
Print Assumptions C74_reading.
Definition as_given (e : nat * hnd) : string * fmode * option place_of := (hn_name (snd e), hn_mode (snd e), hn_at (snd e)).
Example C74_case_reading : let s := fst (s_run (at0 ["c"]) [CConvert "xR1.SIF" (Some "z.h5") false true "" []; COpenHdf5 "z.h5"]) in
  map as_given (ss_open s) = [("/c/z.h5", MRead, Some (abs_path (ss_cwd s) "z.h5"))] /\
  (exists x, sif_checked (s2l (last (sif_place s "xR1.SIF") "")) = Ok x) /\ content (ss_files s) (sif_place s "xR1.SIF") <> None /\
  snd (s_step s (CConvert "xR1.SIF" (Some "z.h5") true true "p" [])) = Err HDF5ExtError /\ snd (s_step s (CConvert "xR1.SIF" (Some "/c/z.h5") true true "p" [])) = Err ValueError.
Proof. split; [vm_compute; reflexivity|]. split; [eexists; vm_compute; reflexivity|]. split; [vm_compute; discriminate|]. split; vm_compute; reflexivity. Qed.
(** Two files of the same name in different directories cannot be in use through
    open_sif at the same time, nor one of them and a conversion of the other. *)
Theorem C74_same_name_refuted : exists s a b, reached s /\ sif_place s a <> sif_place s b /\
  (exists id k o, snd (s_step s (COpenSif a)) = Ok (GData id k o)) /\ (exists id k o, snd (s_step s (COpenSif b)) = Ok (GData id k o)) /\
  map brief (snd (s_run s [COpenSif a; COpenSif b; CConvert b None false true "" []])) = [Ok ([], [], [["xR1"]]); Err ValueError; Err ValueError].
Proof.
  exists (at0 []), "a/xR1.SIF", "c/xR1.SIF". split; [exists (at0 []), []; now split|]. split; [vm_compute; discriminate|].
  split; [do 3 eexists; vm_compute; reflexivity|]. split; [do 3 eexists; vm_compute; reflexivity|]. vm_compute. reflexivity.
Qed.
Print Assumptions C74_same_name_refuted.

(** C75.  A conversion with append that raises: the HDF5 files are there, with all
    that was in them but for groups named by prefix and letter. *)
Theorem C75_on_disk : forall s sifname out usefp prefix pre only fp letter no ext s' e,
  s_step s (CConvert sifname out true usefp prefix only) = (s', Err e) ->
  sif_checked (s2l (last (sif_place s sifname) "")) = Ok (fp, letter, no, ext) -> pre = (if usefp then prefix ++ l2s fp else prefix)%string ->
  forall q h, on_disk s q = Some h -> exists h', on_disk s' q = Some h' /\
    (forall p n, h5_find p h = Some n -> ~ named pre (l2s letter) p -> h5_find p h' = Some n) /\
    (forall p, h5_find p h = None -> ~ named pre (l2s letter) p -> h5_find p h' = None).
Proof.
  intros s sifname out usefp prefix pre only fp letter no ext s' e H X Hpre q h Q. cbn [s_step] in H. unfold s_convert in H. cbv zeta in H. rewrite X in H.
  assert (SAME : on_disk s' q = Some h -> exists h', on_disk s' q = Some h' /\
    (forall p n, h5_find p h = Some n -> ~ named pre (l2s letter) p -> h5_find p h' = Some n) /\
    (forall p, h5_find p h = None -> ~ named pre (l2s letter) p -> h5_find p h' = None)) by (intros Y; exists h; now split).
  destruct (given out) as [o|]; [|injection H as <- _; now apply SAME].
  destruct (content _ _); [|injection H as <- _; now apply SAME].
  destruct (tb_open _ _ _ _) as [s1|] eqn:O; [|injection H as <- _; now apply SAME]. apply tb_open_ok in O as (-> & _).
  destruct (e_convert _ _ _ _ _ _ _ _) as [[g1 h1] [evs|e']] eqn:E; [discriminate|]. injection H as <- _. cbn [fst snd] in *.
  destruct (here_eqb q (abs_path (ss_cwd s) o)) eqn:EQ.
  - apply here_spec in EQ. subst q. exists h1. split; [unfold on_disk, set_disk, set_glob; cbn [ss_disk]; unfold dset; cbn [dget]; now rewrite here_refl|].
    rewrite Q in E. apply convert_left in E. cbv zeta in E. rewrite <- Hpre in E. destruct E as (_ & N & ws & Fw & K). rewrite Forall_forall in Fw. split.
    + intros p n P NP. destruct (K p n P) as [Y|(I & _)]; [exact Y|]. exfalso. apply NP. exact (Fw p I).
    + intros p P NP. destruct (h5_find p h1) eqn:Y; [|reflexivity]. destruct (N p) as [Z|Z]; [congruence|congruence|]. exfalso. now apply NP.
  - apply SAME. unfold on_disk, set_disk, set_glob. cbn [ss_disk]. unfold dset. cbn [dget]. rewrite EQ. exact Q.
Qed.
Print Assumptions C75_on_disk.
Definition after_one : sess := fst (s_run (at0 []) [CFiles whole; CConvert "xR1.SIF" (Some "y.h5") false true "" []; CFiles half]).
Example C75_on_disk_case : snd (s_step after_one (CConvert "xR1.SIF" (Some "y.h5") true true "z" [])) = Err IndexError /\
  sif_checked (s2l (last (sif_place after_one "xR1.SIF") "")) = Ok (s2l "x", s2l "R", s2l "1", s2l "SIF") /\
  match on_disk after_one ["y.h5"] with Some h => h5_find ["xR1"; "gnode"] h <> None | None => False end /\
  map brief (snd (s_run after_one [CConvert "xR1.SIF" (Some "y.h5") true true "z" []; CFiles whole; CConvert "xR1.SIF" (Some "y.h5") true true "w" []])) =
    [Err IndexError; Ok ([], [], []); Ok (["y.h5"], [Read "xR1.SIF"; Missing "xR2H2.SIF"], [])].
Proof.
  split; [vm_compute; reflexivity|]. split; [vm_compute; reflexivity|]. split; [vm_compute; discriminate|vm_compute; reflexivity].
Qed.
(** Without append the data of an earlier conversion is gone even if the new one
    fails. *)
Theorem C75_replaced_refuted : exists s sifname out at_ h es h', reached s /\ on_disk s at_ = Some h /\ file_data h = Ok es /\ h5_find ["xR1"; "gnode"] h <> None /\
  (exists e, snd (s_step s (CConvert sifname (Some out) false true "" [])) = Err e) /\
  on_disk (fst (s_step s (CConvert sifname (Some out) false true "" []))) at_ = Some h' /\ h5_find ["xR1"; "gnode"] h' = None.
Proof.
  exists after_one, "xR1.SIF", "y.h5", ["y.h5"]. do 3 eexists.
  split; [exists (at0 []), [CFiles whole; CConvert "xR1.SIF" (Some "y.h5") false true "" []; CFiles half]; now split|].
  split; [vm_compute; reflexivity|]. split; [vm_compute; reflexivity|]. split; [vm_compute; discriminate|]. split; [eexists; vm_compute; reflexivity|].
  split; [vm_compute; reflexivity|vm_compute; reflexivity].
Qed.
Print Assumptions C75_replaced_refuted.
