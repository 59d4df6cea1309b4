(** * JobsProofs: several files converted into one HDF5 file *)
From Coq Require Import Sorting.Sorted.
From Verif Require Import Base Flt SeqFile H5 Schema Parsers Data Hydro Files SifName Convert SeqSpec StoreSpec ParserSpec LayoutSpec FileSpec DataSpec
  ListFacts StoreProofs ParserRun FileProofs SifNameSpec SifNameProofs ConvertSpec AssemblySpec ConvertProofs AssemblyProofs AssemblyOpen AssemblyData HydroStart JobsSpec.
Open Scope string_scope.
Open Scope Z_scope.
Open Scope list_scope.

Lemma opt_dec (x y : option string) : {x = y} + {x <> y}. Proof. repeat decide equality. Qed.

(* ---- the nodes of one job ---- *)
Definition in_store (d : dir) (usefp : bool) (h : h5) (j : job) : Prop :=
  (exists pos, top_pos (j_segs j) pos /\ labelled h [j_top usefp j] (j_letter j) (j_id j) None pos (j_segs j)) /\
  tables h [j_top usefp j] (j_segs j) /\
  (forall p b, In p (j_lower j) -> file_in d (lower_file (j_fp j) (j_ext j) p) = Some b -> place_read h (j_pre usefp j) (j_letter j) (j_id j) (j_kind j) p b) /\
  (forall s a, h5_find [j_top usefp j; s] h = Some (Group a) -> exists p b, has_sub d usefp j p b s).
Lemma own_head nm r q : In q (all_own (nm :: r)) -> hd_error q = Some nm.
Proof. intros H. apply all_own_under in H as (s & ->). reflexivity. Qed.
Lemma in_store_keep d usefp h h' j : in_store d usefp h j -> (forall q, hd_error q = Some (j_top usefp j) -> h5_find q h' = h5_find q h) ->
  in_store d usefp h' j.
Proof.
  intros ((pos & TP & L) & T & PR & S) K. split; [|split; [|split]].
  - exists pos. split; [exact TP|]. unfold labelled in *. now rewrite K.
  - apply (tables_keep h); [exact T|]. intros q Hq. apply K. exact (own_head _ _ _ Hq).
  - intros p b Hp F bs segs C1 C2 C3. destruct (PR p b Hp F bs segs C1 C2 C3) as (T1 & L1).
    pose proof (lower_group_sub (j_pre usefp j) (j_letter j) (j_id j) p) as E. fold (j_top usefp j) in E. split.
    + apply (tables_keep h); [exact T1|]. intros q Hq. apply K. rewrite E in Hq. exact (own_head _ _ _ Hq).
    + unfold labelled in *. rewrite K; [exact L1|]. now rewrite E.
  - intros s a Hs. apply (S s a). rewrite <- K; [exact Hs|reflexivity].
Qed.
Record holds (d : dir) (usefp : bool) (h : h5) (l : list job) : Prop := {
  ho_in : forall j, In j l -> in_store d usefp h j;
  ho_only : forall q, h5_find q h <> None -> exists j, In j l /\ hd_error q = Some (j_top usefp j) }.
Lemma holds_empty d usefp : holds d usefp [] [].
Proof. constructor; [intros j []|]. intros q H. now elim H. Qed.
Lemma job_upper d usefp j : job_ok d usefp j -> upper_letter (j_letter j).
Proof. intros [_ _ _ [I|(-> & _)] _ _ _ _]; unfold upper_letter; cbn in *; intuition. Qed.
Lemma convert_job d usefp h l j g : holds d usefp h l -> job_ok d usefp j -> ~ In (j_top usefp j) (map (j_top usefp) l) -> 0 < g_batch g ->
  exists g' h', convert d (j_name j) (s2l (j_fp j), s2l (j_letter j), j_no j, s2l (j_ext j)) usefp (j_prefix j) [] g h = Ok (g', h', j_events d j) /\
    holds d usefp h' (l ++ [j]) /\ 0 < g_batch g'.
Proof.
  intros [HI HO] JO N B. pose proof (job_upper _ _ _ JO) as U. destruct JO as [_ _ _ _ _ _ JF JA].
  assert (UN : unused (j_top usefp j) h).
  { intros q Hq. destruct (h5_find q h) eqn:E; [|reflexivity]. exfalso. destruct (HO q) as (j' & I & E'); [now rewrite E|].
    apply N. rewrite Hq in E'. injection E' as ->. now apply in_map. }
  destruct (convert_assembly_more d (j_name j) (j_fp j) (j_letter j) (j_no j) (j_ext j) usefp (j_prefix j) (j_pre usefp j) (j_kind j) (j_id j) (j_bytes j) (j_segs j) (j_places j) g h
    eq_refl U JA JF B UN) as (g' & h' & E & L & T & PR & FR & B').
  fold (j_top usefp j) in *. exists g', h'. split; [exact E|]. split; [|exact B'].
  assert (LG : forall p, lower_group (j_pre usefp j) (j_letter j) (j_id j) p = [j_top usefp j; sub_of (lower_group (j_pre usefp j) (j_letter j) (j_id j) p)])
    by (intro p; apply lower_group_sub).
  assert (OT : forall q, hd_error q <> Some (j_top usefp j) -> h5_find q h' = h5_find q h).
  { intros q Hq. apply FR.
    - intros [->|X]; [now elim Hq|]. apply Hq. exact (own_head _ _ _ X).
    - intros p b _ _ [->|X]; [apply Hq; now rewrite LG|]. apply Hq. rewrite LG in X. exact (own_head _ _ _ X). }
  constructor.
  - intros j' I. apply in_app_or in I as [I|[<-|[]]].
    + apply (in_store_keep d usefp h); [now apply HI|]. intros q Hq. apply OT. rewrite Hq. intros X. injection X as X. apply N. rewrite <- X. now apply in_map.
    + split; [exact L|]. split; [exact T|]. split; [exact PR|].
      intros s a Hs. destruct (In_dec (list_eq_dec string_dec) [j_top usefp j; s] (all_own [j_top usefp j])) as [J|J]; [now apply (tables_no_group _ _ _ _ a T) in J|].
      destruct (existsb (fun p => match file_in d (lower_file (j_fp j) (j_ext j) p) with Some _ => path_eqb [j_top usefp j; s] (lower_group (j_pre usefp j) (j_letter j) (j_id j) p) | None => false end) (j_lower j)) eqn:X.
      * apply existsb_exists in X as (p & Hp & X). destruct (file_in d (lower_file (j_fp j) (j_ext j) p)) as [b'|] eqn:F; [|discriminate]. apply path_eqb_spec in X. exists p, b'. now repeat split.
      * exfalso. rewrite FR, UN in Hs; [discriminate|reflexivity| |].
        -- intros [Y|Y]; [discriminate|contradiction].
        -- intros p b' Hp F [Y|Y]; [|apply all_own_length in Y; rewrite LG in Y; discriminate].
           rewrite <- Bool.not_true_iff_false in X. apply X. apply existsb_exists. exists p. split; [exact Hp|]. rewrite F, Y. apply path_eqb_refl.
  - intros q Hq. destruct (opt_dec (hd_error q) (Some (j_top usefp j))) as [Y|Y].
    + exists j. split; [apply in_or_app; right; now left|exact Y].
    + rewrite OT in Hq by exact Y. destruct (HO q Hq) as (j' & I & E'). exists j'. split; [apply in_or_app; now left|exact E'].
Qed.

(* ---- opening ---- *)
Lemma group_object h nm letter id pos segs data : upper_letter letter -> pos = Alone \/ (exists l, pos = Top l) ->
  labelled h [nm] letter id None pos segs -> tables h [nm] segs -> complete letter segs ->
  exists kd o ty, attr_str h [nm] "DATATYPE" = Ok ty /\ opens_as letter pos kd /\ d_group o = [nm] /\ d_filetype o = letter /\ d_seltyp o = Some id /\
    first_seen (seg_names segs) (d_names o) /\ d_file o = OFile /\
    (if String.eqb ty "STRUCTURAL" then
           dor level <- attr_str h [nm] "LEVEL";
           if String.eqb level "TOPLEVEL" then dor d <- sif_init h [nm] OFile None; Ok (Some (KTop, d))
           else if String.eqb level "FIRSTLEVEL" then dor d <- first_init h [nm] OFile; Ok (Some (KFirst, d))
           else Ok data
         else if String.eqb ty "HYDRODYNAMIC" then dor d <- hydro_data h [nm]; Ok (Some (KHydro, d))
         else Ok data) = Ok (Some (kd, o)).
Proof.
  intros U P L T DF. destruct (labelled_init _ _ _ _ _ _ _ OFile L) as (d & E1 & D1 & D2 & D3 & D4 & D5 & D6 & D7 & D8 & D9 & D10).
  destruct (level_cases _ _ _ D6 U P) as [(X1 & X2 & X3)|[(X1 & X2 & X3)|X]].
  - rewrite X1 in D6. destruct (labelled_first _ _ _ _ _ _ _ OFile L D6) as (o & F & F1 & F2 & F3 & F4 & F5 & _).
    exists KFirst, o, (d_datatype d). repeat (split; [assumption|]). rewrite (type_struc_one _ _ D7 X3), D8, X1. cbn [rbind].
    change (String.eqb "STRUCTURAL" "STRUCTURAL") with true. change (String.eqb "FIRSTLEVEL" "TOPLEVEL") with false. change (String.eqb "FIRSTLEVEL" "FIRSTLEVEL") with true. cbv iota.
    rewrite F. reflexivity.
  - exists KTop, d, (d_datatype d). repeat (split; [assumption|]). rewrite (type_struc_one _ _ D7 X3), D8, X1. cbn [rbind].
    change (String.eqb "STRUCTURAL" "STRUCTURAL") with true. change (String.eqb "TOPLEVEL" "TOPLEVEL") with true. cbv iota. rewrite E1. reflexivity.
  - exists KHydro, d, (d_datatype d). split; [exact D9|]. split; [rewrite X; constructor|]. repeat (split; [assumption|]).
    rewrite X in D7. rewrite (type_hydro_one _ D7). unfold hydro_data. rewrite E1. cbn [rbind].
    destruct (hydro_starts h d segs) as (x & HX); [now rewrite D1|exact (sif_init_open _ _ _ _ _ E1)|now apply DF|]. now rewrite HX.
Qed.
(** The entries of one data set and those below it. *)
Record made (d : dir) (usefp : bool) (h : h5) (j : job) (kd : Files.kind) (o : sdata) (subs : list Files.entry) : Prop := {
  md_pos : exists pos, top_pos (j_segs j) pos /\ opens_as (j_letter j) pos kd;
  md_group : d_group o = [j_top usefp j];
  md_ft : d_filetype o = j_letter j;
  md_id : d_seltyp o = Some (j_id j);
  md_names : first_seen (seg_names (j_segs j)) (d_names o);
  md_subs : Forall2 (sub_made h (j_top usefp j) (j_letter j) [j_top usefp j]) (child_groups h [j_top usefp j]) subs }.
Inductive grouped (d : dir) (usefp : bool) (h : h5) (l : list job) : list string -> list Files.entry -> Prop :=
| gp_nil : grouped d usefp h l [] []
| gp_cons j kd o subs r rest : In j l -> made d usefp h j kd o subs -> grouped d usefp h l r rest ->
    grouped d usefp h l (j_top usefp j :: r) ((j_top usefp j, kd, o) :: subs ++ rest).
Lemma job_subs d usefp h j : job_ok d usefp j -> in_store d usefp h j ->
  exists es, sub_objects h (j_top usefp j) [j_top usefp j] (child_groups h [j_top usefp j]) = Ok es /\
    Forall2 (sub_made h (j_top usefp j) (j_letter j) [j_top usefp j]) (child_groups h [j_top usefp j]) es.
Proof.
  intros JO (_ & _ & PR & S). destruct (jo_letter _ _ _ JO) as [I|(_ & E)].
  - apply sub_objects_all; [exact I|]. intros s Hs. apply child_groups_in in Hs as (a & Hs). destruct (S s a Hs) as (p & b & Hp & F & G).
    destruct (as_lower _ _ _ _ _ _ _ _ _ _ (jo_parts _ _ _ JO) p b Hp F) as (_ & bs & sg & C1 & C2 & C3).
    destruct (PR p b Hp F bs sg C1 C2 C3) as (_ & L). rewrite G in L. do 4 eexists. exact L.
  - destruct (child_groups h [j_top usefp j]) as [|s r] eqn:X; [exists []; now split|]. exfalso.
    assert (Hs : In s (child_groups h [j_top usefp j])) by (rewrite X; now left). apply child_groups_in in Hs as (a & Hs).
    destruct (S s a Hs) as (p & b & Hp & _). now rewrite E in Hp.
Qed.
Lemma objects_grouped d usefp h l : (forall j, In j l -> job_ok d usefp j /\ in_store d usefp h j) ->
  forall grs data, (forall n, In n grs -> exists j, In j l /\ n = j_top usefp j) ->
  exists es, objects h data grs = Ok es /\ grouped d usefp h l grs es.
Proof.
  intros HJ. induction grs as [|n r IH]; intros data HG.
  - exists []. split; [reflexivity|constructor].
  - destruct (HG n (or_introl eq_refl)) as (j & I & ->). destruct (HJ j I) as (JO & IS).
    destruct (job_subs d usefp h j JO IS) as (subs & SE & SM). pose proof IS as ((pos & TP & L) & TB & _).
    destruct (group_object h (j_top usefp j) (j_letter j) (j_id j) pos (j_segs j) data (job_upper _ _ _ JO)) as (kd & o & ty & A & O1 & O2 & O3 & O4 & O5 & O6 & O7).
    { destruct TP; [now left|right; now eexists]. }
    { exact L. }
    { exact TB. }
    { exact (jo_complete _ _ _ JO). }
    destruct (IH (Some (kd, o))) as (rest & RE & RG); [intros n Hn; apply HG; now right|].
    exists ((j_top usefp j, kd, o) :: subs ++ rest). split.
    + cbn [objects]. rewrite A. cbn [rbind]. rewrite O7. cbn [rbind]. rewrite O2, SE. cbn [rbind]. rewrite RE. reflexivity.
    + constructor; [exact I| |exact RG]. constructor; try assumption. now exists pos.
Qed.
Lemma grouped_keys d usefp h l grs es : grouped d usefp h l grs es -> map key_of es = flat_map (fun n => n :: map (under n) (child_groups h [n])) grs.
Proof.
  induction 1 as [|j kd o subs r rest I M G IH]; [reflexivity|]. cbn [map flat_map key_of fst app]. rewrite map_app, IH. f_equal. f_equal.
  destruct M as [_ _ _ _ _ M]. clear -M. induction M as [|s e x y (K & _) _ IH]; [reflexivity|]. cbn [map]. now rewrite K, IH.
Qed.
Lemma grouped_in d usefp h l grs es : grouped d usefp h l grs es -> forall n, In n grs ->
  exists j kd o subs, In j l /\ n = j_top usefp j /\ made d usefp h j kd o subs /\ In (n, kd, o) es /\ incl subs es.
Proof.
  induction 1 as [|j kd o subs r rest I M G IH]; intros n []; [subst n|].
  - exists j, kd, o, subs. split; [exact I|]. split; [reflexivity|]. split; [exact M|]. split; [now left|]. intros e He. right. apply in_or_app. now left.
  - destruct (IH n H) as (j' & kd' & o' & s' & A & B & C & D & E). exists j', kd', o', s'. split; [exact A|]. split; [exact B|]. split; [exact C|].
    split; [right; apply in_or_app; now right|]. intros e He. right. apply in_or_app. right. now apply E.
Qed.

(* ---- names without a slash ---- *)
Lemma digit_code_plain n : 0 <= n < 10 -> Base.digit_char n <> "/"%char.
Proof.
  intros H E. apply (f_equal code) in E. assert (X : code (Base.digit_char n) = 48 + n).
  { unfold Base.digit_char. apply code_chr. lia. }
  rewrite X in E. change (code "/") with 47 in E. lia.
Qed.
Lemma digits_plain : forall k n acc, 0 <= n -> ~ In "/"%char acc -> ~ In "/"%char (digits_aux k n acc).
Proof.
  induction k as [|k IH]; intros n acc Hn H; cbn [digits_aux]; [exact H|].
  assert (A : ~ In "/"%char (Base.digit_char (n mod 10) :: acc)).
  { intros [E|E]; [|contradiction]. now apply digit_code_plain in E; [|apply Z.mod_pos_bound]. }
  cbv zeta. destruct (n <? 10); [exact A|]. apply IH; [apply Z.div_pos; lia|exact A].
Qed.
Lemma number_plain z : no_slash (str_of_Z z).
Proof.
  unfold no_slash, str_of_Z. rewrite s2l_l2s. destruct (Z.ltb_spec z 0).
  - intros [E|E]; [discriminate|]. revert E. apply digits_plain; [lia|intros []].
  - apply digits_plain; [lia|intros []].
Qed.
Lemma plain_app a b : no_slash a -> no_slash b -> no_slash (a ++ b).
Proof. unfold no_slash. rewrite s2l_app. intros A B I. apply in_app_or in I as [I|I]; auto. Qed.
Lemma job_plain d usefp j : job_ok d usefp j -> no_slash (j_top usefp j).
Proof.
  intros JO. pose proof (job_upper _ _ _ JO) as U. destruct JO as [JN _ _ _ _ JP _ _]. unfold j_top, nm_of.
  assert (F : no_slash (j_fp j)).
  { destruct JN as (c & hh & _ & _ & W & _). intros I. rewrite Forall_forall in W. exact (slash_not_word (W _ I)). }
  apply plain_app; [unfold j_pre; destruct usefp; [now apply plain_app|exact JP]|]. apply plain_app; [|apply number_plain].
  unfold upper_letter in U. cbn in U. destruct U as [<-|[<-|[<-|[<-|[]]]]]; intros [I|[]]; discriminate I.
Qed.
Lemma under_plain a b n : no_slash n -> under a b <> n.
Proof. intros N E. apply N. rewrite <- E. unfold under. rewrite !s2l_app. apply in_or_app. right. now left. Qed.
Lemma under_both a b : forall a' b', no_slash a -> no_slash a' -> under a b = under a' b' -> a = a'.
Proof.
  unfold under. induction a as [|c a IH]; intros [|c' a'] b' N N' E; cbn in E.
  - reflexivity.
  - injection E as <- _. exfalso. apply N'. now left.
  - injection E as -> _. exfalso. apply N. now left.
  - injection E as <- E. f_equal. apply (IH a' b'); [intros I; apply N; now right|intros I; apply N'; now right|exact E].
Qed.
Lemma keys_nodup (subs : string -> list string) : (forall n, NoDup (subs n)) -> forall grs, NoDup grs -> (forall n, In n grs -> no_slash n) ->
  NoDup (flat_map (fun n => n :: map (under n) (subs n)) grs).
Proof.
  intros S. induction grs as [|n r IH]; intros ND P; [constructor|]. inversion ND as [|x xs N ND']; subst. cbn [flat_map app].
  assert (R : NoDup (flat_map (fun n => n :: map (under n) (subs n)) r)) by (apply IH; [exact ND'|intros; apply P; now right]).
  assert (PN : no_slash n) by (apply P; now left).
  constructor.
  - intros I. apply in_app_or in I as [I|I]; [apply in_map_iff in I as (s & I & _); now apply under_not in I|].
    apply in_flat_map in I as (m & Im & [->|I]); [contradiction|]. apply in_map_iff in I as (s & I & _). now apply under_plain in I.
  - assert (SN : NoDup (map (under n) (subs n))) by (apply FinFun.Injective_map_NoDup; [intros x y; apply under_inj|apply S]).
    clear IH. revert SN. assert (D : forall s, In s (subs n) -> ~ In (under n s) (flat_map (fun n => n :: map (under n) (subs n)) r)).
    { intros s _ I. apply in_flat_map in I as (m & Im & [I|I]).
      - symmetry in I. apply under_plain in I; [exact I|apply P; now right].
      - apply in_map_iff in I as (s' & I & _). apply under_both in I; [congruence|apply P; now right|exact PN]. }
    revert D. generalize (subs n). induction l as [|s l IHl]; intros D SN; [exact R|]. cbn [map app]. inversion SN as [|y ys M SN']; subst. constructor.
    + intros I. apply in_app_or in I as [I|I]; [contradiction|]. apply (D s); [now left|exact I].
    + apply IHl; [intros s' Hs'; apply D; now right|exact SN'].
Qed.

Lemma nodup_map {A B} (f : A -> B) : forall l, NoDup (map f l) -> forall x y, In x l -> In y l -> f x = f y -> x = y.
Proof.
  induction l as [|a l IH]; intros ND x y [] [] E; subst; cbn [map] in ND; inversion ND as [|z zs N ND']; subst.
  - reflexivity.
  - exfalso. apply N. rewrite E. now apply in_map.
  - exfalso. apply N. rewrite <- E. now apply in_map.
  - now apply IH.
Qed.
Theorem holds_opened d usefp h l : holds d usefp h l -> (forall j, In j l -> job_ok d usefp j) -> NoDup (map (j_top usefp) l) ->
  exists es, jobs_opened d usefp h l es.
Proof.
  intros [HI HO] JO ND.
  assert (GR : forall n, In n (child_groups h []) <-> exists j, In j l /\ n = j_top usefp j).
  { intros n. rewrite child_groups_in. cbn [app]. split.
    - intros (a & Ha). destruct (HO [n]) as (j & I & E); [now rewrite Ha|]. exists j. split; [exact I|]. now injection E.
    - intros (j & I & ->). destruct (HI j I) as ((pos & _ & (a & _ & _ & _ & L & _)) & _). now exists a. }
  destruct (objects_grouped d usefp h l) with (grs := child_groups h []) (data := @None (Files.kind * sdata)) as (es & E & G).
  { intros j I. split; [now apply JO|now apply HI]. }
  { intros n Hn. now apply GR. }
  exists es. split; [exact E|]. pose proof (grouped_keys _ _ _ _ _ _ G) as K.
  assert (KN : NoDup (map key_of es)).
  { rewrite K. apply (keys_nodup (fun n => child_groups h [n])); [intros n; apply str_sort_nodup|apply str_sort_nodup|].
    intros n Hn. apply GR in Hn as (j & I & ->). apply (job_plain d). now apply JO. }
  assert (SB : forall j s, In j l -> (In s (child_groups h [j_top usefp j]) <-> exists p b, has_sub d usefp j p b s)).
  { intros j s I. destruct (HI j I) as (_ & _ & PR & S). rewrite child_groups_in. cbn [app]. split.
    - intros (a & Ha). exact (S s a Ha).
    - intros (p & b & Hp & F & EG). destruct (as_lower _ _ _ _ _ _ _ _ _ _ (jo_parts _ _ _ (JO j I)) p b Hp F) as (_ & bs & sg & C1 & C2 & C3).
      destruct (PR p b Hp F bs sg C1 C2 C3) as (_ & (a & _ & _ & _ & L & _)). rewrite EG in L. now exists a. }
  split.
  - exists (map (fun n => (n, child_groups h [n])) (child_groups h [])). split; [|split; [|split]].
    + rewrite K. generalize (child_groups h []). induction l0 as [|n r IH]; [reflexivity|]. cbn [map flat_map fst snd]. now rewrite IH.
    + rewrite map_map. cbn [fst]. rewrite map_id. apply str_sort_sorted.
    + intros n. rewrite map_map. cbn [fst]. rewrite map_id. apply GR.
    + intros n subs I. apply in_map_iff in I as (n' & X & I). injection X as -> <-. split; [apply str_sort_sorted|]. intros j Ij -> s. now apply SB.
  - intros j I. assert (J : In (j_top usefp j) (child_groups h [])) by (apply GR; now exists j).
    destruct (grouped_in _ _ _ _ _ _ G _ J) as (j' & kd & o & subs & I' & EJ & M & IE & IC).
    assert (j' = j) as -> by (symmetry; now apply (nodup_map (j_top usefp) l)). clear EJ I'.
    destruct M as [(pos & TP & OA) M2 M3 M4 M5 M6]. destruct (HI j I) as (_ & T & PR & S). split.
    + exists pos, kd, o. split; [exact (get_data_nodup _ KN (j_top usefp j, kd, o) IE)|]. split; [exact TP|]. split; [exact OA|].
      split; [exact (file_data_open h _ E (j_top usefp j, kd, o) IE)|]. repeat (split; [assumption|]). now rewrite M2.
    + intros p b s HS. pose proof HS as (Hp & F & EG).
      assert (IS : In s (child_groups h [j_top usefp j])) by (apply SB; [exact I|now exists p, b]).
      apply In_nth_error in IS as (i & Hi).
      assert (X : exists e, nth_error subs i = Some e /\ sub_made h (j_top usefp j) (j_letter j) [j_top usefp j] s e).
      { clear -M6 Hi. revert i Hi. induction M6 as [|s0 e x y H _ IH]; intros [|i] Hi; try discriminate; [injection Hi as ->; now exists e|exact (IH i Hi)]. }
      destruct X as (e & He & (S1 & S2 & S3 & S4 & S5)). apply nth_error_In, IC in He.
      destruct (as_lower _ _ _ _ _ _ _ _ _ _ (jo_parts _ _ _ (JO j I)) p b Hp F) as (_ & bs0 & sg0 & C1 & C2 & C3).
      destruct (PR p b Hp F bs0 sg0 C1 C2 C3) as (_ & LL0). rewrite EG in LL0. destruct (S5 _ _ _ _ LL0) as (N1 & N2 & _ & N4).
      exists (kind_of e), (obj_of e). split; [rewrite <- S1; now apply (get_data_nodup _ KN)|]. split; [exact N1|].
      split; [exact (file_data_open h _ E e He)|]. split; [exact S2|]. split; [exact S3|]. split; [exact N2|].
      split; [intros R; rewrite (N4 R); unfold lower_index; now rewrite R|]. split; [exact S4|].
      intros bs segs' D1 D2 D3. destruct (PR p b Hp F bs segs' D1 D2 D3) as (T1 & L1). rewrite EG in L1, T1. destruct (S5 _ _ _ _ L1) as (_ & _ & N3 & _).
      split; [exact N3|]. now rewrite S2.
Qed.

(* ---- the conversions, one after the other ---- *)
Lemma job_checked d usefp j : job_ok d usefp j -> sif_checked (s2l (j_name j)) = Ok (s2l (j_fp j), s2l (j_letter j), j_no j, s2l (j_ext j)).
Proof. intros [N X S _ _ _ _]. apply sif_checked_ok. split; [now apply parse_sifname_ok, proper_parsed|exact S]. Qed.
Lemma one_job d usefp l j out (append : bool) g st : out <> "" -> holds d usefp (if append then store_in st out else []) l -> job_ok d usefp j ->
  ~ In (j_top usefp j) (map (j_top usefp) l) -> 0 < g_batch g ->
  exists g' h, sif2hdf5 d (j_name j) (Some out) append usefp (j_prefix j) [] g st = Ok (g', dset out h st, j_events d j) /\
    holds d usefp h (l ++ [j]) /\ 0 < g_batch g'.
Proof.
  intros O H JO N B. destruct (convert_job d usefp _ l j g H JO N B) as (g' & h & C & H' & B'). exists g', h. split; [|now split].
  unfold sif2hdf5, given. destruct (String.eqb_spec out "") as [E|_]; [contradiction|]. rewrite (job_checked d usefp j JO).
  cbn beta iota zeta. unfold rbind.
  exact (f_equal (fun r => match r with Ok (gh, evs0) => Ok (fst gh, dset out (snd gh) st, evs0) | Err e => Err e end) C).
Qed.
Definition job_args (l : list job) : list (string * string) := map (fun j => (j_name j, j_prefix j)) l.
Theorem each_appended d usefp out : out <> "" -> forall l l0 g st, holds d usefp (store_in st out) l0 -> (forall j, In j l -> job_ok d usefp j) ->
  NoDup (map (j_top usefp) (l0 ++ l)) -> 0 < g_batch g ->
  exists g' st', sif2hdf5_each d (job_args l) (Some out) true usefp [] g st = Ok (g', st', flat_map (j_events d) l) /\
    holds d usefp (store_in st' out) (l0 ++ l) /\ 0 < g_batch g' /\ forall n, n <> out -> store_in st' n = store_in st n.
Proof.
  intros O. induction l as [|j l IH]; intros l0 g st H JO ND B.
  - rewrite app_nil_r. exists g, st. split; [reflexivity|]. split; [exact H|]. split; [exact B|]. reflexivity.
  - assert (NJ : ~ In (j_top usefp j) (map (j_top usefp) l0)).
    { rewrite map_app in ND. cbn [map] in ND. apply NoDup_remove_2 in ND. intros I. apply ND. apply in_or_app. now left. }
    destruct (one_job d usefp l0 j out true g st O H (JO j (or_introl eq_refl)) NJ B) as (g1 & h1 & E1 & H1 & B1).
    destruct (IH (l0 ++ [j]) g1 (dset out h1 st)) as (g2 & st2 & E2 & H2 & B2 & F2).
    { now rewrite store_dset. } { intros x Hx. apply JO. now right. } { now rewrite <- app_assoc. } { exact B1. }
    exists g2, st2. rewrite <- app_assoc in H2. split; [|split; [exact H2|split; [exact B2|]]].
    + unfold job_args in *. cbn [map sif2hdf5_each flat_map]. rewrite E1. cbn [rbind fst snd]. rewrite E2. reflexivity.
    + intros n Hn. rewrite F2 by exact Hn. apply store_other. congruence.
Qed.
Theorem seq_converted d usefp out l g st : out <> "" -> l <> [] -> (forall j, In j l -> job_ok d usefp j) -> NoDup (map (j_top usefp) l) -> 0 < g_batch g ->
  exists g' st', sif2hdf5_seq d (job_args l) (Some out) false usefp [] g st = Ok (g', st', flat_map (j_events d) l) /\
    holds d usefp (store_in st' out) l /\ 0 < g_batch g' /\ forall n, n <> out -> store_in st' n = store_in st n.
Proof.
  intros O NL JO ND B. destruct l as [|j l]; [contradiction|]. clear NL.
  destruct (one_job d usefp [] j out false g st O (holds_empty d usefp) (JO j (or_introl eq_refl)) (fun x => x) B) as (g1 & h1 & E1 & H1 & B1).
  destruct (each_appended d usefp out O l [j] g1 (dset out h1 st)) as (g2 & st2 & E2 & H2 & B2 & F2).
  { now rewrite store_dset. } { intros x Hx. apply JO. now right. } { exact ND. } { exact B1. }
  exists g2, st2. split; [|split; [exact H2|split; [exact B2|]]].
  - unfold sif2hdf5_seq, given. destruct (String.eqb_spec out "") as [E|_]; [contradiction|]. unfold job_args in *. cbn [map flat_map]. rewrite E1. cbn [rbind fst snd]. rewrite E2. reflexivity.
  - intros n Hn. rewrite F2 by exact Hn. apply store_other. congruence.
Qed.
(** Each into the file of its own name. *)
Lemma one_alone d usefp j g st : job_ok d usefp j -> 0 < g_batch g ->
  exists g' h, sif2hdf5 d (j_name j) None false usefp (j_prefix j) [] g st = Ok (g', dset (default_name (j_name j)) h st, j_events d j) /\
    holds d usefp h [j] /\ 0 < g_batch g'.
Proof.
  intros JO B. destruct (convert_job d usefp _ [] j g (holds_empty d usefp) JO (fun x => x) B) as (g' & h & C & H' & B'). exists g', h. split; [|now split].
  unfold sif2hdf5, given. rewrite (job_checked d usefp j JO). cbn beta iota zeta. unfold rbind.
  exact (f_equal (fun r => match r with Ok (gh, evs0) => Ok (fst gh, dset (default_name (j_name j)) (snd gh) st, evs0) | Err e => Err e end) C).
Qed.
Theorem each_alone d usefp : forall l g st, (forall j, In j l -> job_ok d usefp j) -> NoDup (map (fun j => default_name (j_name j)) l) -> 0 < g_batch g ->
  exists g' st', sif2hdf5_seq d (job_args l) None false usefp [] g st = Ok (g', st', flat_map (j_events d) l) /\
    (forall j, In j l -> holds d usefp (store_in st' (default_name (j_name j))) [j]) /\ 
    forall n, ~ In n (map (fun j => default_name (j_name j)) l) -> store_in st' n = store_in st n.
Proof.
  unfold sif2hdf5_seq, given. induction l as [|j l IH]; intros g st JO ND B.
  - exists g, st. split; [reflexivity|]. split; [intros j []|reflexivity].
  - cbn [map] in ND. inversion ND as [|x xs N ND']; subst.
    destruct (one_alone d usefp j g st (JO j (or_introl eq_refl)) B) as (g1 & h1 & E1 & H1 & B1).
    destruct (IH g1 (dset (default_name (j_name j)) h1 st)) as (g2 & st2 & E2 & H2 & F2).
    { intros x Hx. apply JO. now right. } { exact ND'. } { exact B1. }
    exists g2, st2. split; [|split].
    + unfold job_args in *. cbn [map sif2hdf5_each flat_map]. rewrite E1. cbn [rbind fst snd]. rewrite E2. reflexivity.
    + intros x [<-|Hx]; [|now apply H2]. rewrite F2 by exact N. now rewrite store_dset.
    + intros n Hn. rewrite F2; [|intros I; apply Hn; now right]. apply store_other. intros <-. apply Hn. now left.
Qed.
