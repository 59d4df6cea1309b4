(** * Props_HydroFloat: property C81, accuracy of periods, headings in degrees and
    wave elevations. *)
From Verif Require Import Base Flt SeqFile H5 Schema Parsers Data Files SifName Convert SeqSpec StoreSpec ParserSpec LayoutSpec FileSpec DataSpec
  StrucSpec SifNameSpec ConvertSpec AssemblySpec SaysSpec SaysOpen SaysProofs Nd Hydro HydroSpec HydroUnique HydroProofs HydroMore HydroGrid HydroSays HydroFound
  Props_Hydro HydroFileSample Props_HydroFile ListFacts IeeeSpec IeeeFacts FltValue FloatReal FloatArith HydroFloat HydroNum.
From Coq Require Import Reals ZArith Lia Lra.
Open Scope string_scope.
Open Scope Z_scope.
Open Scope list_scope.
Open Scope R_scope.

(** The float is a number within [k] halves of a unit in the last place, relatively,
    of [x], and [a] absolutely. *)
Definition accurate (k a x : R) (f : flt) : Prop := number_of f /\ Rabs (value f - x) <= k * powerRZ 2 (-24) * Rabs x + a.
(** A number between [2 ^ (- n)] and [2 ^ n], or at most that. *)
Definition sized (n : Z) (f : flt) : Prop := number_of f /\ powerRZ 2 (- n) <= Rabs (value f) <= powerRZ 2 n.
Definition at_most (n : Z) (f : flt) : Prop := number_of f /\ Rabs (value f) <= powerRZ 2 n.

(** ** The operations: the nearest single-precision number *)
Theorem C81_nearest : forall a b, number_of a -> number_of b ->
  (Rabs (value a * value b) < powerRZ 2 127 -> number_of (mul32 a b) /\ nearest single (value a * value b) (value (mul32 a b))) /\
  (value b <> 0 -> Rabs (value a / value b) < powerRZ 2 127 -> number_of (div32 a b) /\ nearest single (value a / value b) (value (div32 a b))) /\
  (representable single (value a) -> representable single (value b) ->
    (Rabs (value a + value b) < powerRZ 2 127 -> number_of (add32 a b) /\ nearest single (value a + value b) (value (add32 a b))) /\
    (Rabs (value a - value b) < powerRZ 2 127 -> number_of (sub32 a b) /\ nearest single (value a - value b) (value (sub32 a b)))).
Proof.
  intros a b Ha Hb. split; [apply mul32_near; assumption|]. split; [apply div32_near; assumption|].
  intros Ra Rb. split; [apply add32_near; assumption|apply sub32_near; assumption].
Qed.
Print Assumptions C81_nearest.

(** ** One by one *)
Theorem C81_period : forall w, sized 100 w -> accurate (3 / 2) 0 (2 * PI / value w) (period32 w).
Proof. intros w (N & S). destruct (period_err w N S) as (A & B). split; [exact A|]. rewrite Rplus_0_r. exact B. Qed.
Print Assumptions C81_period.
Theorem C81_degrees : forall d, at_most 100 d -> accurate (5 / 2) (powerRZ 2 (-149)) (value d * 180 / PI) (degrees32 d).
Proof.
  intros d (N & S). destruct (degrees_err d N S) as (A & B). split; [exact A|]. replace (powerRZ 2 (-149)) with (2 * powerRZ 2 (-150)); [exact B|].
  replace (-149)%Z with (-150 + 1)%Z by lia. now rewrite p2_S.
Qed.
Print Assumptions C81_degrees.
Theorem C81_divide : forall a b ro g, at_most 30 a -> at_most 30 b -> sized 30 ro -> sized 30 g ->
  exists x y, divide32 (divide32 (CC a b) (CF ro)) (CF g) = CC x y /\
    accurate (4 + / 1000) (powerRZ 2 (-150) * (1 + 2 / Rabs (value g))) (value a / (value ro * value g)) x /\
    accurate (4 + / 1000) (powerRZ 2 (-150) * (1 + 2 / Rabs (value g))) (value b / (value ro * value g)) y.
Proof.
  intros a b ro g (Na & Sa) (Nb & Sb) (Nr & Sr) (Ng & Sg). destruct (elevation_err a b ro g Na Nb Nr Ng Sr Sg Sa Sb) as (x & y & E & Nx & Ny & X & Y).
  exists x, y. split; [exact E|]. split; split; assumption.
Qed.
Print Assumptions C81_divide.

(** ** From the bytes of a file *)
Lemma map_each {A B} (P : A -> Prop) (Q : A -> B -> Prop) (f : A -> B) l : Forall P l -> (forall x, P x -> Q x (f x)) -> Forall2 Q l (map f l).
Proof. intros H K. induction H; cbn [map]; constructor; auto. Qed.
Lemma firsts_all (P : flt -> Prop) l out : firsts l out -> Forall P l -> Forall P out.
Proof.
  intros (idx & _ & F & _) H. rewrite Forall_forall in H. induction F as [|i x idx out E F IH]; constructor; [apply H; exact (nth_error_In _ _ E)|exact IH].
Qed.
Theorem C81_axes : forall d top id segs g dirs freqs times nsec npts gr ro depth,
  sesam_file d top "G" id segs -> (0 < g_batch g)%Z ->
  headings_on segs dirs freqs times -> counted_on segs "WSECTION" nsec -> counted_on segs "WFKPOINT" npts -> global_on segs gr ro depth ->
  freqs <> [] -> Forall (sized 100) freqs -> Forall (at_most 100) dirs ->
  exists g' h o x ds fs degs ps, open_sif d top g = Ok (g', h, KHydro, o) /\ hydro_init h o = Ok x /\ firsts dirs ds /\ firsts freqs fs /\
    get_angular_freqs x = Ok fs /\ get_periods period32 x = Ok ps /\ Forall2 (fun w => accurate (3 / 2) 0 (2 * PI / value w)) fs ps /\
    get_directions degrees32 x "radians" = Ok ds /\ get_directions degrees32 x "degrees" = Ok degs /\
    Forall2 (fun d => accurate (5 / 2) (powerRZ 2 (-149)) (value d * 180 / PI)) ds degs.
Proof.
  intros d top id segs g dirs freqs times nsec npts gr ro depth HS Hb HH HN HP HG HF SF SD.
  destruct (C57_axes d top id segs g period32 degrees32 dirs freqs times nsec npts gr ro depth HS Hb HH HN HP HG) as (g' & h & o & x & ds & fs & ts & E1 & E2 & F1 & F2 & F3 & D1 & D2 & P1 & _).
  assert (NF : fs <> []).
  { destruct freqs as [|w freqs]; [contradiction|]. intros ->. destruct F2 as (idx & _ & F & C). inversion F. subst.
    destruct (C 0%nat w eq_refl) as (_ & K). destruct K. intros j y J. lia. }
  destruct (P1 NF) as (A1 & A2 & _). exists g', h, o, x, ds, fs, (map degrees32 ds), (map period32 fs). repeat (split; [assumption|]).
  split; [apply (map_each (sized 100)); [exact (firsts_all _ _ _ F2 SF)|intros w W; now apply C81_period]|]. split; [assumption|]. split; [assumption|].
  apply (map_each (at_most 100)); [exact (firsts_all _ _ _ F1 SD)|intros w W; now apply C81_degrees].
Qed.
Print Assumptions C81_axes.
(** The elevation at each point, heading and frequency: the pressure of the file by
    density and gravity of the file. *)
Theorem C81_elevation : forall d top segs h x refs ds fs g ro depth pts all,
  opens d top segs h x -> wrefs_on segs refs -> grid refs ds fs -> ds <> [] -> fs <> [] ->
  counted_on segs "WFKPOINT" (length pts) -> global_on segs (CF g) (CF ro) depth -> fluids_on segs all -> point_minor refs pts all ->
  sized 30 g -> sized 30 ro -> (forall r, In r all -> exists re im, f_p r = CC re im /\ at_most 30 re /\ at_most 30 im) ->
  exists a, get_fluidkinematics_raos divide32 h x "elevation" = Ok a /\ n_shape a = [length pts; length ds; length fs] /\
    forall t pt p q dir freq, nth_error pts t = Some pt -> nth_error ds p = Some dir -> nth_error fs q = Some freq ->
      exists ref r re im x y, In ref refs /\ w_dir ref = dir /\ w_freq ref = freq /\ In r all /\ f_ires r = w_ires ref /\ f_point r = pt /\ f_p r = CC re im /\
        at_ a [t; p; q] = Some (CC x y) /\
        accurate (4 + / 1000) (powerRZ 2 (-150) * (1 + 2 / Rabs (value g))) (value re / (value ro * value g)) x /\
        accurate (4 + / 1000) (powerRZ 2 (-150) * (1 + 2 / Rabs (value g))) (value im / (value ro * value g)) y.
Proof.
  intros d top segs h x refs ds fs g ro depth pts all H HW HG Hd Hf HN HC HR HP Sg Sr SP.
  destruct (C57_pressure d top segs h x refs ds fs divide32 "elevation" (CF g) (CF ro) depth pts all H HW HG Hd Hf HN HC HR HP (or_introl eq_refl)) as (a & E & S & V).
  exists a. split; [exact E|]. split; [exact S|]. intros t pt p q dir freq Ht Hp Hq. destruct (V t pt p q dir freq Ht Hp Hq) as (ref & r & R1 & R2 & R3 & R4 & R5 & R6 & AT).
  destruct (SP r R4) as (re & im & EP & Sre & Sim). destruct (C81_divide re im ro g Sre Sim Sr Sg) as (u & v & DV & U & W).
  exists ref, r, re, im, u, v. repeat (split; [assumption|]). split; [|split; assumption]. rewrite AT. cbn [String.eqb Ascii.eqb Bool.eqb]. now rewrite EP, DV.
Qed.
Print Assumptions C81_elevation.

(** ** A file: periods of the frequencies 2 and 1, headings 3 and 0 radians, pressures
    by 1025 and 10 *)
Lemma whole_value z : value (f_of_Z z) = IZR z.
Proof.
  destruct z as [|p|p]; cbn [f_of_Z value]; [reflexivity| |].
  - destruct (RoundProofs.fmk_dyadic false p 0) as [(K & _)|D]; [discriminate|].
    destruct (value_dyadic _ _ _ _ (RoundProofs.fmk_dyadic false p 0)) as (_ & ->). unfold sg. change (powerRZ 2 0) with 1. ring.
  - destruct (value_dyadic _ _ _ _ (RoundProofs.fmk_dyadic true p 0)) as (_ & ->). unfold sg. change (powerRZ 2 0) with 1. rewrite (IZR_NEG p). ring.
Qed.
Lemma whole_number z : number_of (f_of_Z z).
Proof. destruct z as [|p|p]; [exact I| |]; destruct (value_dyadic _ _ _ _ (RoundProofs.fmk_dyadic false p 0)); destruct (value_dyadic _ _ _ _ (RoundProofs.fmk_dyadic true p 0)); assumption. Qed.
Lemma whole_most n z : (0 <= n)%Z -> (Z.abs z <= 2 ^ n)%Z -> at_most n (f_of_Z z).
Proof. intros Hn H. split; [apply whole_number|]. rewrite whole_value, <- abs_IZR, p2_nat by exact Hn. now apply IZR_le. Qed.
Lemma whole_sized n z : (0 <= n)%Z -> (1 <= Z.abs z <= 2 ^ n)%Z -> sized n (f_of_Z z).
Proof.
  intros Hn H. destruct (whole_most n z Hn (proj2 H)) as (A & B). split; [exact A|]. split; [|exact B]. rewrite whole_value, <- abs_IZR.
  apply Rle_trans with (powerRZ 2 0); [apply p2_le; lia|]. apply IZR_le. lia.
Qed.
Example C81_case : headings_on v_segs (map w_dir v_refs) (map w_freq v_refs) [] /\ Forall (sized 100) (map w_freq v_refs) /\ Forall (at_most 100) (map w_dir v_refs) /\
  opens v_dir "shipG1.SIF" v_segs v_h v_x /\ global_on v_segs (CF (rf 10)) (CF (rf 1025)) (CF (rf 300)) /\ sized 30 (rf 10) /\ sized 30 (rf 1025) /\
  (forall r, In r v_fluids -> exists re im, f_p r = CC re im /\ at_most 30 re /\ at_most 30 im) /\
  get_periods period32 v_x = Ok [FFin false 13176795 (-22); FFin false 13176795 (-21)] /\
  get_directions degrees32 v_x "degrees" = Ok [FFin false 1408101 (-13); FZero false] /\
  (exists a, get_fluidkinematics_raos divide32 v_h v_x "elevation" = Ok a /\ at_ a [1; 1; 0]%nat = Some (CC (FFin false 1080289 (-23)) (FFin true 1080289 (-23)))) /\
  period32 (FZero false) = FInf false.
Proof.
  split; [exact (wrefs_headings _ _ v_has_refs)|].
  split; [cbn [map v_refs w_freq]; repeat (constructor; [change (rf 1) with (f_of_Z 1); change (rf 2) with (f_of_Z 2); apply whole_sized; [lia|vm_compute; split; discriminate]|]); constructor|].
  split; [cbn [map v_refs w_dir]; repeat (constructor; [change (rf 3) with (f_of_Z 3); change (rf 0) with (f_of_Z 0); apply whole_most; [lia|vm_compute; discriminate]|]); constructor|].
  split; [exact v_opens|]. split; [exact v_has_global|].
  split; [change (rf 10) with (f_of_Z 10); apply whole_sized; [lia|vm_compute; split; discriminate]|].
  split; [change (rf 1025) with (f_of_Z 1025); apply whole_sized; [lia|vm_compute; split; discriminate]|].
  split.
  - intros r Hr. unfold v_fluids in Hr. cbn [flat_map map app] in Hr. repeat (destruct Hr as [<-|Hr]; [
      cbn [f_p]; unfold vc; do 2 eexists; split; [reflexivity|];
      match goal with |- at_most 30 (rf ?z) /\ _ => change (rf z) with (f_of_Z z); change (rf (- z)) with (f_of_Z (- z)) end;
      split; apply whole_most; [lia|vm_compute; discriminate|lia|vm_compute; discriminate]|]). destruct Hr.
  - split; [vm_compute; reflexivity|]. split; [vm_compute; reflexivity|]. split; [|reflexivity]. eexists. split; [vm_compute; reflexivity|vm_compute; reflexivity].
Qed.
