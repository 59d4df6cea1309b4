(** * HydroSpec: what hydrodynamic data should be. *)
From Coq Require Import Sorted.
From Verif Require Import Base Flt H5 Schema StoreSpec ParserSpec StrucSpec.
Open Scope string_scope.
Open Scope Z_scope.
Open Scope list_scope.

(** Equal as numbers (a NaN counts as equal to a NaN), and less. *)
Definition same (a b : flt) : Prop := fcmp a b = Some Eq \/ a = FNan /\ b = FNan.
Definition less (a b : flt) : Prop := fcmp a b = Some Lt \/ a <> FNan /\ b = FNan.

(** The distinct numbers in order of first appearance: those at positions before
    which there is none equal, in order. *)
Definition firsts (l out : list flt) : Prop := exists idx : list nat,
  StronglySorted lt idx /\
  Forall2 (fun i x => nth_error l i = Some x) idx out /\
  forall i x, nth_error l i = Some x -> (In i idx <-> forall j y, (j < i)%nat -> nth_error l j = Some y -> ~ same y x).
(** The distinct numbers in increasing order. *)
Definition increasing (l out : list flt) : Prop :=
  StronglySorted less out /\ (forall x, In x out -> In x l) /\ (forall x, In x l -> exists y, In y out /\ same y x).

(** Result references: number, direction and frequency, as in frequency domain
    results. *)
Record wref : Set := mkW { w_ires : Z; w_dir : flt; w_freq : flt }.
Definition wrefs_in (h : h5) (w : path) (rs : list wref) : Prop :=
  exists rows dirs freqs times, holds h w "WDRESREF" (mkC rows [dirs; freqs; times]) /\
    Forall (fun c => exists a b, c = CV [CF a; CF b]) times /\
    Forall2 (fun r row => exists a b c rest, row = CI a :: CI (w_ires r) :: CI b :: CI c :: rest) rs rows /\
    Forall2 (fun r c => exists a, c = CV [CF a; CF (w_dir r)]) rs dirs /\
    Forall2 (fun r c => exists a, c = CV [CF a; CF (w_freq r)]) rs freqs.
(** The numbers in the companion arrays alone *)
Definition headings_in (h : h5) (w : path) (dirs freqs times : list flt) : Prop :=
  exists rows ds fs ts, holds h w "WDRESREF" (mkC rows [ds; fs; ts]) /\
    Forall2 (fun x c => exists a, c = CV [CF a; CF x]) dirs ds /\
    Forall2 (fun x c => exists a, c = CV [CF a; CF x]) freqs fs /\
    Forall2 (fun x c => exists a, c = CV [CF a; CF x]) times ts.
(** One reference for each direction and frequency, directions outermost. *)
Definition pairwise (ls : list flt) : Prop := ForallOrdPairs (fun a b => ~ same a b) ls.
Definition grid (rs : list wref) (ds fs : list flt) : Prop :=
  map (fun r => (w_dir r, w_freq r)) rs = list_prod ds fs /\ pairwise ds /\ pairwise fs /\ NoDup (map w_ires rs).

(** Bodies: number and condition. *)
Definition bodies_in (h : h5) (w : path) (bs : list (Z * Z)) : Prop :=
  exists rows arr, holds h w "WBODCON" (mkC rows [arr]) /\
    Forall2 (fun b row => exists a c r1 r2, row = [CI a; CI (snd b); CI (fst b); CI c; CI r1; CI r2]) bs rows.
Definition body_cond (bs : list (Z * Z)) (b i : Z) : Prop :=
  exists l1 l2, bs = l1 ++ (b, i) :: l2 /\ ~ In b (map fst l1).
(** Other constants *)
Definition global_in (h : h5) (w : path) (g ro depth : cell) : Prop :=
  exists a b more, holds h w "WGLOBDEF" (mkC ([CI a; g; ro; CI b; depth] :: more) []).

(** Responses: condition, number of the result reference, components. *)
Record resp : Set := mkR { r_cond : Z; r_ires : Z; r_comps : list cell }.
Inductive response : string -> string -> nat -> Prop :=
| res_motion : response "W1MOTION" "data" 6
| res_force : response "W1EXFORC" "data" 6
| res_drift : response "W2MDRIFT" "smfor" 6
| res_hdrift : response "W2HDRIFT" "shfor" 3.
Definition plain (c : cell) : Prop := match c with CV _ => False | _ => True end.
Definition resp_row (rec : string) (n : nat) (r : resp) (row : list cell) : Prop :=
  length (r_comps r) = n /\ Forall plain (r_comps r) /\
  exists a b, row = CI a :: CI (r_cond r) :: CI (r_ires r) ::
    (if str_in rec ["W1MOTION"; "W1EXFORC"] then [CI b] else []) ++ [CV (r_comps r)].
Definition responses_in (h : h5) (w : path) (rec : string) (n : nat) (rs : list resp) : Prop :=
  exists rows, holds h w rec (mkC rows []) /\ Forall2 (resp_row rec n) rs rows.
(** Section forces: section, and the rest as above. *)
Definition sforces_in (h : h5) (w : path) (rs : list (Z * resp)) : Prop :=
  exists rows, holds h w "W1SFORCE" (mkC rows []) /\
    Forall2 (fun sr row => length (r_comps (snd sr)) = 6%nat /\ Forall plain (r_comps (snd sr)) /\
      exists a b, row = [CI a; CI (r_cond (snd sr)); CI (fst sr); CI (r_ires (snd sr)); CI b; CV (r_comps (snd sr))]) rs rows.
(** Fluid kinematics: reference, point, pressure, velocity *)
Record fluid : Set := mkFl { f_ires : Z; f_point : Z; f_p : cell; f_v : list cell }.
Definition fluids_in (h : h5) (w : path) (rs : list fluid) : Prop :=
  exists rows, holds h w "WFLUIDKN" (mkC rows []) /\
    Forall2 (fun r row => plain (f_p r) /\ length (f_v r) = 3%nat /\ Forall plain (f_v r) /\
      exists a b, row = [CI a; CI (f_ires r); CI (f_point r); CI b; f_p r; CV (f_v r)]) rs rows.
(** Panel pressures: condition, reference, panel, symmetry part, pressure *)
Record panel : Set := mkP { p_cond : Z; p_ires : Z; p_pan : Z; p_symm : Z; p_p : cell }.
Definition panels_in (h : h5) (w : path) (rs : list panel) : Prop :=
  exists rows, holds h w "W1PANPRE" (mkC rows []) /\
    Forall2 (fun r row => plain (p_p r) /\
      exists a b c d, row = [CI a; CI (p_cond r); CI (p_ires r); CI b; CI (p_symm r); CI c; p_p r; CI (p_pan r); CI d]) rs rows.
(** Matrices: the two conditions, type and rows *)
Record matr : Set := mkM { m_i : Z; m_j : Z; m_typ : Z; m_rows : list (list cell) }.
Definition matrices_in (h : h5) (w : path) (rs : list matr) : Prop :=
  exists rows, holds h w "W1MATRIX" (mkC rows []) /\
    Forall2 (fun m row => length (m_rows m) = 6%nat /\ Forall (fun r => length r = 6%nat /\ Forall plain r) (m_rows m) /\
      exists a b c, row = [CI a; CI b; CI (m_i m); CI (m_j m); CI c; CI (m_typ m); CV (map CV (m_rows m))]) rs rows.
(** Entry of a matrix *)
Definition entry (m : matr) (i j : nat) (c : cell) : Prop :=
  exists r, nth_error (m_rows m) i = Some r /\ nth_error r j = Some c.
Definition is_for (i j t : Z) (m : matr) : Prop := m_i m = i /\ m_j m = j /\ m_typ m = t.
(** How many records there are of a kind *)
Definition counted (h : h5) (w : path) (rec : string) (n : nat) : Prop :=
  (exists rows, holds h w rec (mkC rows []) /\ length rows = n) \/ (h5_find (tpath w rec) h = None /\ n = 0%nat).
(** Section forces: one for each section, direction and frequency, sections
    outermost.  Fluid kinematics: references outermost.  Panel pressures:
    references, then symmetry parts, then panels. *)
Definition section_major (rs : list wref) (secs : list Z) (fs : list (Z * resp)) : Prop :=
  map (fun sr => (fst sr, r_ires (snd sr))) fs = list_prod secs (map w_ires rs).
Definition point_minor (rs : list wref) (pts : list Z) (fs : list fluid) : Prop :=
  map (fun r => (f_ires r, f_point r)) fs = list_prod (map w_ires rs) pts.
Definition panel_minor (rs : list wref) (symms pans : list Z) (ps : list panel) : Prop :=
  map (fun r => (p_ires r, (p_symm r, p_pan r))) ps = list_prod (map w_ires rs) (list_prod symms pans).
