(** * HydroSays: what the records of a file say about hydrodynamic results.

    As SaysSpec; no store is involved. *)
From Verif Require Import Base Flt SeqFile H5 Schema Files SeqSpec StoreSpec ParserSpec LayoutSpec FileSpec DataSpec StrucSpec HydroSpec SaysSpec.
Open Scope string_scope.
Open Scope Z_scope.
Open Scope list_scope.

(** the [i]-th value, as it appears in a column of this type: complex number,
    vector or matrix *)
Definition cell_at (e : StoreSpec.entry) (i : nat) (t : ctype) (c : cell) : Prop := exists v, nth_error (e_row e) i = Some v /\ stored t v c.

(** ** Directions, frequencies, times: the second number of each pair *)
Definition second (v : pyval) (x : flt) : Prop := exists f g, v = PT [PF f; PF g] /\ x = round32 g.
Definition headings_on (segs : list seg) (dirs freqs times : list flt) : Prop :=
  entries_of "WDRESREF" segs <> [] /\
  Forall2 second (flat_map (data 0) (entries_of "WDRESREF" segs)) dirs /\
  Forall2 second (flat_map (data 1) (entries_of "WDRESREF" segs)) freqs /\
  Forall2 second (flat_map (data 2) (entries_of "WDRESREF" segs)) times.
(** references with one direction and one frequency each *)
Definition wref_says (_ : nat) (e : StoreSpec.entry) (r : wref) : Prop :=
  int_at e 1 (w_ires r) /\ exists d f, e_data e = [[d]; [f]; []] /\ second d (w_dir r) /\ second f (w_freq r).
Definition wrefs_on (segs : list seg) (rs : list wref) : Prop := listed "WDRESREF" segs wref_says rs.
(** ** Bodies and constants *)
Definition body_says (_ : nat) (e : StoreSpec.entry) (b : Z * Z) : Prop := int_at e 1 (snd b) /\ int_at e 2 (fst b).
Definition bodies_on (segs : list seg) (bs : list (Z * Z)) : Prop := listed "WBODCON" segs body_says bs.
Definition global_on (segs : list seg) (g ro depth : cell) : Prop :=
  exists e es, entries_of "WGLOBDEF" segs = e :: es /\ real_at e 1 g /\ real_at e 2 ro /\ real_at e 4 depth.
Definition counted_on (segs : list seg) (n : string) (m : nat) : Prop := length (entries_of n segs) = m.
(** ** Results *)
Definition resp_says (rec : string) (n : nat) (_ : nat) (e : StoreSpec.entry) (r : resp) : Prop :=
  int_at e 1 (r_cond r) /\ int_at e 2 (r_ires r) /\
  if str_in rec ["W1MOTION"; "W1EXFORC"] then cell_at e 4 (TV n TC) (CV (r_comps r)) else cell_at e 3 (TV n TF) (CV (r_comps r)).
Definition responses_on (segs : list seg) (rec : string) (n : nat) (rs : list resp) : Prop := listed rec segs (resp_says rec n) rs.
Definition sforce_says (_ : nat) (e : StoreSpec.entry) (sr : Z * resp) : Prop :=
  int_at e 1 (r_cond (snd sr)) /\ int_at e 2 (fst sr) /\ int_at e 3 (r_ires (snd sr)) /\ cell_at e 5 (TV 6 TC) (CV (r_comps (snd sr))).
Definition sforces_on (segs : list seg) (rs : list (Z * resp)) : Prop := listed "W1SFORCE" segs sforce_says rs.
Definition fluid_says (_ : nat) (e : StoreSpec.entry) (r : fluid) : Prop :=
  int_at e 1 (f_ires r) /\ int_at e 2 (f_point r) /\ cell_at e 4 TC (f_p r) /\ cell_at e 5 (TV 3 TC) (CV (f_v r)).
Definition fluids_on (segs : list seg) (rs : list fluid) : Prop := listed "WFLUIDKN" segs fluid_says rs.
Definition panel_says (_ : nat) (e : StoreSpec.entry) (r : panel) : Prop :=
  int_at e 1 (p_cond r) /\ int_at e 2 (p_ires r) /\ int_at e 4 (p_symm r) /\ cell_at e 6 TC (p_p r) /\ int_at e 7 (p_pan r).
Definition panels_on (segs : list seg) (rs : list panel) : Prop := listed "W1PANPRE" segs panel_says rs.
Definition matr_says (_ : nat) (e : StoreSpec.entry) (m : matr) : Prop :=
  int_at e 2 (m_i m) /\ int_at e 3 (m_j m) /\ int_at e 5 (m_typ m) /\ cell_at e 6 (TV 6 (TV 6 TF)) (CV (map CV (m_rows m))).
Definition matrices_on (segs : list seg) (ms : list matr) : Prop := listed "W1MATRIX" segs matr_says ms.
