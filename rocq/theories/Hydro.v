(** * Hydro: hydrodynamic data (data/hydrodata.py). *)
From Verif Require Import Base Flt H5 Schema Data Nd.
Open Scope string_scope.
Open Scope Z_scope.
Open Scope list_scope.
Open Scope monad_scope.

(** ** np.unique of single precision numbers *)

(** Order used by NumPy when sorting: NaN comes last. *)
Definition is_nan (f : flt) : bool := match f with FNan => true | _ => false end.
Definition np_lt (a b : flt) : bool := flt_lt a b || (is_nan b && negb (is_nan a)).
(** np.unique keeps one of equal neighbours; 0.0 and -0.0 are equal, and so are
    two NaNs (equal_nan, the default since NumPy 1.21). *)
Definition np_same (a b : flt) : bool := flt_eq a b || (is_nan a && is_nan b).
(** ar.argsort(kind='mergesort'), stable: the numbers with their positions *)
Fixpoint place {I} (x : flt * I) (l : list (flt * I)) : list (flt * I) :=
  match l with
  | [] => [x]
  | y :: r => if np_lt (fst y) (fst x) then y :: place x r else x :: l
  end.
Definition argsort {I} (l : list (flt * I)) : list (flt * I) := fold_right place [] l.
(** mask[1:] = aux[1:] != aux[:-1] *)
Fixpoint heads {I} (prev : option flt) (l : list (flt * I)) : list (flt * I) :=
  match l with
  | [] => []
  | (x, i) :: r =>
      let rest := heads (Some x) r in
      match prev with
      | Some p => if np_same p x then rest else (x, i) :: rest
      | None => (x, i) :: rest
      end
  end.
Definition number {A} (l : list A) : list (A * Z) := combine l (arange (length l)).
Definition unique_flt (l : list flt) : list flt := map fst (heads None (argsort (number l))).
Definition unique_index (l : list flt) : list Z := map snd (heads None (argsort (number l))).
(** _, idx = np.unique(x, return_index=True); x[np.sort(idx)]: idx has no
    repetition, so sorting is [unique] *)
Definition unique_unsorted (l : list flt) : Res (list flt) := take l (unique (unique_index l)).

(** ** The data object *)

(** HydroData.__init__, hydrodata.py:51-89.  Instance variables: [hy_dirs],
    [hy_freqs], [hy_times], the numbers of sections and points, and g, ro,
    depth.  The periods are a function of the frequencies, see get_periods. *)
Record hydro : Set := mkHy {
  hy_data : sdata; hy_freqs : list flt; hy_dirs : list flt; hy_times : list flt;
  hy_nsections : nat; hy_npoints : nat; hy_g : cell; hy_ro : cell; hy_depth : cell }.
(** arr[:,1] of an array of pairs *)
Definition second (c : cell) : Res flt :=
  match c with CV [_; CF f] => Ok f | _ => Err TypeError end.
Definition seconds (l : list cell) : Res (list flt) := rmap second l.
(** len(table), 0 when there is none *)
Definition count_or_0 (h : h5) (d : sdata) (n : string) : Res nat :=
  match record0 h d n with
  | Ok t => Ok (length (t_rows t))
  | Err NoSuchRecordError => Ok 0%nat
  | Err e => Err e
  end.
Definition hydro_init (h : h5) (d : sdata) : Res hydro :=
  dor (t, arrs) <- get_record h d "WDRESREF";
  match arrs with
  | [dirs; freqs; times] =>
      dor fs <- seconds freqs;
      dor angfreqs <- unique_unsorted fs;
      dor ds <- seconds dirs;
      dor directions <- unique_unsorted ds;
      dor ts <- seconds times;
      dor nsec <- count_or_0 h d "WSECTION";
      dor npts <- count_or_0 h d "WFKPOINT";
      dor glob <- record0 h d "WGLOBDEF";
      dor row <- pyget (t_rows glob) 0;
      dor g <- field glob "g" row;
      dor ro <- field glob "ro" row;
      dor depth <- field glob "depth" row;
      Ok (mkHy d angfreqs directions (unique_flt ts) nsec npts g ro depth)
  | _ => Err ValueError
  end.
Definition nfreqs (x : hydro) : nat := length (hy_freqs x).
Definition ndirs (x : hydro) : nat := length (hy_dirs x).
(** self.domaintype, hydrodata.py:89 *)
Definition domaintype (x : hydro) : string := match hy_freqs x with [] => "time" | _ => "frequency" end.

(** _assert_domaintype, hydrodata.py:115-119 *)
Definition assert_domaintype (x : hydro) (s : string) : Res unit :=
  dor _ <- check_isopen (hy_data x);
  if String.eqb s (domaintype x) then Ok tt else Err ResultError.

(** _get_ibcond, hydrodata.py:91-95 *)
Definition get_ibcond (h : h5) (x : hydro) (bodyid : Z) : Res Z :=
  dor (t, _) <- record1 h (hy_data x) "WBODCON";
  dor row <- getrow t (int_is t "ibody" bodyid);
  ifield t "ibcond" row.

(** A column of some rows as an array: shape of the entries after the number of
    rows. *)
Fixpoint shape_of (t : ctype) : list nat := match t with TV n t' => n :: shape_of t' | _ => [] end.
Fixpoint flat_cell (c : cell) : list cell := match c with CV l => flat_map flat_cell l | _ => [c] end.
Definition column (t : table) (rows : list (list cell)) (n : string) : Res (nd cell) :=
  match sget n (t_descr t) with
  | None => Err ValueError (* no field of that name *)
  | Some ty => dor cs <- rmap (field t n) rows; Ok (mkNd (length rows :: shape_of ty) (flat_map flat_cell cs))
  end.
(** _get_results, hydrodata.py:97-113, for one field; bodyid None or 0: all
    records.  The records selected are the same for every field. *)
Definition result_rows (h : h5) (x : hydro) (rec : string) (bodyid : option Z) : Res (table * list (list cell)) :=
  dor t <- record0 h (hy_data x) rec;
  match bodyid with
  | Some b => if b =? 0 then Ok (t, t_rows t)
              else dor i <- get_ibcond h x b; dor rs <- rfilter (int_is t "ibcond" i) (t_rows t); Ok (t, rs)
  | None => Ok (t, t_rows t)
  end.
Definition get_results (h : h5) (x : hydro) (rec : string) (bodyid : option Z) (fieldname : string) : Res (nd cell) :=
  dor (t, rs) <- result_rows h x rec bodyid; column t rs fieldname.

(** ** Getters *)

Section Numbers.
  (** Arithmetic of NumPy on single precision numbers: division of a number by
      each entry, and degrees; division of complex entries by a number. *)
  Variables (period : flt -> flt) (degrees : flt -> flt) (divide : cell -> cell -> cell).

  (** get_angular_freqs, hydrodata.py:121-125 *)
  Definition get_angular_freqs (x : hydro) : Res (list flt) :=
    dor _ <- assert_domaintype x "frequency"; Ok (hy_freqs x).
  (** get_periods, hydrodata.py:127-131, 61 *)
  Definition get_periods (x : hydro) : Res (list flt) :=
    dor _ <- assert_domaintype x "frequency"; Ok (map period (hy_freqs x)).
  (** get_directions, hydrodata.py:133-143 *)
  Definition get_directions (x : hydro) (unit_ : string) : Res (list flt) :=
    dor _ <- check_isopen (hy_data x);
    if String.eqb unit_ "degrees" then Ok (map degrees (hy_dirs x))
    else if String.eqb unit_ "radians" then Ok (hy_dirs x)
    else Err ValueError.
  (** get_timesteps, hydrodata.py:145-149 *)
  Definition get_timesteps (x : hydro) : Res (list flt) :=
    dor _ <- assert_domaintype x "time"; Ok (hy_times x).
  (** get_sections, hydrodata.py:151-162: the fields of each row *)
  Definition get_sections (h : h5) (x : hydro) : Res (list (list cell)) :=
    dor t <- record0 h (hy_data x) "WSECTION";
    rmap (fun row => rmap (fun n => field t n row) ["secusr"; "isecty"; "p1"; "p2"; "p3"]) (t_rows t).
  (** get_points, hydrodata.py:164-176 *)
  Definition get_points (h : h5) (x : hydro) : Res (nd cell) :=
    dor t <- record0 h (hy_data x) "WFKPOINT"; column t (t_rows t) "fkpnt".
  (** get_bodyproperties, hydrodata.py:178-187: names and values *)
  Definition get_bodyproperties (h : h5) (x : hydro) (bodyid : Z) : Res (list (string * cell)) :=
    dor t <- record0 h (hy_data x) "WBODY";
    dor i <- get_ibcond h x bodyid;
    dor row <- getrow t (int_is t "ibcond" i);
    Ok (filter (fun nc => negb (str_in (fst nc) ["nfield"; "ibcond"])) (combine (map fst (t_descr t)) row)).

  (** get_motion_raos, get_excitationforce_raos, get_meandrift,
      get_horiz_meandrift, hydrodata.py:189-236, 366-406: the same but for the
      record, its field and the number of components. *)
  Definition get_response (h : h5) (x : hydro) (rec fieldname : string) (n : nat) (bodyid : Z) : Res (nd cell) :=
    dor _ <- assert_domaintype x "frequency";
    dor a <- get_results h x rec (Some bodyid) fieldname;
    dor b <- set_shape a [ndirs x; nfreqs x; n];
    Ok (rollaxis b 2 0).
  Definition get_motion_raos h x b := get_response h x "W1MOTION" "data" 6 b.
  Definition get_excitationforce_raos h x b := get_response h x "W1EXFORC" "data" 6 b.
  Definition get_meandrift h x b := get_response h x "W2MDRIFT" "smfor" 6 b.
  Definition get_horiz_meandrift h x b := get_response h x "W2HDRIFT" "shfor" 3 b.
  (** get_sectionforce_raos, hydrodata.py:238-259 *)
  Definition get_sectionforce_raos (h : h5) (x : hydro) (bodyid : Z) : Res (nd cell) :=
    dor _ <- assert_domaintype x "frequency";
    dor a <- get_results h x "W1SFORCE" (Some bodyid) "data";
    dor b <- set_shape a [hy_nsections x; ndirs x; nfreqs x; 6%nat];
    Ok (rollaxis b 3 1).
  (** get_fluidkinematics_raos, hydrodata.py:261-293 *)
  Definition get_fluidkinematics_raos (h : h5) (x : hydro) (kind : string) : Res (nd cell) :=
    dor _ <- assert_domaintype x "frequency";
    dor (t, rs) <- result_rows h x "WFLUIDKN" None;
    dor p <- column t rs "p";
    dor v <- column t rs "v";
    if str_in kind ["elevation"; "pressure"] then
      dor q <- set_shape p [ndirs x; nfreqs x; hy_npoints x];
      let q' := rollaxis q 2 0 in
      if String.eqb kind "elevation" then Ok (nd_map (fun c => divide (divide c (hy_ro x)) (hy_g x)) q') else Ok q'
    else if String.eqb kind "velocity" then
      dor w <- set_shape v [ndirs x; nfreqs x; hy_npoints x; 3%nat];
      Ok (rollaxis (rollaxis w 3 0) 3 0)
    else Err ValueError.
End Numbers.

(** get_matrix, hydrodata.py:295-334; the other matrix getters, 336-364, call it
    with a fixed type. *)
Definition get_matrix (h : h5) (x : hydro) (mtyp bodyid bodyid2 : Z) : Res (nd cell) :=
  dor t <- record0 h (hy_data x) "W1MATRIX";
  dor i <- get_ibcond h x bodyid;
  dor j <- get_ibcond h x bodyid2;
  let cond := both (both (int_is t "ibconi" i) (int_is t "ibconj" j)) (int_is t "imtyp" mtyp) in
  if zmem mtyp [11; 22; 31; 32] then
    dor row <- getrow t cond;
    dor c <- field t "hmat" row;
    Ok (mkNd [6%nat; 6%nat] (flat_cell c))
  else if zmem mtyp [12; 21] then
    dor rs <- rfilter cond (t_rows t);
    dor a <- column t rs "hmat";
    Ok (rollaxis a 0 3)
  else Err ValueError.

Definition get_bodymass h x b b2 := get_matrix h x 11 b b2.
Definition get_addedmass h x b b2 := get_matrix h x 12 b b2.
Definition get_potentialdamping h x b b2 := get_matrix h x 21 b b2.
Definition get_viscousdamping h x b b2 := get_matrix h x 22 b b2.
Definition get_hydrostatic_restoring h x b b2 := get_matrix h x 31 b b2.
Definition get_mooring_restoring h x b b2 := get_matrix h x 32 b b2.

(** _n_pressure_panels and _n_symmetry_parts, hydrodata.py:408-418 *)
Definition int_results (h : h5) (x : hydro) (bodyid : Z) (fieldname : string) : Res (list Z) :=
  dor a <- get_results h x "W1PANPRE" (Some bodyid) fieldname; ints_of (n_flat a).
Definition count_distinct (h : h5) (x : hydro) (bodyid : Z) (fieldname : string) : Res nat :=
  match int_results h x bodyid fieldname with
  | Ok l => Ok (length (unique l))
  | Err NoSuchRecordError => Ok 0%nat
  | Err e => Err e
  end.
(** get_pressure_panel_ids, hydrodata.py:420-453; None when there are no panels.
    The assertions in the last loop cannot fail and are left out. *)
Definition get_pressure_panel_ids (h : h5) (x : hydro) (bodyid : Z) : Res (option (list (Z * Z))) :=
  dor _ <- assert_domaintype x "frequency";
  dor np <- count_distinct h x bodyid "ipan";
  dor _ <- count_distinct h x bodyid "isymm1";
  match np with
  | O => Ok None
  | _ =>
      dor panels <- int_results h x bodyid "ipan";
      dor symms <- int_results h x bodyid "isymm1";
      Ok (Some (flat_map (fun s => map (fun p => (p, s)) (unique panels)) (unique symms)))
  end.
(** get_panel_pressures, hydrodata.py:455-480 *)
Definition get_panel_pressures (h : h5) (x : hydro) (bodyid : Z) : Res (option (nd cell)) :=
  dor _ <- assert_domaintype x "frequency";
  dor np <- count_distinct h x bodyid "ipan";
  dor ns <- count_distinct h x bodyid "isymm1";
  match np with
  | O => Ok None
  | _ =>
      dor a <- get_results h x "W1PANPRE" (Some bodyid) "p";
      dor b <- set_shape a [ndirs x; nfreqs x; ns; np];
      Ok (Some (moveaxis b [(0, 3); (1, 2)]%nat))
  end.
