(** * Handles: files and data objects being opened, used and closed
    (data/file.py, data/sifdata.py). *)
From Verif Require Import Base Flt H5 Schema Data Files Struc Trans Nd Hydro.
Open Scope string_scope.
Open Scope Z_scope.
Open Scope list_scope.
Open Scope monad_scope.

(** A data object.  Clearing __dict__ (SifData._close, sifdata.py:129-131) is
    modelled by the flag [d_open] alone: no method of a data object reads
    another attribute before it has checked the flag. *)
Record hobj : Set := mkO { ob_key : string; ob_kind : kind; ob_data : sdata; ob_hydro : option hydro }.
(** A File object with the data objects made for it and the state of the
    underlying tables.File, file.py:52-113.  Data objects go on existing after
    they are closed, since a caller may hold on to them. *)
Record hfile : Set := mkF { hf_store : h5; hf_objs : list hobj; hf_tb : bool; hf_open : bool }.
(** Everything: the files opened so far, and the module's set _open_files
    (file.py:16) as a list of their numbers. *)
Record state : Set := mkS { st_files : list hfile; st_set : list nat }.
Definition start : state := mkS [] [].

(** What File.__init__ puts in self._data, and the constructor of HydroData. *)
Definition make_obj (h : h5) (e : entry) : Res hobj :=
  match kind_of e with
  | KHydro => dor x <- hydro_init h (obj_of e); Ok (mkO (key_of e) KHydro (obj_of e) (Some x))
  | k => Ok (mkO (key_of e) k (obj_of e) None)
  end.
Definition open_objs (h : h5) : Res (list hobj) := dor es <- file_data h; rmap (make_obj h) es.

(** SifData._close, sifdata.py:129-131 *)
Definition closed_data (d : sdata) : sdata :=
  mkSD (d_group d) (d_names d) (d_seltyp d) (d_level d) (d_filetype d) (d_datatype d) (d_index d) (d_file d) (d_top d) false.
Definition closed_obj (o : hobj) : hobj := mkO (ob_key o) (ob_kind o) (closed_data (ob_data o)) (ob_hydro o).

Fixpoint set_nth {A} (n : nat) (x : A) (l : list A) : list A :=
  match n, l with
  | _, [] => []
  | O, _ :: r => x :: r
  | S n', y :: r => y :: set_nth n' x r
  end.
Definition nat_mem (n : nat) (l : list nat) : bool := existsb (Nat.eqb n) l.
Fixpoint remove_first (n : nat) (l : list nat) : list nat :=
  match l with [] => [] | m :: r => if Nat.eqb n m then r else m :: remove_first n r end.

(** File.close, file.py:169-184 *)
Definition close_file (s : state) (n : nat) : state * Res unit :=
  match nth_error (st_files s) n with
  | None => (s, Err KeyError)
  | Some f =>
      if hf_open f then
        let objs := map closed_obj (hf_objs f) in
        if nat_mem n (st_set s) then
          (mkS (set_nth n (mkF (hf_store f) objs false false) (st_files s)) (remove_first n (st_set s)), Ok tt)
        else (* set.remove of something that is not there *)
          (mkS (set_nth n (mkF (hf_store f) objs false true) (st_files s)) (st_set s), Err KeyError)
      else (s, Ok tt)
  end.

(** SifData.close, sifdata.py:120-127: the owner is closed, which is the file or
    another data object. *)
Fixpoint path_eqb (p q : path) : bool :=
  match p, q with
  | [], [] => true
  | a :: p', b :: q' => String.eqb a b && path_eqb p' q'
  | _, _ => false
  end.
Fixpoint obj_at (p : path) (i : nat) (os : list hobj) : option nat :=
  match os with [] => None | o :: r => if path_eqb p (d_group (ob_data o)) then Some i else obj_at p (S i) r end.
Fixpoint close_data (fuel : nat) (s : state) (n i : nat) : state * Res unit :=
  match nth_error (st_files s) n with
  | None => (s, Err KeyError)
  | Some f =>
      match nth_error (hf_objs f) i with
      | None => (s, Err KeyError)
      | Some o =>
          if d_open (ob_data o) then
            match d_file (ob_data o) with
            | OFile => close_file s n
            | OData p =>
                match fuel, obj_at p 0 (hf_objs f) with
                | S k, Some j => close_data k s n j
                | O, _ => (s, Err OutOfFuel)
                | _, None => (s, Err AttributeError)
                end
            | ONone => (mkS (set_nth n (mkF (hf_store f) (set_nth i (closed_obj o) (hf_objs f)) (hf_tb f) (hf_open f)) (st_files s)) (st_set s), Ok tt)
            end
          else (s, Ok tt)
      end
  end.

(** close_all_files, file.py:45-49: a loop over the set, whose iterator checks
    before each turn that the set has kept its size.  [order]: the elements in
    the order of iteration. *)
Fixpoint close_each (size : nat) (order : list nat) (s : state) : state * Res unit :=
  if Nat.eqb (length (st_set s)) size then
    match order with
    | [] => (mkS (st_files s) [], Ok tt)
    | n :: r =>
        let (s', a) := close_file s n in
        match a with Ok _ => close_each size r s' | Err e => (s', Err e) end
    end
  else (s, Err RuntimeError).
Definition close_all (order : list nat) (s : state) : state * Res unit := close_each (length (st_set s)) order s.

(** ** Use *)

(** The methods of the data objects.  [d] is the object; arithmetic does not
    matter here, the functions of Trans and Hydro are used with arbitrary
    arithmetic. *)
Inductive accessor : Set :=
| ASetnames
| ATransformation (seltyp index : Z) (lv : level)
| ANodes (sets : list name) (kind : string) (disconnected : bool)
| ANodenumbers (sets : list name) (kind : string) (disconnected : bool) (numbertype : string)
| ANoderesults (restype : string) (run : Z) (rescases : cases) (sets : list name) (kind : string) (disconnected : bool)
| AElements (sets : list name) (kind : string) (disconnected : bool)
| AElementnumbers (sets : list name) (kind : string) (numbertype : string)
| ASections (sets : list name)
| AThicknesses (sets : list name)
| ACasenames (rescases : cases)
| HFreqs | HPeriods | HDirections (u : string) | HTimesteps | HSections | HPoints
| HBody (b : Z)
| HResponse (rec fld : string) (n : nat) (b : Z)
| HSectionforce (b : Z)
| HFluid (kind : string)
| HMatrix (t b b2 : Z)
| HPanelids (b : Z)
| HPressures (b : Z).
Definition with_data (x : hydro) (d : sdata) : hydro :=
  mkHy d (hy_freqs x) (hy_dirs x) (hy_times x) (hy_nsections x) (hy_npoints x) (hy_g x) (hy_ro x) (hy_depth x).
Definition drop {A} (r : Res A) : Res unit := dor _ <- r; Ok tt.
Definition use_data (h : h5) (d : sdata) (a : accessor) : option (Res unit) :=
  match a with
  | ASetnames => Some (drop (get_setnames h d))
  | ATransformation t i lv => Some (drop (get_transformation 0 1 Z.add Z.mul (fun _ => 0) h d t i lv))
  | ANodes sets kind dis => Some (drop (get_coords h d sets kind dis))
  | ANodenumbers sets kind dis t => Some (drop (get_nodenumbers h d sets kind dis t))
  | ANoderesults t run cs sets kind dis => Some (drop (get_noderesults h d t run cs sets kind dis))
  | AElements sets kind dis => Some (drop (get_elements h d sets kind dis))
  | AElementnumbers sets kind t => Some (drop (get_elementnumbers h d sets kind t))
  | ASections sets => Some (drop (get_section_properties h d sets))
  | AThicknesses sets => Some (drop (get_shell_thicknesses h d sets))
  | ACasenames cs => Some (drop (get_resultcase_names h d cs))
  | _ => None
  end.
Definition use_hydro (h : h5) (x : hydro) (a : accessor) : option (Res unit) :=
  match a with
  | HFreqs => Some (drop (get_angular_freqs x))
  | HPeriods => Some (drop (get_periods (fun f => f) x))
  | HDirections u => Some (drop (get_directions (fun f => f) x u))
  | HTimesteps => Some (drop (get_timesteps x))
  | HSections => Some (drop (get_sections h x))
  | HPoints => Some (drop (get_points h x))
  | HBody b => Some (drop (get_bodyproperties h x b))
  | HResponse rec fld n b => Some (drop (get_response h x rec fld n b))
  | HSectionforce b => Some (drop (get_sectionforce_raos h x b))
  | HFluid k => Some (drop (get_fluidkinematics_raos (fun c _ => c) h x k))
  | HMatrix t b b2 => Some (drop (get_matrix h x t b b2))
  | HPanelids b => Some (drop (get_pressure_panel_ids h x b))
  | HPressures b => Some (drop (get_panel_pressures h x b))
  | _ => None
  end.
(** The methods of the classes TopLevelData (strucdata.py:216-256), InterLevelData
    (259-262) and FirstLevelData (265-962); get_setnames is StrucData's (183-189).
    [None]: no such method.  HigherLevelData.get_nodes (211-213) is only `pass`. *)
Definition struc_method (h : h5) (k : kind) (d : sdata) (a : accessor) : option (Res unit) :=
  match k, a with
  | KHydro, _ => None
  | _, ASetnames => use_data h d a
  | KTop, ATransformation _ _ _ => use_data h d a
  | KTop, ANodes _ _ _ | KInter, ANodes _ _ _ => Some (Ok tt)
  | KTop, _ | KInter, _ => None
  | KFirst, ATransformation _ _ _ => None
  | KFirst, _ => use_data h d a
  end.
(** A method of an object; AttributeError when its class has no such method.
    Other methods that do nothing (`pass`, strucdata.py:897-904, 934-948) are
    left out, and get_elementresults is in Elem.v. *)
Definition use_obj (h : h5) (o : hobj) (a : accessor) : Res unit :=
  match ob_hydro o with
  | Some x => match use_hydro h (with_data x (ob_data o)) a with Some r => r | None => Err AttributeError end
  | None => match struc_method h (ob_kind o) (ob_data o) a with Some r => r | None => Err AttributeError end
  end.

(** Methods of a file: __getitem__, get, keys, values, items, __contains__,
    file.py:115-137, and __iter__, file.py:161-162, which hands out a view of the
    values where an iterator is required: TypeError. *)
Inductive lookup : Set := LItem (k : string) | LGet (k : string) | LContains (k : string) | LKeys | LValues | LItems | LIter.
Inductive answer : Set :=
| RNothing | RObj (i : nat) | RNone | RBool (b : bool) | RKeys (l : list string) | RObjs (l : list nat)
| RItems (l : list (string * nat)) | RNew (n : nat).
Fixpoint key_at (k : string) (i : nat) (os : list hobj) : option nat :=
  match os with [] => None | o :: r => if String.eqb k (ob_key o) then Some i else key_at k (S i) r end.
Definition look (f : hfile) (l : lookup) : Res answer :=
  if hf_open f then
    match l with
    | LItem k => match key_at k 0 (hf_objs f) with Some i => Ok (RObj i) | None => Err KeyError end
    | LGet k => Ok (match key_at k 0 (hf_objs f) with Some i => RObj i | None => RNone end)
    | LContains k => Ok (RBool (match key_at k 0 (hf_objs f) with Some _ => true | None => false end))
    | LKeys => Ok (RKeys (map ob_key (hf_objs f)))
    | LValues => Ok (RObjs (seq 0 (length (hf_objs f))))
    | LItems => Ok (RItems (combine (map ob_key (hf_objs f)) (seq 0 (length (hf_objs f)))))
    | LIter => Err TypeError
    end
  else Err ClosedFileError.

(** ** Histories *)

(** What a program can do.  [DoOpen h]: open_hdf5 of a file with content [h], or
    File of an in-memory one.  Files are numbered in the order they were opened,
    the data objects of a file in the order they were made. *)
Inductive op : Set :=
| DoOpen (h : h5)
| DoLook (n : nat) (l : lookup)
| DoUse (n i : nat) (a : accessor)
| DoClose (n : nat)
| DoCloseData (n i : nat)
| DoCloseAll (order : list nat).
Definition obj_count (s : state) (n : nat) : nat :=
  match nth_error (st_files s) n with Some f => length (hf_objs f) | None => O end.
Definition nothing (p : state * Res unit) : state * Res answer := (fst p, dor _ <- snd p; Ok RNothing).
Definition step (s : state) (o : op) : state * Res answer :=
  match o with
  | DoOpen h =>
      match open_objs h with
      | Ok os => (mkS (st_files s ++ [mkF h os true true]) (length (st_files s) :: st_set s), Ok (RNew (length (st_files s))))
      | Err e => (s, Err e)
      end
  | DoLook n l => match nth_error (st_files s) n with Some f => (s, look f l) | None => (s, Err KeyError) end
  | DoUse n i a =>
      match nth_error (st_files s) n with
      | Some f => match nth_error (hf_objs f) i with
                  | Some ob => (s, dor _ <- use_obj (hf_store f) ob a; Ok RNothing)
                  | None => (s, Err KeyError)
                  end
      | None => (s, Err KeyError)
      end
  | DoClose n => nothing (close_file s n)
  | DoCloseData n i => nothing (close_data (S (obj_count s n)) s n i)
  | DoCloseAll order => nothing (close_all order s)
  end.
Definition run (ops : list op) : state := fold_left (fun s o => fst (step s o)) ops start.
