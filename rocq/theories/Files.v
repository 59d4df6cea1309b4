(** * Files: the data objects of a converted file (data/file.py).

    Which data objects a File holds, by key, and how they are made. *)
From Verif Require Import Base Flt H5 Schema Data Nd Hydro.
Open Scope string_scope.
Open Scope Z_scope.
Open Scope list_scope.
Open Scope monad_scope.

(** The class of a data object: TopLevelData, InterLevelData, FirstLevelData,
    HydroData. *)
Inductive kind : Set := KTop | KInter | KFirst | KHydro.

(** group._f_iter_nodes('Group'): the groups directly below, in alphabetical
    order (PyTables). *)
Fixpoint str_leb (s t : string) : bool :=
  match s, t with
  | EmptyString, _ => true
  | String _ _, EmptyString => false
  | String a s', String b t' =>
      if Ascii.eqb a b then str_leb s' t' else Nat.ltb (nat_of_ascii a) (nat_of_ascii b)
  end.
Fixpoint str_insert (s : string) (l : list string) : list string :=
  match l with [] => [s] | t :: r => if str_leb s t then s :: l else t :: str_insert s r end.
Definition str_sort (l : list string) : list string := fold_right (fun s r => if str_in s r then r else str_insert s r) [] l.
Fixpoint below (p q : path) : option string :=
  match p, q with
  | [], [n] => Some n
  | a :: p', b :: q' => if String.eqb a b then below p' q' else None
  | _, _ => None
  end.
Definition child_groups (h : h5) (p : path) : list string :=
  str_sort (flat_map (fun qn => match h5_find (fst qn) h, below p (fst qn) with
                                | Some (Group _), Some n => [n]
                                | _, _ => []
                                end) h).

(** FirstLevelData.__init__, strucdata.py:323-326: its second argument,
    called toplevel, is passed on as the second argument of
    StrucData.__init__, which is the file instance; the top level reference
    stays None. *)
Definition first_init (h : h5) (p : path) (toplevel : owner) : Res sdata :=
  dor d <- sif_init h p toplevel None;
  if String.eqb (d_filetype d) "R" then
    dor i <- attr_int h p "INDEX";
    Ok (mkSD (d_group d) (d_names d) (d_seltyp d) (d_level d) (d_filetype d) (d_datatype d) i (d_file d) (d_top d) (d_open d))
  else Ok d.

(** HydroData.__init__, hydrodata.py:51-89, as far as the base class goes; what
    else is computed there (Hydro.v) is only checked to come out, Handles.v and the
    theorems take it up again. *)
Definition hydro_data (h : h5) (p : path) : Res sdata :=
  dor d <- sif_init h p OFile None; dor _ <- hydro_init h d; Ok d.

Definition entry := (string * kind * sdata)%type.

(** The loop over the subgroups of a group, file.py:104-113; groups of another
    level are left out. *)
Fixpoint sub_objects (h : h5) (gr : string) (data : path) (subs : list string) : Res (list entry) :=
  match subs with
  | [] => Ok []
  | s :: r =>
      let p := [gr; s] in
      let key := (gr ++ "/" ++ s)%string in
      dor level <- attr_str h p "LEVEL";
      dor es <- (if String.eqb level "INTERLEVEL" then dor d <- sif_init h p (OData data) None; Ok [(key, KInter, d)]
                 else if String.eqb level "FIRSTLEVEL" then dor d <- first_init h p (OData data); Ok [(key, KFirst, d)]
                 else Ok []);
      dor rest <- sub_objects h gr data r;
      Ok (es ++ rest)
  end.
(** The loop over the groups, file.py:85-113.  [data] is the variable of that
    name, kept from one turn to the next. *)
Fixpoint objects (h : h5) (data : option (kind * sdata)) (grs : list string) : Res (list entry) :=
  match grs with
  | [] => Ok []
  | gr :: r =>
      let p := [gr] in
      dor datatype <- attr_str h p "DATATYPE";
      dor data' <-
        (if String.eqb datatype "STRUCTURAL" then
           dor level <- attr_str h p "LEVEL";
           if String.eqb level "TOPLEVEL" then dor d <- sif_init h p OFile None; Ok (Some (KTop, d))
           else if String.eqb level "FIRSTLEVEL" then dor d <- first_init h p OFile; Ok (Some (KFirst, d))
           else Ok data
         else if String.eqb datatype "HYDRODYNAMIC" then dor d <- hydro_data h p; Ok (Some (KHydro, d))
         else Ok data);
      match data' with
      | None => Err UnboundLocalError
      | Some (k, d) =>
          dor subs <- sub_objects h gr (d_group d) (child_groups h p);
          dor rest <- objects h data' r;
          Ok ((gr, k, d) :: subs ++ rest)
      end
  end.
(** File.__init__, file.py:56-113: self._data *)
Definition file_data (h : h5) : Res (list entry) := objects h None (child_groups h []).
Definition key_of (e : entry) : string := fst (fst e).
Definition kind_of (e : entry) : kind := snd (fst e).
Definition obj_of (e : entry) : sdata := snd e.
(** File.__getitem__, file.py:115-117 *)
Fixpoint get_data (k : string) (es : list entry) : Res (kind * sdata) :=
  match es with
  | [] => Err KeyError
  | e :: r => if String.eqb k (key_of e) then Ok (kind_of e, obj_of e) else get_data k r
  end.
