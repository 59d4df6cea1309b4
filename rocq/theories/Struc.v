(** * Struc: structural data (data/strucdata.py).

    The getters read a store [h] through a data object [d].  An argument that
    Python treats as false (None, an empty sequence, an empty string) is []
    for [sets] and "" for [kind]; a single set name is a sequence of one. *)
From Verif Require Import Base Flt H5 Schema Data.
Open Scope string_scope.
Open Scope Z_scope.
Open Scope list_scope.
Open Scope monad_scope.

Definition name := list ascii.

(** StrucData._get_setmember_indices, strucdata.py:30-49. *)
Definition get_setmember_indices (h : h5) (d : sdata) (setnames : list name) (istype : Z) : Res (list Z) :=
  dor (tdsetnam, _) <- record1 h d "TDSETNAM";
  dor (gsetmemb, irmemb) <- record1 h d "GSETMEMB";
  dor setmembs <- rmap (fun nm =>
      dor row <- getrow tdsetnam (text_is tdsetnam "name" nm);
      dor isref <- ifield tdsetnam "idno" row;
      dor rs <- rfilter (both (int_is gsetmemb "isref" isref) (int_is gsetmemb "istype" istype)) (t_rows gsetmemb);
      rmap (fun r => dor a <- ifield gsetmemb "irmemb_start" r;
                     dor b <- ifield gsetmemb "irmemb_stop" r;
                     ints_of (slice a b irmemb)) rs) setnames;
  dor all <- concatenate (concat setmembs);
  Ok (map (fun x => x - 1) (unique all)).

(** StrucData._get_elementkind_indices, strucdata.py:51-82.  The rows chosen,
    then the condition on the element type; the subtraction in int32 is taken
    as exact. *)
Definition beam_type (t : Z) : bool := (t =? 15) || (t =? 23).
Definition shell_type (t : Z) : bool := (t =? 24) || (t =? 25) || (t =? 26) || (t =? 28).
Definition get_elementkind_indices (h : h5) (d : sdata) (kind : string) (elemindices : option (list Z)) : Res (list Z) :=
  dor (gelmnt1, _) <- record1 h d "GELMNT1";
  dor arr <- match elemindices with
             | Some idx => take (t_rows gelmnt1) idx
             | None => Ok (t_rows gelmnt1)
             end;
  let pick (p : Z -> bool) :=
    dor rs <- rfilter (fun r => dor x <- ifield gelmnt1 "eltyp" r; Ok (p x)) arr;
    dor nos <- rmap (ifield gelmnt1 "elno") rs;
    Ok (map (fun x => x - 1) nos) in
  if String.eqb kind "beam" then pick beam_type
  else if String.eqb kind "shell" then pick shell_type
  else Err ValueError.

Definition some_sets (sets : list name) : bool := match sets with [] => false | _ => true end.
Definition some_kind (kind : string) : bool := negb (String.eqb kind "").

(** StrucData._get_elementindices, strucdata.py:84-98. *)
Definition get_elementindices (h : h5) (d : sdata) (sets : list name) (kind : string) : Res (list Z) :=
  if some_sets sets then
    dor idx <- get_setmember_indices h d sets 2;
    if some_kind kind then get_elementkind_indices h d kind (Some idx) else Ok idx
  else if some_kind kind then get_elementkind_indices h d kind None
  else
    dor (gelmnt1, _) <- record1 h d "GELMNT1";
    dor nos <- icol gelmnt1 "elno";
    Ok (map (fun x => x - 1) nos).

(** StrucData._get_connectivity, strucdata.py:100-112. *)
Definition get_connectivity (h : h5) (d : sdata) (elemindices : list Z) : Res (list Z * list Z) :=
  dor (gelmnt1, nodin) <- record1 h d "GELMNT1";
  dor (con, offset) <- get_varlendata gelmnt1 "nodin" nodin elemindices;
  dor con <- ints_of con;
  Ok (map (fun x => x - 1) con, offset).

(** StrucData._update_connectivity, strucdata.py:114-122.  np.vectorize refuses
    an empty argument. *)
Fixpoint index_in (x : Z) (l : list Z) : option Z :=
  match l with
  | [] => None
  | y :: r => if x =? y then Some 0 else option_map Z.succ (index_in x r)
  end.
Definition update_connectivity (con : list Z) : Res (list Z) :=
  let nodeindices := unique con in
  match con with
  | [] => Err ValueError
  | _ => rmap (fun x => match index_in x nodeindices with Some i => Ok i | None => Err KeyError end) con
  end.

(** StrucData._get_nodeindices, strucdata.py:134-152. *)
Definition get_nodeindices (h : h5) (d : sdata) (sets : list name) (kind : string) (disconnected : bool) : Res (list Z) :=
  dor gcoord <- record0 h d "GCOORD";
  dor (gelmnt1, nodin) <- record1 h d "GELMNT1";
  if some_sets sets || some_kind kind then
    dor elemindices <- get_elementindices h d sets kind;
    dor (con, _) <- get_connectivity h d elemindices;
    Ok (if disconnected then con else unique con)
  else if disconnected then
    dor con <- ints_of nodin; Ok (map (fun x => x - 1) con)
  else Ok (arange (length (t_rows gcoord))).

(** The argument rescases of _get_resrefs: None, an int, or a list, tuple or
    array of ints. *)
Inductive cases : Set := AllCases | OneCase (z : Z) | SomeCases (l : list Z).
(** StrucData._get_resrefs, strucdata.py:154-174.  The rows as a structured
    array; without any row the branch for given cases yields an array that has
    no fields. *)
Definition get_resrefs (h : h5) (d : sdata) (run : Z) (rescases : cases) : Res (table * list (list cell)) :=
  dor (rdresref, _) <- record1 h d "RDRESREF";
  dor rs <- match rescases with
            | AllCases => rfilter (int_is rdresref "irno" run) (t_rows rdresref)
            | OneCase z => rfilter (both (int_is rdresref "irno" run)
                                         (fun r => dor x <- ifield rdresref "ieres" r; Ok (zmem x [z]))) (t_rows rdresref)
            | SomeCases l => rfilter (both (int_is rdresref "irno" run)
                                           (fun r => dor x <- ifield rdresref "ieres" r; Ok (zmem x l))) (t_rows rdresref)
            end;
  Ok (rdresref, rs).

(** StrucData._check_complex_and_get_flag, strucdata.py:176-181; IndexError when
    there is no case. *)
Definition check_complex_and_get_flag (flags : list Z) : Res Z :=
  match flags with
  | [] => Err IndexError
  | f :: _ => if forallb (Z.eqb f) flags then Ok f else Err ResultError
  end.

(** StrucData.get_setnames, strucdata.py:183-189: None without set names. *)
Definition get_setnames (h : h5) (d : sdata) : Res (option (list cell)) :=
  match record1 h d "TDSETNAM" with
  | Ok (t, _) => dor c <- col t "name"; Ok (Some c)
  | Err NoSuchRecordError => Ok None
  | Err e => Err e
  end.

(** FirstLevelData.get_nodes, strucdata.py:411-483, without a transformation
    (for transformations see Trans.v): the rows x, y, z of the nodes chosen. *)
Definition get_coords (h : h5) (d : sdata) (sets : list name) (kind : string) (disconnected : bool) : Res (list (list cell)) :=
  dor gcoord <- record0 h d "GCOORD";
  dor nodeindices <- get_nodeindices h d sets kind disconnected;
  dor recs <- take (t_rows gcoord) nodeindices;
  rmap (fun r => dor x <- field gcoord "xcoord" r;
                 dor y <- field gcoord "ycoord" r;
                 dor z <- field gcoord "zcoord" r;
                 Ok [x; y; z]) recs.

(** numbertype: 'external' or 'internal' *)
Definition node_col (numbertype : string) : Res string :=
  if String.eqb numbertype "external" then Ok "nodex"
  else if String.eqb numbertype "internal" then Ok "nodeno" else Err ValueError.
(** FirstLevelData.get_nodenumbers, strucdata.py:485-500. *)
Definition get_nodenumbers (h : h5) (d : sdata) (sets : list name) (kind : string) (disconnected : bool) (numbertype : string)
  : Res (list Z) :=
  dor gnode <- record0 h d "GNODE";
  dor c <- node_col numbertype;
  if some_sets sets || some_kind kind || disconnected then
    dor nodeindices <- get_nodeindices h d sets kind disconnected;
    dor nos <- icol gnode c;
    take nos nodeindices
  else icol gnode c.

(** FirstLevelData.get_elements, strucdata.py:619-688. *)
Definition get_elements (h : h5) (d : sdata) (sets : list name) (kind : string) (disconnected : bool)
  : Res (list Z * list Z * list Z) :=
  dor (gelmnt1, nodin) <- record1 h d "GELMNT1";
  if some_sets sets || some_kind kind then
    dor elemindices <- get_elementindices h d sets kind;
    dor (con, offset) <- get_connectivity h d elemindices;
    dor types <- icol gelmnt1 "eltyp";
    dor eltyp <- take types elemindices;
    if disconnected then Ok (arange (length con), offset, eltyp)
    else dor con' <- update_connectivity con; Ok (con', offset, eltyp)
  else
    dor con <- (if disconnected then Ok (arange (length nodin))
                else dor c <- ints_of nodin; Ok (map (fun x => x - 1) c));
    dor offset <- icol gelmnt1 "nodin_stop";
    dor eltyp <- icol gelmnt1 "eltyp";
    Ok (con, offset, eltyp).

Definition elem_col (numbertype : string) : Res string :=
  if String.eqb numbertype "external" then Ok "elnox"
  else if String.eqb numbertype "internal" then Ok "elno" else Err ValueError.
(** FirstLevelData.get_elementnumbers, strucdata.py:690-705. *)
Definition get_elementnumbers (h : h5) (d : sdata) (sets : list name) (kind : string) (numbertype : string) : Res (list Z) :=
  dor (gelmnt1, _) <- record1 h d "GELMNT1";
  dor c <- elem_col numbertype;
  if some_sets sets || some_kind kind then
    dor elemindices <- get_elementindices h d sets kind;
    dor nos <- icol gelmnt1 c;
    take nos elemindices
  else icol gelmnt1 c.

(** FirstLevelData.get_noderesults, strucdata.py:502-577.  The result is a list
    of cases, each a list of nodes, each its components; a single case is an
    array without the first axis ([One]). *)
Inductive noderes : Set := One (a : list (list cell)) | Many (a : list (list (list cell))).
Definition restype_of (restype : string) : Res (string * string) :=
  if String.eqb restype "displacement" then Ok ("RVNODDIS", "dis")
  else if String.eqb restype "velocity" then Ok ("RVNODVEL", "vel")
  else if String.eqb restype "acceleration" then Ok ("RVNODACC", "acc")
  else Err ValueError.
(** data.dtype = np.complex64: two reals become one complex number. *)
Fixpoint to_complex (l : list cell) : Res (list cell) :=
  match l with
  | [] => Ok []
  | CF a :: CF b :: r => dor cs <- to_complex r; Ok (CC a b :: cs)
  | _ => Err ValueError
  end.
(** data.shape = (-1, n): the length must be a multiple of n. *)
Definition reshape {A} (n : nat) (l : list A) : Res (list (list A)) :=
  if Nat.eqb (length l mod n) 0 then Ok (chunks n l) else Err ValueError.
(** data.shape = (m, -1, n); m > 1 *)
Definition reshape3 {A} (m n : nat) (l : list A) : Res (list (list (list A))) :=
  if Nat.eqb (length l mod (m * n)) 0 then Ok (map (chunks n) (chunks (length l / m) l)) else Err ValueError.
Definition get_noderesults (h : h5) (d : sdata) (restype : string) (run : Z) (rescases : cases)
  (sets : list name) (kind : string) (disconnected : bool) : Res noderes :=
  dor (rn, cn) <- restype_of restype;
  dor (rvnodres, res) <- record1 h d rn;
  dor (rdresref, resrefs) <- get_resrefs h d run rescases;
  dor flags <- rmap (ifield rdresref "icompl") resrefs;
  dor complexflag <- check_complex_and_get_flag flags;
  dor nodenumbs <- get_nodenumbers h d sets kind false "internal";
  dor ires <- rmap (ifield rdresref "ires") resrefs;
  dor rows <- rfilter (fun r => dor i <- ifield rvnodres "ires" r;
                                dor n <- ifield rvnodres "iinod" r;
                                Ok (zmem i ires && zmem n nodenumbs)) (t_rows rvnodres);
  dor parts <- rmap (fun r => dor a <- ifield rvnodres (cn ++ "_start") r;
                              dor b <- ifield rvnodres (cn ++ "_stop") r;
                              Ok (slice a b res)) rows;
  dor data <- concatenate parts;
  dor data <- (if complexflag =? 0 then Ok data else to_complex data);
  let nres := length (unique ires) in
  if Nat.ltb 1 nres then
    dor arr <- reshape3 nres 6 data;
    if disconnected then
      dor ni <- get_nodeindices h d sets kind disconnected;
      dor idx <- update_connectivity ni;
      dor out <- rmap (fun a => take a idx) arr; Ok (Many out)
    else Ok (Many arr)
  else
    dor arr <- reshape 6 data;
    if disconnected then
      dor ni <- get_nodeindices h d sets kind disconnected;
      dor idx <- update_connectivity ni;
      dor out <- take arr idx; Ok (One out)
    else Ok (One arr).

(** dict(zip(keys, range(len(keys))))[k]: the last position of [k] *)
Fixpoint last_index (k : Z) (ks : list Z) : option nat :=
  match ks with
  | [] => None
  | x :: r => match last_index k r with
              | Some i => Some (S i)
              | None => if k =? x then Some O else None
              end
  end.
Definition lookup_rows {A} (keys : list Z) (vals : list A) (ks : list Z) : Res (list A) :=
  rmap (fun k => match last_index k keys with
                 | Some i => pyget vals i
                 | None => Err KeyError
                 end) ks.
(** FirstLevelData.get_section_properties, strucdata.py:906-916. *)
Definition get_section_properties (h : h5) (d : sdata) (sets : list name) : Res (list (list cell)) :=
  dor (gelref1, _) <- get_record h d "GELREF1";
  dor gbeamg <- record0 h d "GBEAMG";
  dor elemindices <- get_elementindices h d sets "beam";
  dor g <- icol gelref1 "geono";
  dor geono_bm <- take g elemindices;
  dor keys <- icol gbeamg "geono";
  lookup_rows keys (t_rows gbeamg) geono_bm.
(** FirstLevelData.get_shell_thicknesses, strucdata.py:918-928. *)
Definition get_shell_thicknesses (h : h5) (d : sdata) (sets : list name) : Res (list cell) :=
  dor (gelref1, _) <- get_record h d "GELREF1";
  dor gelth <- record0 h d "GELTH";
  dor ths <- col gelth "th";
  dor elemindices <- get_elementindices h d sets "shell";
  dor g <- icol gelref1 "geono";
  dor geono_sh <- take g elemindices;
  dor keys <- icol gelth "geono";
  lookup_rows keys ths geono_sh.

(** FirstLevelData.get_resultcase_names, strucdata.py:950-972: dict(zip(idnos,
    names)) as the list of pairs; a later pair with the same number replaces an
    earlier one. *)
Definition get_resultcase_names (h : h5) (d : sdata) (rescases : cases) : Res (list (Z * cell)) :=
  dor (loadtable, _) <- record1 h d "TDLOAD";
  dor idnos <- icol loadtable "idno";
  dor names <- col loadtable "name";
  let keep z := match rescases with AllCases => true | OneCase c => z =? c | SomeCases l => zmem z l end in
  Ok (filter (fun p => keep (fst p)) (combine idnos names)).

(** calc.general.find_elemres_indices, general.py:19-34.  [elemnumb], [nodenumb]:
    the numbers of the elements and of the nodes (disconnected).  The position of
    the minimum among the positive differences is used in the array of all
    positions. *)
Definition where_ (l : list Z) (x : Z) : list Z :=
  map fst (filter (fun p => snd p =? x) (combine (arange (length l)) l)).
Fixpoint argmin_aux (best : Z) (bi i : nat) (l : list Z) : nat :=
  match l with
  | [] => bi
  | x :: r => if x <? best then argmin_aux x i (S i) r else argmin_aux best bi (S i) r
  end.
Definition argmin (l : list Z) : Res nat :=
  match l with [] => Err ValueError | x :: r => Ok (argmin_aux x 0 1 r) end.
Definition find_elemres_index (offset elemnumb nodenumb : list Z) (elno nodeno : Z) : Res Z :=
  let nodeind_arr := where_ nodenumb nodeno in
  match where_ elemnumb elno with
  | [elind] =>
      dor o <- pygetZ offset elind;
      let tmp_arr := map (fun i => o - i) nodeind_arr in
      dor tmp_ind <- argmin (filter (fun x => 0 <? x) tmp_arr);
      pyget nodeind_arr tmp_ind
  | _ => Err ValueError
  end.
Definition find_elemres_indices (pairs : list (Z * Z)) (offset elemnumb nodenumb : list Z) : Res (list Z) :=
  rmap (fun p => find_elemres_index offset elemnumb nodenumb (fst p) (snd p)) pairs.
