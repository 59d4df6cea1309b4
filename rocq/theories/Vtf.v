(** * Vtf: files for GLview, utils/vtfdata.py

    The class does not work as it stands: __init__ (154) reads [self.scalar],
    which no line sets, and the methods call next() and iteritems(), which only
    Python 2 has (the package wants Python 3.6).  Both are parameters here, so that
    the rest of the file can be modelled: [named] says that 154 reads
    [self.scalars], [two] that next(), iteritems(), keys() and map do what they did
    in Python 2.

    Arrays are lists of rows.  An OrderedDict is a list of pairs with distinct keys.
    [show] is '{}'.format of a float32 (690). *)
From Verif Require Import Base Flt Write.
Open Scope string_scope.
Open Scope Z_scope.
Open Scope list_scope.
Open Scope monad_scope.

Definition text := list ascii.

(** Global variables, vtfdata.py:12-47. *)
Definition block_types : list string := ["*NODES"; "*ELEMENTS"; "*RESULTS"; "*GLVIEWSCALAR"; "*GLVIEWGEOMETRY"].
Definition elem_directives : list string := ["%NAME"; "%DESCRIPTION"; "%NODES"; "%NO_ID"; "%WITH_ID"].
Definition elem_types : list string := ["%BEAMS"; "%BEAMS_3"; "%TRIANGLES"; "%TRIANGLES_6"; "%QUADS"; "%QUADS_8"].
Definition res_directives : list string := ["%DIMENSION"; "%WITH_ID"; "%NO_ID"].
Definition res_types : list string :=
  ["%PER_NODE"; "%PER_ELEMENT"; "%PER_ELEMENT_NODE"; "%PER_ELEMENT_FACE"; "%PER_ELEMENT_FACE_NODE"; "%PER_FACE"].
Definition geom_directives : list string := ["%NAME"; "%DESCRIPTION"].
Definition scalar_directives : list string := ["%NAME"; "%DESCRIPTION"; "%STEP"].
Definition elem_type_map : list (Z * string) :=
  [(15, "%BEAMS"); (23, "%BEAMS_3"); (25, "%TRIANGLES"); (26, "%TRIANGLES_6"); (24, "%QUADS"); (28, "%QUADS_8")].
Definition number_of_nodes : list (string * nat) :=
  [("%BEAMS", 2); ("%BEAMS_3", 3); ("%TRIANGLES", 3); ("%TRIANGLES_6", 6); ("%QUADS", 4); ("%QUADS_8", 8)]%nat.

(** Nodes, Elements, Results, Scalar: 70-115.  [Default] is the list made once for
    the default value of results_ids (84), which every Scalar made without that
    argument shares. *)
Record nodes : Set := mkNodes { n_arr : list (list flt); n_ids : option (list Z) }.
Record elements : Set := mkElems { e_name : text; e_descr : text; e_nodes : Z;
  e_dict : list (string * list (list Z)); e_ids : option (list (string * list Z)); e_res : list Z }.
Record results : Set := mkRes { r_type : string; r_dict : list (string * list (list flt)); r_elems : Z; r_dim : Z }.
Inductive idlist : Set := Default | Own (l : list Z).
Record scalar : Set := mkScalar { s_name : text; s_descr : text; s_ids : idlist }.

(** A VtfData object, 127-157; [v_default]: the shared list; the counters hold the
    next number.  The key None of a nodes block is there because add_nodes makes
    it. *)
Record vtf : Set := mkVtf { v_geom : Z; v_name : text; v_descr : text;
  v_nodes : list (option Z * nodes); v_elems : list (Z * elements);
  v_results : list (Z * results); v_scalars : list (Z * scalar);
  v_cnodes : Z; v_celems : Z; v_cscalar : Z; v_cresults : Z;
  v_curelems : option Z; v_curscalar : option Z; v_default : list Z }.
Definition set_geom v g := mkVtf g (v_name v) (v_descr v) (v_nodes v) (v_elems v) (v_results v) (v_scalars v) (v_cnodes v) (v_celems v) (v_cscalar v) (v_cresults v) (v_curelems v) (v_curscalar v) (v_default v).
Definition set_names v n d := mkVtf (v_geom v) n d (v_nodes v) (v_elems v) (v_results v) (v_scalars v) (v_cnodes v) (v_celems v) (v_cscalar v) (v_cresults v) (v_curelems v) (v_curscalar v) (v_default v).
Definition set_nodes v x := mkVtf (v_geom v) (v_name v) (v_descr v) x (v_elems v) (v_results v) (v_scalars v) (v_cnodes v) (v_celems v) (v_cscalar v) (v_cresults v) (v_curelems v) (v_curscalar v) (v_default v).
Definition set_elems v x := mkVtf (v_geom v) (v_name v) (v_descr v) (v_nodes v) x (v_results v) (v_scalars v) (v_cnodes v) (v_celems v) (v_cscalar v) (v_cresults v) (v_curelems v) (v_curscalar v) (v_default v).
Definition set_results v x := mkVtf (v_geom v) (v_name v) (v_descr v) (v_nodes v) (v_elems v) x (v_scalars v) (v_cnodes v) (v_celems v) (v_cscalar v) (v_cresults v) (v_curelems v) (v_curscalar v) (v_default v).
Definition set_scalars v x := mkVtf (v_geom v) (v_name v) (v_descr v) (v_nodes v) (v_elems v) (v_results v) x (v_cnodes v) (v_celems v) (v_cscalar v) (v_cresults v) (v_curelems v) (v_curscalar v) (v_default v).
Definition set_counters v a b c d := mkVtf (v_geom v) (v_name v) (v_descr v) (v_nodes v) (v_elems v) (v_results v) (v_scalars v) a b c d (v_curelems v) (v_curscalar v) (v_default v).
Definition set_current v e s := mkVtf (v_geom v) (v_name v) (v_descr v) (v_nodes v) (v_elems v) (v_results v) (v_scalars v) (v_cnodes v) (v_celems v) (v_cscalar v) (v_cresults v) e s (v_default v).
Definition set_default v l := mkVtf (v_geom v) (v_name v) (v_descr v) (v_nodes v) (v_elems v) (v_results v) (v_scalars v) (v_cnodes v) (v_celems v) (v_cscalar v) (v_cresults v) (v_curelems v) (v_curscalar v) l.

(** VtfData.__init__, 127-157. *)
Definition vtf_init (named : bool) (name descr : text) (default : list Z) : Res vtf :=
  if named then Ok (mkVtf 1 name descr [] [] [] [] 1 1 1 1 None None default) else Err AttributeError.

(** OrderedDict: d[k] = v *)
Fixpoint oset {K V} (eqb : K -> K -> bool) (k : K) (v : V) (d : list (K * V)) : list (K * V) :=
  match d with
  | [] => [(k, v)]
  | (k', v') :: r => if eqb k k' then (k', v) :: r else (k', v') :: oset eqb k v r
  end.
Definition oget {K V} (eqb : K -> K -> bool) (k : K) (d : list (K * V)) : Res V :=
  match dget eqb k d with Some v => Ok v | None => Err KeyError end.
Definition oz_eqb (a b : option Z) : bool :=
  match a, b with Some x, Some y => x =? y | None, None => true | _, _ => false end.
Definition shared (v : vtf) (l : idlist) : list Z := match l with Default => v_default v | Own l => l end.

(** ** Text *)

(** str.split() *)
Fixpoint split_aux (cur : text) (l : text) : list text :=
  match l with
  | [] => match cur with [] => [] | _ => [rev cur] end
  | c :: r => if is_space_s c then match cur with [] => split_aux [] r | _ => rev cur :: split_aux [] r end
              else split_aux (c :: cur) r
  end.
Definition split (l : text) : list text := split_aux [] l.
(** str.split(',') *)
Fixpoint split_comma (cur : text) (l : text) : list text :=
  match l with
  | [] => [rev cur]
  | c :: r => if Ascii.eqb c "," then rev cur :: split_comma [] r else split_comma (c :: cur) r
  end.
(** ' '.join *)
Fixpoint join (ws : list text) : text :=
  match ws with
  | [] => []
  | [w] => w
  | w :: r => w ++ blank :: join r
  end.
(** int(str) (without underscores) *)
Definition int_text (l : text) : Res Z :=
  let '(s, r) := sign_of (strip is_space_s l) in
  let '(z, n, r') := digrun 0 0 r in
  match r' with
  | [] => if n =? 0 then Err ValueError else Ok (if s then - z else z)
  | _ => Err ValueError
  end.
(** file.readlines() *)
Fixpoint lines_aux (cur : text) (l : text) : list text :=
  match l with
  | [] => match cur with [] => [] | _ => [rev cur] end
  | c :: r => if Ascii.eqb c nl then rev (c :: cur) :: lines_aux [] r else lines_aux (c :: cur) r
  end.
Definition lines (l : text) : list text := lines_aux [] l.

(** '{}'.format(z) *)
Definition znum (z : Z) : text := s2l (str_of_Z z).
Definition rjust (n : nat) (l : text) : text := repeat blank (n - length l) ++ l.
Definition ljust (n : nat) (l : text) : text := l ++ repeat blank (n - length l).
(** '{:.5f}': the whole part and five decimals of the nearest multiple of 10^-5, a
    tie to the even digit. *)
Definition hundred_thousandths (f : flt) : Z :=
  match f with
  | FFin _ m e => if 0 <=? e then Z.shiftl (Zpos m) e * 10 ^ 5 else nearest_int (Zpos m * 10 ^ 5) (Z.shiftl 1 (- e))
  | _ => 0
  end.
Definition flt_sign (f : flt) : bool := match f with FNan => false | FInf s | FZero s | FFin s _ _ => s end.
Definition fixed5 (f : flt) : text :=
  match f with
  | FNan => s2l "nan"
  | FInf s => if s then s2l "-inf" else s2l "inf"
  | _ => let n := hundred_thousandths f in
         (if flt_sign f then ["-"%char] else []) ++ znum (n / 10 ^ 5) ++ "."%char :: last_digits 5 n
  end.
(** '{:>12.5f}' *)
Definition format_f5 (f : flt) : text := rjust 12 (fixed5 f).

(** ** write, 573-705 *)
Section Write.
  Variables (two : bool) (show : flt -> text).

  Definition line_of (s : string) (l : text) : text := s2l s ++ l ++ [nl].
  Definition quoted (l : text) : text := """"%char :: l ++ [""""%char].

  (** 580-593 *)
  Definition write_coords (c : list flt) : Res text :=
    match c with
    | x :: y :: z :: _ => Ok (format_f5 x ++ format_f5 y ++ format_f5 z ++ [nl])
    | _ => Err IndexError
    end.
  Definition key_text (k : option Z) : text := match k with Some z => znum z | None => s2l "None" end.
  Definition write_nodes (b : option Z * nodes) : Res text :=
    let '(k, n) := b in
    dor body <-
      match n_ids n with
      | Some ids =>
          dor ls <- rmap (fun p => dor c <- write_coords (snd p); Ok (ljust 8 (znum (fst p)) ++ c)) (combine ids (n_arr n));
          Ok (line_of "%WITH_ID" [] ++ concat ls)
      | None => dor ls <- rmap write_coords (n_arr n); Ok (line_of "%NO_ID" [] ++ concat ls)
      end;
    Ok (line_of "*NODES " (key_text k) ++ body).

  (** The element types in the order they are written, 610-640. *)
  Definition keys {V} (d : list (string * V)) : list string := map fst d.
  Fixpoint lstr_eqb (a b : list string) : bool :=
    match a, b with
    | [], [] => true
    | x :: a', y :: b' => String.eqb x y && lstr_eqb a' b'
    | _, _ => false
    end.
  Definition elem_order (v : vtf) (e : elements) : Res (list (string * list (list Z))) :=
    match e_res e with
    | [] => Ok (e_dict e)
    | i :: _ =>
        dor r0 <- oget Z.eqb i (v_results v);
        let ks := keys (r_dict r0) in
        dor same <- rmap (fun j => dor r <- oget Z.eqb j (v_results v);
                                   if lstr_eqb (keys (r_dict r)) ks then Ok tt else Err VtfError) (e_res e);
        dor front <- rmap (fun k => dor a <- oget String.eqb k (e_dict e); Ok (k, a)) ks;
        Ok (front ++ filter (fun p => negb (str_in (fst p) ks)) (e_dict e))
    end.
  (** elems_arr.shape[1] *)
  Definition width (rows : list (list Z)) : Res nat :=
    match rows with [] => Err IndexError | r :: _ => Ok (length r) end.
  Definition cells (l : list Z) : text := concat (map (fun z => ljust 10 (znum z)) l) ++ [nl].
  (** elems_data.with_id (100): whether the dict of numbers is not empty *)
  Definition with_id (e : elements) : bool := match e_ids e with Some (_ :: _) => true | _ => false end.
  (** 643-664 *)
  Definition write_type (ids : option (list Z)) (p : string * list (list Z)) : Res text :=
    dor n <- width (snd p);
    Ok (line_of (fst p) [] ++
        match ids with
        | Some l => concat (map (fun q => cells (fst q :: snd q)) (combine l (snd p)))
        | None => concat (map cells (snd p))
        end).
  (** 597-664 *)
  Definition write_elements (v : vtf) (b : Z * elements) : Res text :=
    let '(k, e) := b in
    dor order <- elem_order v e;
    dor ls <- (if with_id e
               then rmap (fun q => write_type (Some (snd (fst q))) (snd q)) (combine (match e_ids e with Some d => d | None => [] end) order)
               else rmap (write_type None) order);
    Ok (line_of "*ELEMENTS " (znum k) ++ line_of "%NAME " (quoted (e_name e)) ++ line_of "%DESCRIPTION " (quoted (e_descr e)) ++
        line_of "%NODES #" (znum (e_nodes e)) ++ line_of (if with_id e then "%WITH_ID" else "%NO_ID") [] ++ concat ls).

  (** 668-674 *)
  Fixpoint commas (l : list Z) : text :=
    match l with
    | [] => []
    | [z] => znum z
    | z :: r => znum z ++ ","%char :: commas r
    end.
  Definition write_geometry (v : vtf) : Res text :=
    match v_elems v with
    | [] => Err IndexError
    | _ => Ok (line_of "*GLVIEWGEOMETRY " (znum (v_geom v)) ++ line_of "%NAME " (quoted (v_name v)) ++
               line_of "%DESCRIPTION " (quoted (v_descr v)) ++ line_of "%ELEMENTS" [] ++ commas (map fst (v_elems v)) ++ [nl])
    end.
  (** 677-690 *)
  Definition write_results (b : Z * results) : text :=
    let '(k, r) := b in
    line_of "*RESULTS " (znum k) ++ line_of "%DIMENSION " (znum (r_dim r)) ++
    line_of "%" (s2l (r_type r) ++ s2l " #" ++ znum (r_elems r)) ++
    concat (map (fun p => concat (map (fun row => concat (map (fun x => show x ++ [nl]) row)) (snd p))) (r_dict r)).
  (** 693-703 *)
  Fixpoint spaced (l : list Z) : text :=
    match l with
    | [] => []
    | [z] => znum z
    | z :: r => znum z ++ blank :: spaced r
    end.
  Definition write_scalar (v : vtf) (b : Z * scalar) : text :=
    let '(k, s) := b in
    line_of "*GLVIEWSCALAR " (znum k) ++ line_of "%NAME " (quoted (s_name s)) ++
    line_of "%DESCRIPTION " (quoted (s_descr s)) ++ line_of "%STEP 1" [] ++ spaced (shared v (s_ids s)) ++ [nl].

  Definition vtf_write (v : vtf) : Res text :=
    if negb two then Err AttributeError else
    dor ns <- rmap write_nodes (v_nodes v);
    dor es <- rmap (write_elements v) (v_elems v);
    dor g <- write_geometry v;
    Ok (line_of "*VTF-1.00" [] ++ concat ns ++ concat es ++ g ++ concat (map write_results (v_results v)) ++ concat (map (write_scalar v) (v_scalars v))).
End Write.

(** ** read, 168-399 *)
Definition blank_line (l : text) : bool := match strip is_space_s l with [] => true | _ => false end.
(** get_next_line, 175-179; [None]: StopIteration *)
Definition next_line (ls : list text) : option (text * list text) :=
  match dropwhile blank_line ls with [] => None | l :: r => Some (l, r) end.
(** line.split()[0] in a set of words *)
Definition starts (words : list string) (line : text) : bool :=
  match split line with w :: _ => str_in (l2s w) words | [] => false end.

(** while cond(line): body; line = get_next_line().  [LEof]: StopIteration at the
    last call, [LStop]: StopIteration in the body. *)
Inductive lres (A : Type) : Type := LEnd (a : A) (line : text) (ls : list text) | LEof (a : A) | LStop (a : A) | LBad (e : exn).
Arguments LEnd {A}. Arguments LEof {A}. Arguments LStop {A}. Arguments LBad {A}.
Inductive bres (A : Type) : Type := BOk (a : A) (ls : list text) | BStop (a : A) | BErr (e : exn).
Arguments BOk {A}. Arguments BStop {A}. Arguments BErr {A}.
Fixpoint while {A} (fuel : nat) (cond : text -> bool) (body : text -> list text -> A -> bres A) (a : A) (line : text) (ls : list text) : lres A :=
  match fuel with
  | O => LBad OutOfFuel
  | S k =>
      if cond line then
        match body line ls a with
        | BErr e => LBad e
        | BStop a' => LStop a'
        | BOk a' ls' => match next_line ls' with
                        | None => LEof a'
                        | Some (l, r) => while k cond body a' l r
                        end
        end
      else LEnd a line ls
  end.
Definition plain {A} (f : text -> A -> Res A) (line : text) (ls : list text) (a : A) : bres A :=
  match f line a with Ok a' => BOk a' ls | Err e => BErr e end.

(** What is left after a block: the next line and the object, the object at
    StopIteration, or an error. *)
Inductive bout : Type := More (line : text) (ls : list text) (v : vtf) | Finished (v : vtf) | Failed (e : exn).

Definition one_string (l : text) : string := l2s l.
Definition not_block (line : text) : bool := negb (starts block_types line).
Definition toks1 (ws : list text) : Res text := pyget ws 1.
(** toks[1][1:-1] or ' '.join(toks[1:])[1:-1] *)
Definition inner (l : text) : text := slice 1 (-1) l.
Definition directive_text (ws : list text) : text := inner (match ws with [_; w] => w | _ :: r => join r | [] => [] end).
(** The directive of a line *)
Definition word0 (line : text) : string := match split line with w :: _ => l2s w | [] => "" end.

(** 196-226 *)
Definition node_line (ids : bool) (line : text) (a : list (list flt) * list Z) : Res (list (list flt) * list Z) :=
  let ws := split line in
  if ids then
    dor xs <- rmap parse_float (tl ws);
    dor w <- pyget ws 0;
    dor i <- int_text w;
    Ok (fst a ++ [xs], snd a ++ [i])
  else
    dor xs <- rmap parse_float ws;
    Ok (fst a ++ [xs], snd a).
Definition read_nodes (fuel : nat) (k : Z) (ls : list text) (v : vtf) : bout :=
  match next_line ls with
  | None => Finished v
  | Some (line, ls) =>
      let go ids line ls :=
        match while fuel not_block (plain (node_line ids)) ([], []) line ls with
        | LEnd (arr, nos) line ls =>
            More line ls (set_nodes v (oset oz_eqb (Some k) (mkNodes arr (if ids then Some nos else None)) (v_nodes v)))
        | LEof _ | LStop _ => Finished v
        | LBad e => Failed e
        end in
      let skip ids := match next_line ls with None => Finished v | Some (line, ls) => go ids line ls end in
      if String.eqb (word0 line) "%NO_ID" then skip false
      else if String.eqb (word0 line) "%WITH_ID" then skip true
      else go false line ls
  end.

(** Directives of an elements block, 238-255: name, description, number of the
    nodes, whether elements are numbered. *)
Definition elem_directive (line : text) (a : text * text * Z * bool) : Res (text * text * Z * bool) :=
  let '(n, d, k, i) := a in
  let ws := split line in
  let w := word0 line in
  if String.eqb w "%NAME" then Ok (directive_text ws, d, k, i)
  else if String.eqb w "%DESCRIPTION" then Ok (n, directive_text ws, k, i)
  else if String.eqb w "%NODES" then dor t <- toks1 ws; dor z <- int_text (slice_from 1 t); Ok (n, d, z, i)
  else if String.eqb w "%WITH_ID" then Ok (n, d, k, true)
  else Ok a.
(** np.array(list of lists of texts, np.int32), of texts *)
Definition to_int32 (w : text) : Res Z :=
  dor z <- int_text w; if (-2147483648 <=? z) && (z <=? 2147483647) then Ok z else Err OverflowError.
Definition int_rows (rows : list (list text)) : Res (list (list Z)) :=
  match rows with
  | r :: rest => if forallb (fun q => Nat.eqb (length q) (length r)) rest then rmap (rmap to_int32) rows else Err ValueError
  | [] => Ok []
  end.
Definition elem_line (ids : bool) (line : text) (a : list (list text) * list text) : Res (list (list text) * list text) :=
  let ws := split line in
  if ids then dor w <- pyget ws 0; Ok (fst a ++ [tl ws], snd a ++ [w]) else Ok (fst a ++ [ws], snd a).
Definition elem_type_line (line : text) : bool := str_in (l2s (strip is_space_s line)) elem_types.
(** 258-274 *)
Fixpoint read_types (fuel : nat) (ids : bool) (dict : list (string * list (list Z))) (nos : list (string * list Z)) (line : text) (ls : list text) :
  lres (list (string * list (list Z)) * list (string * list Z)) :=
  match fuel with
  | O => LBad OutOfFuel
  | S k =>
      if elem_type_line line then
        let t := l2s (strip is_space_s line) in
        match next_line ls with
        | None => LStop (dict, nos)
        | Some (line, ls) =>
            match while k (fun l => negb (starts (elem_types ++ block_types) l)) (plain (elem_line ids)) ([], []) line ls with
            | LEnd (rows, ns) line ls =>
                match int_rows rows, rmap to_int32 ns with
                | Ok r, Ok n => read_types k ids (oset String.eqb t r dict) (oset String.eqb t n nos) line ls
                | Err e, _ | _, Err e => LBad e
                end
            | LEof _ | LStop _ => LStop (dict, nos)
            | LBad e => LBad e
            end
        end
      else LEnd (dict, nos) line ls
  end.
(** 228-283; the names are local to read, a scalar may find them (349-376). *)
Definition local := (option text * option text * option (list Z))%type.
Definition read_elements (fuel : nat) (k : Z) (loc : local) (ls : list text) (v : vtf) : bout * local :=
  match next_line ls with
  | None => (Finished v, loc)
  | Some (line, ls) =>
      match while fuel (starts elem_directives) (plain elem_directive) ([], [], 0, false) line ls with
      | LEnd (n, d, nd, ids) line ls =>
          (match read_types fuel ids [] [] line ls with
           | LEnd (dict, nos) line ls =>
               More line ls (set_elems v (oset Z.eqb k (mkElems n d nd dict (if ids then Some nos else None) []) (v_elems v)))
           | LEof _ | LStop _ => Finished v
           | LBad e => Failed e
           end, (Some n, Some d, snd loc))
      | LEof _ | LStop _ => (Finished v, loc)
      | LBad e => (Failed e, loc)
      end
  end.

(** 295-305 *)
Definition res_directive (line : text) (a : string * Z * Z) : Res (string * Z * Z) :=
  let '(t, el, dim) := a in
  let ws := split line in
  let w := word0 line in
  if String.eqb w "%DIMENSION" then dor x <- toks1 ws; dor z <- int_text x; Ok (t, el, z)
  else if str_in w res_types then dor x <- toks1 ws; dor z <- int_text (slice_from 1 x); Ok (w, z, dim)
  else Ok a.
(** [n] values, one on each line; the outer [None]: StopIteration *)
Fixpoint read_values (n : nat) (line : text) (ls : list text) : Res (option (list flt * text * list text)) :=
  match n with
  | O => Ok (Some ([], line, ls))
  | S k =>
      dor x <- parse_float line;
      match next_line ls with
      | None => Ok None
      | Some (l, r) => dor o <- read_values k l r;
                       Ok (match o with Some (xs, l, r) => Some (round32 x :: xs, l, r) | None => None end)
      end
  end.
Fixpoint read_rows {A} (arr : list A) (n : nat) (line : text) (ls : list text) : Res (option (list (list flt) * text * list text)) :=
  match arr with
  | [] => Ok (Some ([], line, ls))
  | _ :: rest =>
      dor o <- read_values n line ls;
      match o with
      | None => Ok None
      | Some (xs, line, ls) => dor o <- read_rows rest n line ls;
                               Ok (match o with Some (r, l, ls) => Some (xs :: r, l, ls) | None => None end)
      end
  end.
Fixpoint read_dict (d : list (string * list (list Z))) (acc : list (string * list (list flt))) (line : text) (ls : list text) :
  Res (option (list (string * list (list flt)) * text * list text)) :=
  match d with
  | [] => Ok (Some (acc, line, ls))
  | (t, arr) :: rest =>
      dor n <- oget String.eqb t number_of_nodes;
      dor o <- read_rows arr n line ls;
      match o with
      | None => Ok None
      | Some (r, line, ls) =>
          let acc' := oset String.eqb t r acc in
          if starts block_types line then Ok (Some (acc', line, ls)) else read_dict rest acc' line ls
      end
  end.
(** 285-346 *)
Definition read_results (fuel : nat) (k : Z) (ls : list text) (v : vtf) : bout :=
  match next_line ls with
  | None => Finished v
  | Some (line, ls) =>
      match while fuel (starts (res_directives ++ res_types)) (plain res_directive) ("", 0, 1) line ls with
      | LEnd (t, el, dim) line ls =>
          if String.eqb t "%PER_ELEMENT_NODE" then
            match oget Z.eqb el (v_elems v) with
            | Err e => Failed e
            | Ok e =>
                let v1 := set_elems v (oset Z.eqb el (mkElems (e_name e) (e_descr e) (e_nodes e) (e_dict e) (e_ids e) (e_res e ++ [k])) (v_elems v)) in
                match read_dict (e_dict e) [] line ls with
                | Err x => Failed x
                | Ok None => Finished v1
                | Ok (Some (d, line, ls)) =>
                    More line ls (set_results v1 (oset Z.eqb k (mkRes (l2s (slice_from 1 (s2l t))) d el dim) (v_results v1)))
                end
            end
          else Failed NotImplementedError
      | LEof _ | LStop _ => Finished v
      | LBad e => Failed e
      end
  end.

(** 349-376; name, description and res_ids keep the values of an earlier block
    within the same call when a directive is missing ([None]: not set yet). *)
Definition scalar_directive (line : text) (ls : list text) (a : local) : bres local :=
  let '(n, d, r) := a in
  let ws := split line in
  let w := word0 line in
  if String.eqb w "%NAME" then BOk (Some (directive_text ws), d, r) ls
  else if String.eqb w "%DESCRIPTION" then BOk (n, Some (directive_text ws), r) ls
  else match next_line ls with
       | None => BStop a
       | Some (l, ls) => match rmap (fun x => int_text (strip is_space_s x)) (split_comma [] l) with
                         | Ok ids => BOk (n, d, Some ids) ls
                         | Err e => BErr e
                         end
       end.
Definition store_scalar (k : Z) (a : local) (v : vtf) : Res vtf :=
  match a with
  | (Some n, Some d, Some r) => Ok (set_scalars v (oset Z.eqb k (mkScalar n d (Own r)) (v_scalars v)))
  | _ => Err UnboundLocalError
  end.
Definition read_scalar (fuel : nat) (k : Z) (loc : local) (ls : list text) (v : vtf) : bout * local :=
  match next_line ls with
  | None => (Finished v, loc)
  | Some (line, ls) =>
      match while fuel (starts scalar_directives) scalar_directive loc line ls with
      | LEnd a line ls => (match store_scalar k a v with Ok v' => More line ls v' | Err e => Failed e end, a)
      | LEof a => (match store_scalar k a v with Ok v' => Finished v' | Err e => Failed e end, a)
      | LStop a => (Finished v, a)
      | LBad e => (Failed e, loc)
      end
  end.

(** 379-395 *)
Definition geom_directive (line : text) (v : vtf) : Res vtf :=
  let ws := split line in
  let w := word0 line in
  if String.eqb w "%NAME" then Ok (set_names v (directive_text ws) (v_descr v))
  else Ok (set_names v (v_name v) (directive_text ws)).
Definition read_geometry (fuel : nat) (k : Z) (ls : list text) (v : vtf) : bout :=
  match next_line ls with
  | None => Finished (set_geom v k)
  | Some (line, ls) =>
      match while fuel (starts geom_directives) (plain geom_directive) (set_geom v k) line ls with
      | LEnd v line ls => More line ls v
      | LEof v | LStop v => Finished v
      | LBad e => Failed e
      end
  end.

(** 183-399; [loc]: name, description and res_ids, which are local to read.  A block
    that no branch reads leaves the line as it is. *)
Fixpoint read_blocks (fuel : nat) (loc : local) (line : text) (ls : list text) (v : vtf) : Res vtf :=
  match fuel with
  | O => Err OutOfFuel
  | S k =>
      match while fuel not_block (plain (fun _ u => Ok u)) tt line ls with
      | LBad e => Err e
      | LEof _ | LStop _ => Ok v
      | LEnd _ line ls =>
          match split line with
          | [bname; bid] =>
              dor id <- int_text bid;
              let b := l2s bname in
              let '(out, loc) :=
                if String.eqb b "*NODES" then (read_nodes fuel id ls v, loc)
                else if String.eqb b "*ELEMENTS" then read_elements fuel id loc ls v
                else if String.eqb b "*RESULTS" then (read_results fuel id ls v, loc)
                else if String.eqb b "*GLVIEWSCALAR" then read_scalar fuel id loc ls v
                else if String.eqb b "*GLVIEWGEOMETRY" then (read_geometry fuel id ls v, loc)
                else (More line ls v, loc) in
              match out with
              | More line ls v => read_blocks k loc line ls v
              | Finished v => Ok v
              | Failed e => Err e
              end
          | _ => Err ValueError
          end
      end
  end.
Definition vtf_read (two : bool) (t : text) (v : vtf) : Res vtf :=
  if negb two then Err AttributeError else
  let ls := lines t in
  match next_line ls with
  | None => Err StopIteration
  | Some (line, rest) => read_blocks (S (length ls)) (None, None, None) line rest v
  end.

(** ** Adding data, 422-571 *)

(** next() of a counter until the number is free; at most one more step than there
    are keys *)
Fixpoint free_id (fuel : nat) (n : Z) (used : Z -> bool) : Z :=
  match fuel with
  | O => n
  | S k => if used n then free_id k (n + 1) used else n
  end.
Definition zin (l : list Z) (n : Z) : bool := existsb (Z.eqb n) l.

(** add_nodes, 422-428; _get_new_id (160-163) returns nothing. *)
Definition add_nodes (two : bool) (arr : list (list flt)) (numbers : option (list Z)) (id : option Z) (v : vtf) : Res vtf :=
  match id with
  | Some (Zpos _ as k) | Some (Zneg _ as k) => Ok (set_nodes v (oset oz_eqb (Some k) (mkNodes arr numbers) (v_nodes v)))
  | _ =>
      if negb two then Err AttributeError else
      let used n := existsb (fun p => oz_eqb (Some n) (fst p)) (v_nodes v) in
      let n := free_id (length (v_nodes v)) (v_cnodes v) used in
      Ok (set_nodes (set_counters v (n + 1) (v_celems v) (v_cscalar v) (v_cresults v)) (oset oz_eqb None (mkNodes arr numbers) (v_nodes v)))
  end.

(** Connectivity con[o0:o1] of each element *)
Fixpoint cut (o0 : Z) (con : list Z) (offset : list Z) : list (list Z) :=
  match offset with
  | [] => []
  | o1 :: r => slice o0 o1 con :: cut o1 con r
  end.
(** np.unique *)
Fixpoint insert_new (z : Z) (l : list Z) : list Z :=
  match l with
  | [] => [z]
  | y :: r => if z <? y then z :: l else if z =? y then l else y :: insert_new z r
  end.
Definition unique (l : list Z) : list Z := fold_right insert_new [] l.
(** nodeid_arr.take(con) *)
Definition take (a : list Z) (con : list Z) : Res (list Z) := rmap (pygetZ a) con.
(** np.concatenate((arr[:,:7:2], arr[:,1::2]), axis=1) of one row of eight *)
Definition quads8 (r : list Z) : list Z :=
  match r with
  | [a; b; c; d; e; f; g; h] => [a; c; e; g; b; d; f; h]
  | _ => r
  end.
Definition by_type {A} (t : Z) (eltyp : list Z) (l : list A) : list A :=
  map snd (filter (fun p => fst p =? t) (combine eltyp l)).

(** add_elements, 430-493, for elements whose types have the right number of nodes
    (rows of one length for each type).  Python 3 stops at 464: the dictionary changes
    while its keys are listed. *)
Definition add_elements (two : bool) (name : text) (con offset eltyp : list Z) (numbers : option (list Z)) (descr : text)
  (nodes_id elems_id : option Z) (v : vtf) : Res vtf :=
  match nodes_id with
  | None | Some Z0 => Err TypeError
  | Some nid =>
      let fresh := match elems_id with None | Some Z0 => true | _ => false end in
      if negb two && fresh then Err AttributeError else
      let eid := if fresh then free_id (length (v_elems v)) (v_celems v) (zin (map fst (v_elems v)))
                 else match elems_id with Some k => k | None => 0 end in
      let v0 := if fresh then set_counters v (v_cnodes v) (eid + 1) (v_cscalar v) (v_cresults v) else v in
      dor ns <- oget oz_eqb (Some nid) (v_nodes v);
      dor con <- match n_ids ns with Some ids => take ids con | None => Ok con end;
      let rows := cut 0 con offset in
      dor _ <- (if two then Ok tt else match unique eltyp with [] => Ok tt | t :: _ => dor _ <- oget Z.eqb t elem_type_map; Err RuntimeError end);
      let one := match n_ids ns with Some _ => fun z => z | None => fun z => z + 1 end in
      dor dict <- rmap (fun t => dor s <- oget Z.eqb t elem_type_map;
                                 Ok (s, map (fun r => (if String.eqb s "%QUADS_8" then quads8 else fun r => r) (map one r)) (by_type t eltyp rows))) (unique eltyp);
      dor ids <- match numbers with
                 | Some nos => dor d <- rmap (fun t => dor s <- oget Z.eqb t elem_type_map; Ok (s, by_type t eltyp nos)) (unique eltyp); Ok (Some d)
                 | None => Ok None
                 end;
      Ok (set_current (set_elems v0 (oset Z.eqb eid (mkElems name descr nid dict ids []) (v_elems v))) (Some eid) (v_curscalar v))
  end.

(** add_scalar, 495-507 *)
Definition add_scalar (two : bool) (name descr : text) (scalar_id : option Z) (v : vtf) : Res (Z * vtf) :=
  match scalar_id with
  | Some (Zpos _ as k) | Some (Zneg _ as k) =>
      Ok (k, set_current (set_scalars v (oset Z.eqb k (mkScalar name descr Default) (v_scalars v))) (v_curelems v) (Some k))
  | _ =>
      if negb two then Err AttributeError else
      let k := v_cscalar v in
      Ok (k, set_current (set_scalars (set_counters v (v_cnodes v) (v_celems v) (k + 1) (v_cresults v))
                           (oset Z.eqb k (mkScalar name descr Default) (v_scalars v))) (v_curelems v) (Some k))
  end.

(** add_element_scalar_results, 509-571 *)
Definition add_results (two : bool) (res_type : string) (dict : list (string * list (list flt))) (elems_id results_id scalar_id : option Z) (v : vtf) : Res vtf :=
  dor (rid, v) <- match results_id with
                  | Some (Zpos _ as k) | Some (Zneg _ as k) => Ok (k, v)
                  | _ => if negb two then Err AttributeError else
                         let k := free_id (length (v_results v)) (v_cresults v) (zin (map fst (v_results v))) in
                         Ok (k, set_counters v (v_cnodes v) (v_celems v) (v_cscalar v) (k + 1))
                  end;
  dor eid <- match elems_id with
             | Some (Zpos _ as k) | Some (Zneg _ as k) => Ok k
             | _ => match v_curelems v with Some k => Ok k | None => Err AttributeError end
             end;
  dor e <- oget Z.eqb eid (v_elems v);
  let v := set_elems v (oset Z.eqb eid (mkElems (e_name e) (e_descr e) (e_nodes e) (e_dict e) (e_ids e) (e_res e ++ [rid])) (v_elems v)) in
  dor sid <- match scalar_id with
             | Some (Zpos _ as k) | Some (Zneg _ as k) => Ok k
             | _ => match v_curscalar v with Some k => Ok k | None => Err AttributeError end
             end;
  dor s <- oget Z.eqb sid (v_scalars v);
  let v := match s_ids s with
           | Default => set_default v (v_default v ++ [rid])
           | Own l => set_scalars v (oset Z.eqb sid (mkScalar (s_name s) (s_descr s) (Own (l ++ [rid]))) (v_scalars v))
           end in
  Ok (set_results v (oset Z.eqb rid (mkRes res_type dict eid 1) (v_results v))).
