(** * Parsers: freesif/sequentialparser/parsers.py *)
From Verif Require Import Base Flt SeqFile H5 Schema.
Open Scope string_scope.
Open Scope Z_scope.
Open Scope list_scope.
Open Scope monad_scope.

(** ** Module-level state (parsers.py:16-134)

    rec_size, record_count and toplevel_hrec/hierarch_ihsref are written but
    never influence what is stored; they are left out.  hierarch_table is a
    reference into the output file (a path); current_hrec is a row copied out
    of it.  None is [None].  [g_ielcor] stands for the local variables (nlay,
    nok, noj, noi) of rdielcor_reader, which survive from one record to the
    next within a call (lines 1741-1748). *)
Record glob : Set := mkG {
  g_ihref : option Z;
  g_indsel : option Z;
  g_seltyp : option Z;
  g_ftid : string;
  g_attop : bool;
  g_prefix : string;
  g_hashier : bool;
  g_htab : option path;
  g_hrec : option (list cell);
  g_batch : Z;                                   (* tmp_arr_size *)
  g_tables : list (string * (path * list path));  (* table, companion arrays *)
  g_names : list string;                         (* record_names, in order *)
  g_elem : list (Z * Z);
  g_points : list (Z * (Z * Z * Z * Z));
  g_nsp : list ((Z * Z) * Z);
  g_compl : list (Z * Z);
  g_lenrec : list ((string * Z) * Z);
  g_ielcor : option (Z * Z * Z * Z)
}.

(** The state when the module is loaded. *)
Definition glob0 : glob :=
  mkG None None None "sel" false "" false None None 100000 [] [] [] [] [] [] [] None.

(** reset, parsers.py:137-162: everything but elem_data, groupname_prefix and
    tmp_arr_size; the top-level part only if asked. *)
Definition reset (top : bool) (g : glob) : glob :=
  mkG None None None
      (if top then "sel" else g_ftid g) false (g_prefix g)
      (if top then false else g_hashier g) (if top then None else g_htab g) None
      (g_batch g) [] [] (g_elem g) [] [] [] [] (g_ielcor g).

(** Field updates. *)
Definition set_ihref v g := mkG v (g_indsel g) (g_seltyp g) (g_ftid g) (g_attop g) (g_prefix g) (g_hashier g) (g_htab g) (g_hrec g) (g_batch g) (g_tables g) (g_names g) (g_elem g) (g_points g) (g_nsp g) (g_compl g) (g_lenrec g) (g_ielcor g).
Definition set_indsel v g := mkG (g_ihref g) v (g_seltyp g) (g_ftid g) (g_attop g) (g_prefix g) (g_hashier g) (g_htab g) (g_hrec g) (g_batch g) (g_tables g) (g_names g) (g_elem g) (g_points g) (g_nsp g) (g_compl g) (g_lenrec g) (g_ielcor g).
Definition set_seltyp v g := mkG (g_ihref g) (g_indsel g) v (g_ftid g) (g_attop g) (g_prefix g) (g_hashier g) (g_htab g) (g_hrec g) (g_batch g) (g_tables g) (g_names g) (g_elem g) (g_points g) (g_nsp g) (g_compl g) (g_lenrec g) (g_ielcor g).
Definition set_ftid v g := mkG (g_ihref g) (g_indsel g) (g_seltyp g) v (g_attop g) (g_prefix g) (g_hashier g) (g_htab g) (g_hrec g) (g_batch g) (g_tables g) (g_names g) (g_elem g) (g_points g) (g_nsp g) (g_compl g) (g_lenrec g) (g_ielcor g).
Definition set_prefix v g := mkG (g_ihref g) (g_indsel g) (g_seltyp g) (g_ftid g) (g_attop g) v (g_hashier g) (g_htab g) (g_hrec g) (g_batch g) (g_tables g) (g_names g) (g_elem g) (g_points g) (g_nsp g) (g_compl g) (g_lenrec g) (g_ielcor g).
Definition set_hrec v g := mkG (g_ihref g) (g_indsel g) (g_seltyp g) (g_ftid g) (g_attop g) (g_prefix g) (g_hashier g) (g_htab g) v (g_batch g) (g_tables g) (g_names g) (g_elem g) (g_points g) (g_nsp g) (g_compl g) (g_lenrec g) (g_ielcor g).
(** has_hierarch = attoplevel = True; hierarch_table; current_hrec (587-594). *)
Definition set_top (p : path) (r : list cell) g := mkG (g_ihref g) (g_indsel g) (g_seltyp g) (g_ftid g) true (g_prefix g) true (Some p) (Some r) (g_batch g) (g_tables g) (g_names g) (g_elem g) (g_points g) (g_nsp g) (g_compl g) (g_lenrec g) (g_ielcor g).
Definition add_table n v g := mkG (g_ihref g) (g_indsel g) (g_seltyp g) (g_ftid g) (g_attop g) (g_prefix g) (g_hashier g) (g_htab g) (g_hrec g) (g_batch g) (dset n v (g_tables g)) (g_names g) (g_elem g) (g_points g) (g_nsp g) (g_compl g) (g_lenrec g) (g_ielcor g).
Definition add_name n g := mkG (g_ihref g) (g_indsel g) (g_seltyp g) (g_ftid g) (g_attop g) (g_prefix g) (g_hashier g) (g_htab g) (g_hrec g) (g_batch g) (g_tables g) (g_names g ++ [n]) (g_elem g) (g_points g) (g_nsp g) (g_compl g) (g_lenrec g) (g_ielcor g).
Definition add_elem k v g := mkG (g_ihref g) (g_indsel g) (g_seltyp g) (g_ftid g) (g_attop g) (g_prefix g) (g_hashier g) (g_htab g) (g_hrec g) (g_batch g) (g_tables g) (g_names g) (dset k v (g_elem g)) (g_points g) (g_nsp g) (g_compl g) (g_lenrec g) (g_ielcor g).
Definition add_points k v k' v' g := mkG (g_ihref g) (g_indsel g) (g_seltyp g) (g_ftid g) (g_attop g) (g_prefix g) (g_hashier g) (g_htab g) (g_hrec g) (g_batch g) (g_tables g) (g_names g) (g_elem g) (dset k v (g_points g)) (dset k' v' (g_nsp g)) (g_compl g) (g_lenrec g) (g_ielcor g).
Definition add_compl k v g := mkG (g_ihref g) (g_indsel g) (g_seltyp g) (g_ftid g) (g_attop g) (g_prefix g) (g_hashier g) (g_htab g) (g_hrec g) (g_batch g) (g_tables g) (g_names g) (g_elem g) (g_points g) (g_nsp g) (dset k v (g_compl g)) (g_lenrec g) (g_ielcor g).
Definition add_lenrec k v g := mkG (g_ihref g) (g_indsel g) (g_seltyp g) (g_ftid g) (g_attop g) (g_prefix g) (g_hashier g) (g_htab g) (g_hrec g) (g_batch g) (g_tables g) (g_names g) (g_elem g) (g_points g) (g_nsp g) (g_compl g) (dset k v (g_lenrec g)) (g_ielcor g).
Definition set_ielcor v g := mkG (g_ihref g) (g_indsel g) (g_seltyp g) (g_ftid g) (g_attop g) (g_prefix g) (g_hashier g) (g_htab g) (g_hrec g) (g_batch g) (g_tables g) (g_names g) (g_elem g) (g_points g) (g_nsp g) (g_compl g) (g_lenrec g) v.

(** ** The parser monad: input file, module state, output file. *)
Record pst : Set := mkP { p_in : infile; p_g : glob; p_out : h5 }.
Definition P (A : Type) := StM pst A.

Definition liftF {A} (m : F A) : P A := fun s =>
  match m (p_in s) with
  | Ok (a, i) => Ok (a, mkP i (p_g s) (p_out s))
  | Err e => Err e
  end.
Definition getg : P glob := fun s => Ok (p_g s, s).
Definition modg (f : glob -> glob) : P unit := fun s => Ok (tt, mkP (p_in s) (f (p_g s)) (p_out s)).
Definition geth : P h5 := fun s => Ok (p_out s, s).
Definition seth (h : h5) : P unit := fun s => Ok (tt, mkP (p_in s) (p_g s) h).
Definition liftR {A} (r : Res A) : P A := slift r.

Definition rfloats n sk : P (list flt) := liftF (read_floats n sk).
Definition rheader : P (string * list flt) := liftF read_headerrec.

(** int(rec[i]) *)
Definition int_at (rec : list flt) (i : nat) : Res Z :=
  dor f <- pyget rec i; int_of f.
Definition pfs (l : list flt) : list pyval := map PF l.

(** ** get_path, parsers.py:252-277 *)
Definition str_of_opt (z : option Z) : string :=
  match z with Some z => str_of_Z z | None => "None" end.
Definition opt_truthy (z : option Z) : bool :=
  match z with Some z => negb (z =? 0) | None => false end.
(** hierarch_table[i][column c] *)
Definition hier_cell (g : glob) (h : h5) (i c : nat) : Res Z :=
  match g_htab g with
  | None => Err TypeError
  | Some p => match nth_error (tab_rows p h) i with
              | None => Err IndexError
              | Some row => col_int c row
              end
  end.
Definition get_path (g : glob) (h : h5) : Res path :=
  if g_hashier g then
    if opt_truthy (g_indsel g) then
      dor t <- hier_cell g h 0 2;
      Ok [g_prefix g ++ g_ftid g ++ str_of_Z t;
          g_ftid g ++ str_of_opt (g_seltyp g) ++ "_" ++ str_of_opt (g_indsel g)]%string
    else if g_attop g then
      Ok [g_prefix g ++ g_ftid g ++ str_of_opt (g_seltyp g)]%string
    else
      dor t <- hier_cell g h 0 2;
      Ok [g_prefix g ++ g_ftid g ++ str_of_Z t; g_ftid g ++ str_of_opt (g_seltyp g)]%string
  else if opt_truthy (g_seltyp g) then
    Ok [g_prefix g ++ g_ftid g ++ str_of_opt (g_seltyp g)]%string
  else Err NameError.

(** ** get_table, parsers.py:284-340.  A stored table without companion arrays
    that has no rows counts as false (`if table:`, len 0) and is created again. *)
Definition table_descr (n : string) : descr :=
  columns n ++ flat_map (fun a => [(fst a ++ "_start", TI); (fst a ++ "_stop", TI)]%string) (atoms_of n).
Fixpoint create_arrays (w : path) (n : string) (l : descr) (h : h5) : Res (list path * h5) :=
  match l with
  | [] => Ok ([], h)
  | (a, t) :: r =>
      let nm := (lower_s n ++ "_" ++ a)%string in
      dor h1 <- h5_create w nm (Arr t []) h;
      dor (ps, h2) <- create_arrays w n r h1;
      Ok ((w ++ [nm]) :: ps, h2)
  end.
Definition get_table (n : string) : P (path * list path) :=
  do g <- getg;
  do h <- geth;
  match sget n (g_tables g) with
  | Some (p, a :: l) => sret (p, a :: l)
  | Some (p, []) =>
      match tab_rows p h with
      | _ :: _ => sret (p, [])
      | [] => do w <- liftR (get_path g h);
              do h1 <- liftR (h5_create w (lower_s n) (Table (table_descr n) []) h);
              dos seth h1;
              dos modg (add_table n (w ++ [lower_s n], []));
              sret (w ++ [lower_s n], [])
      end
  | None =>
      do w <- liftR (get_path g h);
      do (arrs, h1) <- liftR (create_arrays w n (atoms_of n) h);
      do h2 <- liftR (h5_create w (lower_s n) (Table (table_descr n) []) h1);
      dos seth h2;
      dos modg (add_table n (w ++ [lower_s n], arrs));
      sret (w ++ [lower_s n], arrs)
  end.

(** ** recdata and vldata, parsers.py:171-219 *)
Record vl : Set := mkVl {
  v_path : path; v_type : ctype; v_data : list pyval;
  v_next : Z;                                     (* startindex *)
  v_start : Z; v_stop : Z }.
Record recd : Set := mkRd {
  r_path : path; r_types : list ctype; r_buf : list (list cell); r_vls : list vl }.

(** vldata.__init__ 202-207 *)
Definition vl_init (h : h5) (p : path) (t : ctype) : vl :=
  mkVl p t [] (Zlen (arr_items p h)) 0 0.
(** vldata.add 209-217 (None and empty sequences are both false). *)
Definition vl_add (seq : list pyval) (v : vl) : vl :=
  match seq with
  | [] => mkVl (v_path v) (v_type v) (v_data v) (v_next v) 0 0
  | _ => mkVl (v_path v) (v_type v) (v_data v ++ seq) (v_next v + Zlen seq)
              (v_next v) (v_next v + Zlen seq)
  end.
(** vldata.write 219-222 *)
Definition vl_write (v : vl) : P vl :=
  match v_data v with
  | [] => sret v
  | data =>
      do h <- geth;
      do cs <- liftR (rmap (conv_elem (v_type v)) data);
      dos seth (h5_upd (v_path v) (append_items cs) h);
      sret (mkVl (v_path v) (v_type v) [] (v_next v) (v_start v) (v_stop v))
  end.
Fixpoint vls_write (l : list vl) : P (list vl) :=
  match l with
  | [] => sret []
  | v :: r => do v' <- vl_write v; do r' <- vls_write r; sret (v' :: r')
  end.

(** recdata.__init__ 172-176 *)
Definition rd_init (n : string) (t : path * list path) (h : h5) : recd :=
  mkRd (fst t) (map snd (table_descr n)) []
       (map (fun pa => vl_init h (fst pa) (snd (snd pa))) (combine (snd t) (atoms_of n))).
(** recdata.write 190-196: append the buffered rows, then the companion data.
    (The object is not used after write except when called from add, which
    sets counter to 0.) *)
Definition rd_write (r : recd) : P recd :=
  do h <- geth;
  dos seth (h5_upd (r_path r) (append_rows (r_buf r)) h);
  do vs <- vls_write (r_vls r);
  sret (mkRd (r_path r) (r_types r) [] vs).
(** recdata.add 178-188 *)
Definition rd_add (rec : list pyval) (r : recd) : P recd :=
  do g <- getg;
  let full := rec ++ flat_map (fun v => [PI (v_start v); PI (v_stop v)]) (r_vls r) in
  do row <- liftR (conv_row (r_types r) full);
  if g_batch g <=? Zlen (r_buf r) then sraise IndexError else
  let r' := mkRd (r_path r) (r_types r) (r_buf r ++ [row]) (r_vls r) in
  if Zlen (r_buf r') =? g_batch g then rd_write r' else sret r'.

(** `vls[i].add(seq)` *)
Fixpoint upd_nth {A} (i : nat) (f : A -> A) (l : list A) : list A :=
  match l, i with
  | [], _ => []
  | x :: r, O => f x :: r
  | x :: r, S j => x :: upd_nth j f r
  end.
Definition rd_vladd (i : nat) (seq : list pyval) (r : recd) : recd :=
  mkRd (r_path r) (r_types r) (r_buf r) (upd_nth i (vl_add seq) (r_vls r)).
Fixpoint rd_vladds (adds : list (nat * list pyval)) (r : recd) : recd :=
  match adds with
  | [] => r
  | (i, s) :: l => rd_vladds l (rd_vladd i s r)
  end.

(** What a reader does with one record: given the header floats it reads the
    rest and yields the tuple for the table and the vldata.add calls, by
    number of the companion array. *)
Definition adds := list (nat * list pyval).
Definition body := string -> list flt -> P (list pyval * adds).

(** The loop shared by the readers: `while rec_name == name: ...; recs.add();
    rec_name, rec = in_file.read_headerrec()`. *)
Fixpoint run_loop (fuel : nat) (name : string) (b : body) (rec_name : string)
         (rec : list flt) (r : recd) : P (string * list flt * recd) :=
  if String.eqb rec_name name then
    match fuel with
    | O => sraise OutOfFuel
    | S k =>
        do (row, ad) <- b rec_name rec;
        do r1 <- rd_add row (rd_vladds ad r);
        do (n, fs) <- rheader;
        run_loop k name b n fs r1
    end
  else sret (rec_name, rec, r).
Definition fuel_of (s : pst) : nat := S (length (f_rest (p_in s))).

(** table, ... = get_table(); vldata(...); recdata(...); while ...; recs.write() *)
Definition run_reader (b : body) (n : string) (rec : list flt) : P (string * list flt) :=
  do t <- get_table n;
  do h <- geth;
  (fun s =>
    (do (x, r) <- run_loop (fuel_of s) n b n rec (rd_init n t h);
     dos rd_write r;
     sret x) s).

(** ** Bodies of the readers *)

(** pad or remove values to match ncols (358-362, 397-401) *)
Definition fit (ncols : nat) (rec : list flt) : list flt :=
  if (length rec <? ncols)%nat then rec ++ repeat f0 (ncols - length rec)
  else firstn ncols rec.

(** standard_record_reader 343-372.  n_add_fl = ncols - 4 if ncols > 4 else 0. *)
Definition b_standard (ncols : nat) (sk : nat) : body := fun _ rec =>
  do more <- (if (4 <? ncols)%nat then rfloats (Z.of_nat ncols - 4) sk else sret []);
  sret (pfs (fit ncols (rec ++ more)), []).

(** reader_optionalfields 375-410 *)
Definition b_optional (ncols : nat) (sk noptf : nat) : body := fun _ rec =>
  do more <- rfloats (Z.of_nat ncols - 4 - Z.of_nat noptf) sk;
  do hd <- liftF at_headerrec;
  do opt <- (if hd : bool then sret [] else rfloats (Z.of_nat noptf) sk);
  sret (pfs (fit ncols (rec ++ more ++ opt)), []).

Fixpoint times {A} (n : nat) (m : P A) : P (list A) :=
  match n with
  | O => sret []
  | S k => do a <- m; do l <- times k m; sret (a :: l)
  end.
(** `for _ in range(z)` *)
Definition timesZ {A} (z : Z) (m : P A) : P (list A) := times (Z.to_nat z) m.

(** HIERARCH, one record (557-583) *)
Definition b_hierarch : body := fun _ rec =>
  do rec2 <- rfloats 4 0;
  do nsub <- liftR (int_at rec2 3);
  do ih <- rfloats nsub 0;
  sret (pfs (rec ++ rec2), [(0%nat, pfs ih)]).

(** text_reader 617-637 *)
Definition b_text : body := fun _ rec =>
  do n <- liftR (int_at rec 2);
  do t <- timesZ n (liftF read_stringrec);
  sret (pfs rec, [(0%nat, map PS t)]).

(** bytes.strip() or str.strip() *)
Definition strip_rec : P (list ascii) := fun s =>
  (do l <- liftF read_stringrec;
   sret (strip (match f_kind (p_in s) with Unf => is_space_b | Fmt => is_space_s end) l)) s.
(** td_reader 703-736 (name lines of an unformatted file are decoded) *)
Definition name_line : P (list ascii) := fun s =>
  (do l <- strip_rec;
   match f_kind (p_in s) with Unf => liftR (decode l) | Fmt => sret l end) s.
Definition b_td : body := fun _ rec =>
  do codnam <- liftR (int_at rec 2);
  do codtxt <- liftR (int_at rec 3);
  do name <- timesZ (codnam / 100) name_line;
  do text <- timesZ (codtxt / 100) strip_rec;
  sret (pfs rec ++ [PS (concat name)], [(0%nat, map PS text)]).

(** gelmnt1_reader 783-803 *)
Definition nnodes_of (eltyp : Z) : Res Z :=
  match dget Z.eqb eltyp elem_types with Some n => Ok n | None => Err KeyError end.
Definition b_gelmnt1 : body := fun _ rec =>
  do elno <- liftR (int_at rec 1);
  do eltyp <- liftR (int_at rec 2);
  dos modg (add_elem elno eltyp);
  do n <- liftR (nnodes_of eltyp);
  do nod <- rfloats n 8;
  sret (pfs rec, [(0%nat, pfs nod)]).

(** gelmnt2_reader 824-845 *)
Definition b_gelmnt2 : body := fun _ rec =>
  do t <- rfloats 12 8;
  do n1 <- rfloats 1 8;
  do nnod <- liftR (int_at n1 0);
  do nods <- rfloats nnod 8;
  sret (pfs rec ++ [PT (pfs t); PI nnod], [(0%nat, pfs nods)]).

(** gelref1_reader 873-922 *)
Definition dictZ {V} (k : Z) (d : list (Z * V)) : Res V :=
  match dget Z.eqb k d with Some v => Ok v | None => Err KeyError end.
Definition refs (f : flt) (n : Z) : P (list flt) :=
  if flt_eq f fm1 then rfloats n 8 else sret [].
Definition b_gelref1 : body := fun _ rec =>
  do rec2 <- liftF (read_floatrec 8);
  do rec3 <- liftF (read_floatrec 8);
  do elno <- liftR (int_at rec 0);
  do g <- getg;
  do eltyp <- liftR (dictZ elno (g_elem g));
  do n <- liftR (nnodes_of eltyp);
  do a0 <- liftR (pyget rec3 0); do geo <- refs a0 n;
  do a1 <- liftR (pyget rec3 1); do fix_ <- refs a1 n;
  do a2 <- liftR (pyget rec3 2); do ecc <- refs a2 n;
  do a3 <- liftR (pyget rec3 3); do trans <- refs a3 n;
  sret (pfs (rec ++ rec2 ++ rec3),
        [(0%nat, pfs geo); (1%nat, pfs fix_); (2%nat, pfs ecc); (3%nat, pfs trans)]).

(** gsetmemb_reader 1210-1228 *)
Definition b_gsetmemb : body := fun _ rec =>
  do r1 <- rfloats 1 0;
  do nf <- liftR (int_at (rec ++ r1) 0);
  do mem <- rfloats (nf - 5) 0;
  sret (pfs (rec ++ r1), [(0%nat, pfs mem)]).

(** sconcept_reader 1268-1309 *)
Definition b_sconcept : body := fun _ rec =>
  do ty <- liftR (int_at rec 2);
  do r1 <- rfloats 1 0;
  if ty =? 7 then
    do rec2 <- rfloats 2 0;
    do npart <- liftR (int_at rec2 0);
    do njoin <- liftR (int_at rec2 1);
    do irp <- rfloats npart 0;
    do irj <- rfloats njoin 0;
    sret (pfs (rec ++ r1 ++ rec2), [(0%nat, pfs irp); (1%nat, pfs irj)])
  else if ty =? 2 then
    sret (pfs (rec ++ r1 ++ [f0; f0]), [(0%nat, []); (1%nat, [])])
  else sraise NotImplementedError.

(** sconmesh_reader 1332-1356, after the numrep test *)
Definition b_sconmesh : body := fun _ rec =>
  do r1 <- rfloats 1 0;
  do n <- liftR (int_at (rec ++ r1) 4);
  do fe <- rfloats n 0;
  sret (pfs (rec ++ r1), [(0%nat, pfs fe)]).

(** bnbcd_reader 1372-1393 *)
Definition b_bnbcd : body := fun _ rec =>
  do ndof <- liftR (int_at rec 1);
  do fx <- (if ndof <? 3 then sret (slice 2 (2 + ndof) rec)
            else do more <- rfloats (ndof - 2) 8; sret (slice_from 2 rec ++ more));
  sret (pfs (slice_to 2 rec), [(0%nat, pfs fx)]).

(** bldep_reader 1413-1429 *)
Definition b_bldep : body := fun _ rec =>
  do ndep <- liftR (int_at rec 3);
  do deps <- timesZ ndep (do l <- liftF (read_floatrec 8); sret (PT (pfs (slice_to 3 l))));
  sret (pfs rec, [(0%nat, deps)]).

(** beuslo_reader 1453-1478 *)
Definition b_beuslo : body := fun _ rec =>
  do r1 <- liftF (read_floatrec 8);
  do ndof <- liftR (int_at (rec ++ r1) 5);
  do rl <- rfloats ndof 8;
  do c <- liftR (pyget (rec ++ r1) 2);
  do il <- (if truthy c then rfloats ndof 8 else sret []);
  sret (pfs (rec ++ r1), [(0%nat, pfs rl); (1%nat, pfs il)]).

(** brigac_reader 1528-1547 *)
Definition b_brigac : body := fun _ rec =>
  do r1 <- rfloats 10 8;
  do c <- liftR (pyget (rec ++ r1) 2);
  do r2 <- (if truthy c then rfloats 6 8 else sret (repeat f0 6));
  sret (pfs (rec ++ r1 ++ r2), []).

(** t[:4], t[4:8], t[8:12], t[12:] and alike: rows of n, the last one taking
    what is left. *)
Fixpoint rows_of (m n : nat) (t : list flt) : list pyval :=
  match m with
  | O => []
  | S O => [PT (pfs t)]
  | S k => PT (pfs (firstn n t)) :: rows_of k n (skipn n t)
  end.

(** xsuptran_reader 1564-1585, one record; row assignment by name *)
Definition b_xsuptran : body := fun _ rec =>
  do nf <- liftR (int_at rec 0);
  do it <- liftR (int_at rec 1);
  do more <- rfloats 14 0;
  let t := slice_from 2 rec ++ more in
  sret ([PI nf; PI it; PT (rows_of 4 4 t)], []).

(** compdef_reader 1599-1619 *)
Definition b_compdef : body := fun name rec =>
  do lenrec <- liftR (int_at rec 2);
  do ir <- liftR (int_at rec 1);
  dos modg (add_lenrec ("RV" ++ substring 2 (String.length name - 2) name, ir)%string lenrec);
  do more <- rfloats (lenrec - 1) 0;
  sret (pfs (slice_to 3 rec), [(0%nat, pfs (slice_from 3 rec ++ more))]).

(** rdpoints_reader 1649-1705 *)
Fixpoint read_points (n : nat) : P (list pyval) :=
  match n with
  | O => sret []
  | S k =>
      do ip <- rfloats 1 0;
      do i0 <- liftR (pyget ip 0);
      do p <- (if flt_lt f0 i0 then (do xyz <- rfloats 3 0; sret [PT (pfs (ip ++ xyz))]) else sret []);
      do r <- read_points k;
      sret (p ++ r)
  end.
Definition b_rdpoints : body := fun _ rec =>
  do r1 <- rfloats 5 0;
  let rec := rec ++ r1 in
  do ispalt <- liftR (int_at rec 1);
  do iielno <- liftR (int_at rec 2);
  do icoref <- liftR (int_at rec 3);
  do nsp <- liftR (int_at rec 5);
  do ijk <- liftR (int_at rec 6);
  do nsptra <- liftR (int_at rec 7);
  do nlay <- liftR (int_at rec 8);
  let nok := ijk / 10000 in
  let noj := (ijk mod 10000) / 100 in
  let noi := ijk mod 100 in
  dos modg (add_points icoref (nlay, nok, noj, noi) (ispalt, iielno) nsp);
  do pts <- read_points (Z.to_nat nok * Z.to_nat noj * Z.to_nat noi);
  do xfs <- timesZ nsptra (do t <- rfloats 9 0; sret (PT (rows_of 3 3 t)));
  sret (pfs rec, [(0%nat, pts); (1%nat, xfs)]).

(** rdielcor_reader 1726-1776; [g_ielcor] holds the local variables *)
Definition b_rdielcor : body := fun _ rec =>
  do icoref <- liftR (int_at rec 1);
  do g <- getg;
  do loc <- (match dget Z.eqb icoref (g_points g) with
             | Some v => sret v
             | None =>
                 if icoref =? 15 then sret (0, 1, 1, 3)
                 else if icoref =? 24 then sret (0, 2, 3, 3)
                 else match g_ielcor g with Some v => sret v | None => sraise UnboundLocalError end
             end);
  dos modg (set_ielcor (Some loc));
  let '(nlay, nok, noj, noi) := loc in
  do ga <- (if nok =? 1 then sret (slice_from 3 rec)
            else if 1 <? nok then (do m <- rfloats (nok - 1) 0; sret (slice_from 3 rec ++ m))
            else sret []);
  do be <- rfloats noj 0;
  do al <- rfloats noi 0;
  do la <- timesZ nlay (do l <- rfloats 2 0; sret (PT (pfs l)));
  sret (pfs (slice_to 3 rec),
        [(0%nat, pfs ga); (1%nat, pfs be); (2%nat, pfs al); (3%nat, la)]).

(** n groups of k floats *)
Definition groups (n : Z) (k : Z) : P (list pyval) :=
  timesZ n (do l <- rfloats k 0; sret (PT (pfs l))).

(** rdresref_reader 1799-1826 *)
Definition b_rdresref : body := fun _ rec =>
  do r1 <- rfloats 3 0;
  let rec := rec ++ r1 in
  do ires <- liftR (int_at rec 1);
  do icompl <- liftR (int_at rec 5);
  do numtyp <- liftR (int_at rec 6);
  dos modg (add_compl ires icompl);
  do r <- groups numtyp 3;
  sret (pfs rec, [(0%nat, r)]).

(** rxxxxcmb_reader 1848-1867 and wbodcon_reader 1997-2015: nblc = rec[3] *)
Definition b_groups3 : body := fun _ rec =>
  do n <- liftR (int_at rec 3);
  do r <- groups n 3;
  sret (pfs rec, [(0%nat, r)]).

(** rvnodres_reader 1895-1918 *)
Definition b_rvnodres : body := fun _ rec =>
  do r1 <- rfloats 1 0;
  let rec := rec ++ r1 in
  do nfield <- liftR (int_at rec 0);
  do ires <- liftR (int_at rec 1);
  do g <- getg;
  do icompl <- liftR (dictZ ires (g_compl g));
  if icompl + 1 =? 0 then sraise ZeroDivisionError else
  do res <- rfloats ((nfield - 5) / (icompl + 1)) 0;
  sret (pfs rec, [(0%nat, pfs res)]).

(** rvelmres_reader 1949-1977 *)
Definition b_rvelmres : body := fun name rec =>
  do r1 <- rfloats 1 0;
  let rec := rec ++ r1 in
  do ires <- liftR (int_at rec 1);
  do iielno <- liftR (int_at rec 2);
  do ispalt <- liftR (int_at rec 3);
  do ir <- liftR (int_at rec 4);
  do g <- getg;
  do nsp <- (match dget pairZ_eqb (ispalt, iielno) (g_nsp g) with Some v => sret v | None => sraise KeyError end);
  do lenrec <- (match dget pairSZ_eqb (name, ir) (g_lenrec g) with Some v => sret v | None => sraise KeyError end);
  do icompl <- liftR (dictZ ires (g_compl g));
  do res <- rfloats (nsp * lenrec * (icompl + 1)) 0;
  sret (pfs rec, [(0%nat, pfs res)]).

(** wdresref_reader 2035-2058: a kind that is not listed gets no add call *)
Fixpoint read_reftypes (n : nat) (nresrf : Z) : P adds :=
  match n with
  | O => sret []
  | S k =>
      do i <- rfloats 1 0;
      do ty <- liftR (int_at i 0);
      do dat <- groups nresrf 2;
      do more <- read_reftypes k nresrf;
      sret ((if ty =? 1 then [(0%nat, dat)]
             else if ty =? 2 then [(1%nat, dat)]
             else if ty =? 3 then [(2%nat, dat)] else []) ++ more)
  end.
Definition b_wdresref : body := fun _ rec =>
  do numtyp <- liftR (int_at rec 3);
  if numtyp <=? 0 then sret (pfs rec, []) else
  do nresrf <- liftR (int_at rec 2);
  do ad <- read_reftypes (Z.to_nat numtyp) nresrf;
  sret (pfs rec, ad).

(** wglobdef_reader 2076-2089 *)
Definition b_wglobdef : body := fun _ rec =>
  do d <- liftR (int_at rec 3);
  do r1 <- (if d =? 0 then sret [f1] else rfloats 1 0);
  sret (pfs (rec ++ r1), []).

(** wbody_reader 2118-2129 *)
Definition b_wbody : body := fun _ rec =>
  do r1 <- rfloats 12 0;
  do t <- rfloats 16 0;
  sret (pfs (rec ++ r1) ++ [PT (rows_of 4 4 t)], []).

(** w1matrix_reader 2148-2159 *)
Definition b_w1matrix : body := fun _ rec =>
  do r1 <- rfloats 2 0;
  do t <- rfloats 36 0;
  sret (pfs (rec ++ r1) ++ [PT (rows_of 6 6 t)], []).

(** tuple(complex(x,y) for x,y in zip(f[::2], f[1::2])) *)
Fixpoint pairs (l : list flt) : list pyval :=
  match l with
  | x :: y :: r => PC x y :: pairs r
  | _ => []
  end.

(** wcommon1_reader 2177-2194 *)
Definition b_wcommon1 : body := fun _ rec =>
  do c <- liftR (int_at rec 3);
  do d <- (if c =? 0 then (do f <- rfloats 6 0; sret (pfs f))
           else (do f <- rfloats 12 0; sret (pairs f)));
  sret (pfs rec ++ [PT d], []).

(** W1SFORCE_reader 2214-2230 *)
Definition b_w1sforce : body := fun _ rec =>
  do r1 <- rfloats 1 0;
  do c <- liftR (int_at (rec ++ r1) 4);
  do d <- (if c =? 0 then (do f <- rfloats 6 0; sret (pfs f))
           else (do f <- rfloats 12 0; sret (pairs f)));
  sret (pfs (rec ++ r1) ++ [PT d], []).

(** W2HDRIFT_reader 2247-2255 (n = 2) and W2MDRIFT_reader 2272-2280 (n = 5) *)
Definition b_drift (n : Z) : body := fun _ rec =>
  do more <- rfloats n 0;
  sret (pfs (slice_to 3 rec) ++ [PT (pfs (slice_from 3 rec ++ more))], []).

(** WFKPOINT_reader 2299-2308 *)
Definition b_wfkpoint : body := fun _ rec =>
  do more <- rfloats 1 0;
  sret (pfs (slice_to 2 rec) ++ [PT (pfs (slice_from 2 rec ++ more))], []).

(** WFLUIDKN_reader 2327-2345 *)
Definition b_wfluidkn : body := fun _ rec =>
  do c <- liftR (int_at rec 3);
  if c =? 0 then
    do p <- rfloats 1 0;
    do v <- rfloats 3 0;
    sret (pfs (rec ++ p) ++ [PT (pfs v)], [])
  else
    do f <- rfloats 2 0;
    do a <- liftR (pyget f 0);
    do b <- liftR (pyget f 1);
    do v <- rfloats 6 0;
    sret (pfs rec ++ [PC a b; PT (pairs v)], []).

(** WSECTION_reader 2370-2379 *)
Definition b_wsection : body := fun _ rec =>
  do r1 <- rfloats 10 0;
  let rec := rec ++ r1 in
  sret (pfs (slice_to 5 rec) ++
        [PT (pfs (slice 5 8 rec)); PT (pfs (slice 8 11 rec)); PT (pfs (slice 11 14 rec))], []).

(** range(0, stop, step) for step <> 0 *)
Definition pyrange (stop step : Z) : list Z :=
  let n := if 0 <? step then (stop + step - 1) / step
           else if step <? 0 then (- stop + - step - 1) / (- step) else 0 in
  map (fun i => Z.of_nat i * step) (seq 0 (Z.to_nat n)).
(** next(fl_it) and complex(next(fl_it), next(fl_it)) for comp in rec[5:] *)
Fixpoint take_comps (comps : list flt) (cplx : bool) (it : list flt) : Res (list pyval) :=
  match comps with
  | [] => Ok []
  | c :: cs =>
      if truthy c then
        if cplx then
          match it with
          | x :: y :: r => dor l <- take_comps cs cplx r; Ok (PC x y :: l)
          | _ => Err StopIteration
          end
        else
          match it with
          | x :: r => dor l <- take_comps cs cplx r; Ok (PF x :: l)
          | [] => Err StopIteration
          end
      else dor l <- take_comps cs cplx it; Ok (PF f0 :: l)
  end.
Definition zelev_rec (rec all : list flt) (cplx : bool) (per start : Z) : Res pyval :=
  match slice start (start + per) all with
  | [] => Err StopIteration
  | x :: it => dor l <- take_comps (slice_from 5 rec) cplx it; Ok (PT (PF x :: l))
  end.
(** WSURFACE_reader 2401-2433 *)
Definition b_wsurface : body := fun _ rec =>
  do r1 <- rfloats 4 0;
  let rec := rec ++ r1 in
  do n0 <- liftR (int_at rec 0);
  do c5 <- liftR (pyget rec 5);
  do c6 <- liftR (pyget rec 6);
  do c7 <- liftR (pyget rec 7);
  do nc <- liftR (int_of (fadd (fadd c5 c6) c7));
  do ic <- liftR (int_at rec 4);
  let tot := n0 - 8 in
  let per := 1 + nc * (1 + ic) in
  do all <- rfloats tot 0;
  if per =? 0 then sraise ValueError else
  do c4 <- liftR (pyget rec 4);
  do zs <- liftR (rmap (zelev_rec rec all (truthy c4) per) (pyrange tot per));
  sret (pfs rec, [(0%nat, zs)]).

(** WINPUT_reader 2447-2456 *)
Definition b_winput : body := fun _ rec =>
  do more <- rfloats 14 0;
  sret (pfs (slice_to 2 rec) ++ [PT (rows_of 4 4 (slice_from 2 rec ++ more))], []).

(** W1PANPRE_reader 2476-2496 *)
Definition b_w1panpre : body := fun _ rec =>
  do f <- rfloats 2 0;
  do c <- liftR (int_at f 1);
  do p <- (if c =? 0 then
             (do q <- rfloats 1 0; do a <- liftR (pyget q 0); sret (PC a f0))
           else
             (do q <- rfloats 2 0; do a <- liftR (pyget q 0); do b <- liftR (pyget q 1); sret (PC a b)));
  do l <- rfloats 2 0;
  sret (pfs (rec ++ f) ++ [p] ++ pfs l, []).

(** ** Readers that are not of the common shape *)

Definition reader := string -> list flt -> P (string * list flt).

(** irecsize 525-528: the value is only converted *)
Definition rd_irecsize : reader := fun _ rec =>
  dos liftR (int_at rec 1); rheader.

(** iend 675-679; (None, None) ends the parse like the empty name *)
Definition rd_iend : reader := fun _ rec =>
  do a <- liftR (pyget rec 0);
  if flt_eq a f0 then sret ("", []) else rheader.

(** hierarch_reader 550-596 *)
Definition rd_hierarch : reader := fun n rec =>
  do rec2 <- rfloats 4 0;
  do st <- liftR (int_at rec 2);
  dos modg (set_seltyp (Some st));
  do t <- get_table n;
  do h <- geth;
  do nsub <- liftR (int_at rec2 3);
  do ih <- rfloats nsub 0;
  do r1 <- rd_add (pfs (rec ++ rec2)) (rd_vladds [(0%nat, pfs ih)] (rd_init n t h));
  do (n1, fs1) <- rheader;
  (fun s =>
    (do (x, r) <- run_loop (fuel_of s) n b_hierarch n1 fs1 r1;
     dos rd_write r;
     do h <- geth;
     match tab_rows (fst t) h with
     | [] => sraise IndexError
     | row :: _ => dos modg (set_top (fst t) row); sret x
     end) s).

(** ident_reader 653-668 *)
Definition rd_ident : reader := fun n rec =>
  do g <- getg;
  dos (if opt_truthy (g_seltyp g) then sret tt
       else do st <- liftR (int_at rec 1); modg (set_seltyp (Some st)));
  do t <- get_table n;
  do a <- liftR (int_at rec 0);
  do b <- liftR (int_at rec 1);
  do c <- liftR (int_at rec 2);
  do row <- liftR (conv_row (map snd (table_descr n)) [PI a; PI b; PI c]);
  do h <- geth;
  dos seth (h5_upd (fst t) (append_rows [row]) h);
  rheader.

(** xsuptran_reader 1564-1585: rows are appended one by one through table.row
    and flushed at the end; no intermediate buffer of ours. *)
Fixpoint xsup_loop (fuel : nat) (name : string) (p : path) (rec_name : string) (rec : list flt)
  : P (string * list flt) :=
  if String.eqb rec_name name then
    match fuel with
    | O => sraise OutOfFuel
    | S k =>
        do (row, _) <- b_xsuptran rec_name rec;
        do cs <- liftR (conv_row (map snd (table_descr name)) row);
        do h <- geth;
        dos seth (h5_upd p (append_rows [cs]) h);
        do (n, fs) <- rheader;
        xsup_loop k name p n fs
    end
  else sret (rec_name, rec).
Definition rd_xsuptran : reader := fun n rec =>
  do t <- get_table n;
  fun s => xsup_loop (fuel_of s) n (fst t) n rec s.

(** sconmesh_reader 1332-1336 *)
Definition rd_sconmesh : reader := fun n rec =>
  do nr <- liftR (int_at rec 2);
  if 1 <? nr then sraise NotImplementedError else run_reader b_sconmesh n rec.

(** rdielcor_reader: the local variables start unbound *)
Definition rd_rdielcor : reader := fun n rec =>
  dos modg (set_ielcor None); run_reader b_rdielcor n rec.

Definition std (n : string) (sk : nat) : reader := run_reader (b_standard (length (columns n)) sk).
Definition opt (n : string) (noptf : nat) : reader := run_reader (b_optional (length (columns n)) 8 noptf).

(** The dict `readers`. *)
Definition readers : list (string * reader) := [
  ("IRECSIZE", rd_irecsize); ("HIERARCH", rd_hierarch);
  ("DATE", run_reader b_text); ("TEXT", run_reader b_text);
  ("IDENT", rd_ident); ("IEND", rd_iend);
  ("TDMATER", run_reader b_td); ("TDSECT", run_reader b_td); ("TDSETNAM", run_reader b_td);
  ("TDSUPNAM", run_reader b_td); ("TSLAYER", run_reader b_td); ("TDSCONC", run_reader b_td);
  ("TDLOAD", run_reader b_td); ("TDRESREF", run_reader b_td); ("TDBODNAM", run_reader b_td);
  ("TDRSNAM", run_reader b_td); ("TDSCATTER", run_reader b_td);
  ("GNODE", std "GNODE" 0); ("GCOORD", std "GCOORD" 0);
  ("GELMNT1", run_reader b_gelmnt1); ("GELMNT2", run_reader b_gelmnt2);
  ("GELREF1", run_reader b_gelref1);
  ("GECCEN", std "GECCEN" 0); ("GUNIVEC", std "GUNIVEC" 0); ("GELTH", std "GELTH" 0);
  ("GBEAMG", std "GBEAMG" 8);
  ("GBARM", opt "GBARM" 2); ("GBOX", opt "GBOX" 2); ("GCHAN", opt "GCHAN" 2);
  ("GCHANR", opt "GCHANR" 2); ("GDOBO", opt "GDOBO" 2); ("GIORH", opt "GIORH" 3);
  ("GIORHR", opt "GIORHR" 3); ("GLSEC", opt "GLSEC" 2); ("GLSECR", opt "GLSECR" 2);
  ("GPIPE", opt "GPIPE" 2); ("GUSYI", opt "GUSYI" 2);
  ("GSETMEMB", run_reader b_gsetmemb);
  ("MISOSEL", std "MISOSEL" 8);
  ("SCONCEPT", run_reader b_sconcept); ("SCONMESH", rd_sconmesh);
  ("BNBCD", run_reader b_bnbcd); ("BLDEP", run_reader b_bldep); ("BEUSLO", run_reader b_beuslo);
  ("BGRAV", std "BGRAV" 8); ("BRIGAC", run_reader b_brigac);
  ("RSUPTRAN", rd_xsuptran); ("HSUPTRAN", rd_xsuptran);
  ("RDFORCES", run_reader b_compdef); ("RDNODRES", run_reader b_compdef);
  ("RDSTRAIN", run_reader b_compdef); ("RDSTRESS", run_reader b_compdef);
  ("RDELNFOR", run_reader b_compdef);
  ("RDPOINTS", run_reader b_rdpoints); ("RDIELCOR", rd_rdielcor);
  ("RDRESREF", run_reader b_rdresref);
  ("RBLODCMB", run_reader b_groups3); ("RDRESCMB", run_reader b_groups3);
  ("RVNODACC", run_reader b_rvnodres); ("RVNODDIS", run_reader b_rvnodres);
  ("RVNODVEL", run_reader b_rvnodres);
  ("RVFORCES", run_reader b_rvelmres); ("RVSTRAIN", run_reader b_rvelmres);
  ("RVSTRESS", run_reader b_rvelmres);
  ("WBODCON", run_reader b_groups3); ("WDRESREF", run_reader b_wdresref);
  ("WGLOBDEF", run_reader b_wglobdef); ("WBODY", run_reader b_wbody);
  ("W1MATRIX", run_reader b_w1matrix);
  ("W1EXFORC", run_reader b_wcommon1); ("W1MOTION", run_reader b_wcommon1);
  ("W2EXFDIF", run_reader b_wcommon1); ("W2EXFSUM", run_reader b_wcommon1);
  ("W1SFORCE", run_reader b_w1sforce);
  ("W2HDRIFT", run_reader (b_drift 2)); ("W2MDRIFT", run_reader (b_drift 5));
  ("WFKPOINT", run_reader b_wfkpoint); ("WFLUIDKN", run_reader b_wfluidkn);
  ("WSECTION", run_reader b_wsection); ("WSURFACE", run_reader b_wsurface);
  ("WINPUT", run_reader b_winput); ("W1PANPRE", run_reader b_w1panpre)].

(** ** general_parser 416-443, parse_file 446-515 *)

(** the loop over not implemented records (434-437), also used by parse_file
    for records that were not asked for (458-460) *)
Fixpoint skip_run (fuel : nat) (cur rec_name : string) (rec : list flt) : P (string * list flt) :=
  if String.eqb rec_name cur then
    match fuel with
    | O => sraise OutOfFuel
    | S k => do (n, fs) <- liftF (skip_restofrecord rec_name rec); skip_run k cur n fs
    end
  else sret (rec_name, rec).
Definition skip_same (n : string) (rec : list flt) : P (string * list flt) :=
  fun s => skip_run (fuel_of s) n n rec s.

Definition general_parser (n : string) (rec : list flt) : P (string * list flt) :=
  do a <- liftR (pyget rec 0);
  if flt_lt a f0 then
    dos (if flt_eq a fm5 then (dos liftF (read_floatrec 0); sret tt) else sret tt);
    rheader
  else match sget n readers with
       | Some rd => dos modg (add_name n); rd n rec
       | None => skip_same n rec
       end.

Definition wanted (only : list string) (n : string) : bool :=
  match only with [] => true | _ => str_in n only end.
Fixpoint parse_loop (fuel : nat) (only : list string) (n : string) (rec : list flt) : P unit :=
  if String.eqb n "" then sret tt else
  match fuel with
  | O => sraise OutOfFuel
  | S k =>
      do (n1, fs1) <- (if wanted only n then general_parser n rec else skip_same n rec);
      parse_loop k only n1 fs1
  end.

(** remove_dups_preseve_order 469-472 *)
Fixpoint dedup (seen l : list string) : list string :=
  match l with
  | [] => []
  | x :: r => if str_in x seen then dedup seen r else x :: dedup (x :: seen) r
  end.

(** The attributes, 474-515: level and whether INDEX is set. *)
Definition islevl_of (r : option (list cell)) : Res Z :=
  match r with None => Err TypeError | Some row => col_int 4 row end.
Definition level_of (g : glob) (h : h5) : Res (string * bool) :=
  let f := g_ftid g in
  if String.eqb f "R" then
    if g_attop g then
      dor l <- hier_cell g h 0 4;
      if l =? 1 then Ok ("FIRSTLEVEL", true) else Ok ("TOPLEVEL", false)
    else Ok ("FIRSTLEVEL", true)
  else if (String.eqb f "T" || String.eqb f "L")%bool then
    if g_attop g then Ok ("TOPLEVEL", false)
    else if g_hashier g then
      dor l <- islevl_of (g_hrec g);
      if 1 <? l then Ok ("INTERLEVEL", false) else Ok ("FIRSTLEVEL", false)
    else Ok ("FIRSTLEVEL", false)
  else Ok ("", false).
Definition datatype_of (g : glob) : string :=
  let f := g_ftid g in
  if (String.eqb f "T" || String.eqb f "L" || String.eqb f "R")%bool then "STRUCTURAL"
  else if String.eqb f "G" then "HYDRODYNAMIC" else "UNKNOWN".

Definition set_attributes : P unit :=
  do g <- getg;
  do h <- geth;
  do w <- liftR (get_path g h);
  match h5_find w h with
  | None => sraise NoSuchNodeError
  | Some _ =>
      do (lev, idx) <- liftR (level_of g h);
      seth (h5_upd w (fun n =>
        put_attr "FILETYPE" (AStr (g_ftid g))
       (put_attr "SELTYP" (AInt (g_seltyp g))
       (put_attr "DATATYPE" (AStr (datatype_of g))
       (put_attr "LEVEL" (AStr lev)
       ((if idx then put_attr "INDEX" (AInt (g_indsel g)) else (fun x => x))
        (put_attr "RECORDS" (AStrs (dedup [] (g_names g))) n)))))) h)
  end.

Definition parse_file (only : list string) : P unit := 
  do (n, rec) <- rheader;
  dos (fun s => parse_loop (S (fuel_of s)) only n rec s);
  set_attributes.

(** set_current_ihref 233-239 *)
Definition set_current_ihref (ihref : Z) : P unit :=
  dos modg (set_ihref (Some ihref));
  do g <- getg;
  if g_hashier g then
    match g_htab g with
    | None => sraise TypeError
    | Some p =>
        do h <- geth;
        do row <- liftR (pygetZ (tab_rows p h) (ihref - 1));
        dos modg (set_hrec (Some row));
        if String.eqb (g_ftid g) "R" then
          do i <- liftR (col_int 3 row); modg (set_indsel (Some i))
        else sret tt
    end
  else sret tt.
