(** * Halt: where a conversion that raises stops

    The functions of Parsers and Convert once more, now with the state at the moment
    of an exception: the module state and the output file.  Only what changes one of
    them before something else can raise is written out; the rest is taken over by
    [stop].  HaltProofs shows that results and exceptions are those of Parsers and
    Convert.  The state of the input file after an exception is not described. *)
From Verif Require Import Base Flt SeqFile H5 Schema Parsers Data Files SifName Convert.
Open Scope string_scope.
Open Scope Z_scope.
Open Scope list_scope.
Open Scope monad_scope.

Definition E (A : Type) := pst -> pst * Res A.
Definition eret {A} (a : A) : E A := fun s => (s, Ok a).
Definition eraise {A} (e : exn) : E A := fun s => (s, Err e).
Definition ebind {A B} (m : E A) (k : A -> E B) : E B := fun s =>
  match m s with (s1, Ok a) => k a s1 | (s1, Err e) => (s1, Err e) end.
Notation "'de' x <- m ; k" := (ebind m (fun x => k)) (at level 200, x pattern, m at level 100, k at level 200, right associativity) : monad_scope.
Notation "'des' m ; k" := (ebind m (fun _ => k)) (at level 200, m at level 100, k at level 200, right associativity) : monad_scope.
(** A part that, when it raises, has changed neither the module state nor the output. *)
Definition stop {A} (m : P A) : E A := fun s => match m s with Ok (a, s') => (s', Ok a) | Err e => (s, Err e) end.
Definition with_out (h : h5) (s : pst) : pst := mkP (p_in s) (p_g s) h.

(** createparents=True, then the node; the groups made stay when it raises. *)
Fixpoint e_mkgroups (pre p : path) (h : h5) : h5 * Res unit :=
  match p with
  | [] => (h, Ok tt)
  | a :: r =>
      let q := pre ++ [a] in
      match h5_find q h with
      | None => e_mkgroups q r (h5_add q (Group []) h)
      | Some (Group _) => e_mkgroups q r h
      | Some _ => (h, Err NodeError)
      end
  end.
Definition e_create (where_ : path) (name : string) (n : node) : E unit := fun s =>
  match e_mkgroups [] where_ (p_out s) with
  | (h1, Err e) => (with_out h1 s, Err e)
  | (h1, Ok _) => match h5_find (where_ ++ [name]) h1 with
                  | Some _ => (with_out h1 s, Err NodeError)
                  | None => (with_out (h5_add (where_ ++ [name]) n h1) s, Ok tt)
                  end
  end.
(** get_table, parsers.py:284-340: the arrays are made first, one by one. *)
Fixpoint e_arrays (w : path) (n : string) (l : descr) : E (list path) :=
  match l with
  | [] => eret []
  | (a, t) :: r =>
      let nm := (lower_s n ++ "_" ++ a)%string in
      des e_create w nm (Arr t []);
      de ps <- e_arrays w n r;
      eret ((w ++ [nm]) :: ps)
  end.
Definition e_get_table (n : string) : E (path * list path) :=
  de g <- stop getg;
  de h <- stop geth;
  match sget n (g_tables g) with
  | Some (p, a :: l) => eret (p, a :: l)
  | Some (p, []) =>
      match tab_rows p h with
      | _ :: _ => eret (p, [])
      | [] => de w <- stop (liftR (get_path g h));
              des e_create w (lower_s n) (Table (table_descr n) []);
              des stop (modg (add_table n (w ++ [lower_s n], [])));
              eret (w ++ [lower_s n], [])
      end
  | None =>
      de w <- stop (liftR (get_path g h));
      de arrs <- e_arrays w n (atoms_of n);
      des e_create w (lower_s n) (Table (table_descr n) []);
      des stop (modg (add_table n (w ++ [lower_s n], arrs)));
      eret (w ++ [lower_s n], arrs)
  end.

(** recdata and vldata, parsers.py:171-219: rows are appended before the data of the
    arrays. *)
Fixpoint e_vls_write (l : list vl) : E (list vl) :=
  match l with
  | [] => eret []
  | v :: r => de v' <- stop (vl_write v); de r' <- e_vls_write r; eret (v' :: r')
  end.
Definition e_rd_write (r : recd) : E recd :=
  de h <- stop geth;
  des stop (seth (h5_upd (r_path r) (append_rows (r_buf r)) h));
  de vs <- e_vls_write (r_vls r);
  eret (mkRd (r_path r) (r_types r) [] vs).
Definition e_rd_add (rec : list pyval) (r : recd) : E recd :=
  de g <- stop getg;
  let full := rec ++ flat_map (fun v => [PI (v_start v); PI (v_stop v)]) (r_vls r) in
  de row <- stop (liftR (conv_row (r_types r) full));
  if g_batch g <=? Zlen (r_buf r) then eraise IndexError else
  let r' := mkRd (r_path r) (r_types r) (r_buf r ++ [row]) (r_vls r) in
  if Zlen (r_buf r') =? g_batch g then e_rd_write r' else eret r'.

(** The loop of the readers.  Rows in the buffer are lost when it raises. *)
Definition ebody := string -> list flt -> E (list pyval * adds).
Definition one (b : body) : ebody := fun n rec => stop (b n rec).
Fixpoint e_run_loop (fuel : nat) (name : string) (b : ebody) (rec_name : string) (rec : list flt) (r : recd) : E (string * list flt * recd) :=
  if String.eqb rec_name name then
    match fuel with
    | O => eraise OutOfFuel
    | S k =>
        de (row, ad) <- b rec_name rec;
        de r1 <- e_rd_add row (rd_vladds ad r);
        de (n, fs) <- stop rheader;
        e_run_loop k name b n fs r1
    end
  else eret (rec_name, rec, r).
Definition e_run_reader (b : ebody) (n : string) (rec : list flt) : E (string * list flt) :=
  de t <- e_get_table n;
  de h <- stop geth;
  (fun s =>
    (de (x, r) <- e_run_loop (fuel_of s) n b n rec (rd_init n t h);
     des e_rd_write r;
     eret x) s).

(** The records that leave something in the module state before they are read to the
    end: gelmnt1_reader 783-803, compdef_reader 1599-1619, rdpoints_reader 1649-1705,
    rdielcor_reader 1726-1776, rdresref_reader 1799-1826. *)
Definition e_gelmnt1 : ebody := fun _ rec =>
  de elno <- stop (liftR (int_at rec 1));
  de eltyp <- stop (liftR (int_at rec 2));
  des stop (modg (add_elem elno eltyp));
  de n <- stop (liftR (nnodes_of eltyp));
  de nod <- stop (rfloats n 8);
  eret (pfs rec, [(0%nat, pfs nod)]).
Definition e_compdef : ebody := fun name rec =>
  de lenrec <- stop (liftR (int_at rec 2));
  de ir <- stop (liftR (int_at rec 1));
  des stop (modg (add_lenrec ("RV" ++ substring 2 (String.length name - 2) name, ir)%string lenrec));
  de more <- stop (rfloats (lenrec - 1) 0);
  eret (pfs (slice_to 3 rec), [(0%nat, pfs (slice_from 3 rec ++ more))]).
Definition e_rdpoints : ebody := fun _ rec =>
  de r1 <- stop (rfloats 5 0);
  let rec := rec ++ r1 in
  de ispalt <- stop (liftR (int_at rec 1));
  de iielno <- stop (liftR (int_at rec 2));
  de icoref <- stop (liftR (int_at rec 3));
  de nsp <- stop (liftR (int_at rec 5));
  de ijk <- stop (liftR (int_at rec 6));
  de nsptra <- stop (liftR (int_at rec 7));
  de nlay <- stop (liftR (int_at rec 8));
  let nok := ijk / 10000 in
  let noj := (ijk mod 10000) / 100 in
  let noi := ijk mod 100 in
  des stop (modg (add_points icoref (nlay, nok, noj, noi) (ispalt, iielno) nsp));
  de pts <- stop (read_points (Z.to_nat nok * Z.to_nat noj * Z.to_nat noi));
  de xfs <- stop (timesZ nsptra (do t <- rfloats 9 0; sret (PT (rows_of 3 3 t))));
  eret (pfs rec, [(0%nat, pts); (1%nat, xfs)]).
Definition e_rdielcor : ebody := fun _ rec =>
  de icoref <- stop (liftR (int_at rec 1));
  de g <- stop getg;
  de loc <- stop (match dget Z.eqb icoref (g_points g) with
             | Some v => sret v
             | None =>
                 if icoref =? 15 then sret (0, 1, 1, 3)
                 else if icoref =? 24 then sret (0, 2, 3, 3)
                 else match g_ielcor g with Some v => sret v | None => sraise UnboundLocalError end
             end);
  des stop (modg (set_ielcor (Some loc)));
  let '(nlay, nok, noj, noi) := loc in
  de ga <- stop (if nok =? 1 then sret (slice_from 3 rec)
            else if 1 <? nok then (do m <- rfloats (nok - 1) 0; sret (slice_from 3 rec ++ m))
            else sret []);
  de be <- stop (rfloats noj 0);
  de al <- stop (rfloats noi 0);
  de la <- stop (timesZ nlay (do l <- rfloats 2 0; sret (PT (pfs l))));
  eret (pfs (slice_to 3 rec),
        [(0%nat, pfs ga); (1%nat, pfs be); (2%nat, pfs al); (3%nat, la)]).
Definition e_rdresref : ebody := fun _ rec =>
  de r1 <- stop (rfloats 3 0);
  let rec := rec ++ r1 in
  de ires <- stop (liftR (int_at rec 1));
  de icompl <- stop (liftR (int_at rec 5));
  de numtyp <- stop (liftR (int_at rec 6));
  des stop (modg (add_compl ires icompl));
  de r <- stop (groups numtyp 3);
  eret (pfs rec, [(0%nat, r)]).

(** The readers of their own: hierarch_reader 550-596, ident_reader 653-668,
    xsuptran_reader 1564-1585 (rows appended so far are written when the file is
    closed), sconmesh_reader 1332-1356, rdielcor_reader. *)
Definition ereader := string -> list flt -> E (string * list flt).
Definition e_hierarch : ereader := fun n rec =>
  de rec2 <- stop (rfloats 4 0);
  de st <- stop (liftR (int_at rec 2));
  des stop (modg (set_seltyp (Some st)));
  de t <- e_get_table n;
  de h <- stop geth;
  de nsub <- stop (liftR (int_at rec2 3));
  de ih <- stop (rfloats nsub 0);
  de r1 <- e_rd_add (pfs (rec ++ rec2)) (rd_vladds [(0%nat, pfs ih)] (rd_init n t h));
  de (n1, fs1) <- stop rheader;
  (fun s =>
    (de (x, r) <- e_run_loop (fuel_of s) n (one b_hierarch) n1 fs1 r1;
     des e_rd_write r;
     de h <- stop geth;
     match tab_rows (fst t) h with
     | [] => eraise IndexError
     | row :: _ => des stop (modg (set_top (fst t) row)); eret x
     end) s).
Definition e_ident : ereader := fun n rec =>
  de g <- stop getg;
  des stop (if opt_truthy (g_seltyp g) then sret tt
       else do st <- liftR (int_at rec 1); modg (set_seltyp (Some st)));
  de t <- e_get_table n;
  de a <- stop (liftR (int_at rec 0));
  de b <- stop (liftR (int_at rec 1));
  de c <- stop (liftR (int_at rec 2));
  de row <- stop (liftR (conv_row (map snd (table_descr n)) [PI a; PI b; PI c]));
  de h <- stop geth;
  des stop (seth (h5_upd (fst t) (append_rows [row]) h));
  stop rheader.
Fixpoint e_xsup_loop (fuel : nat) (name : string) (p : path) (rec_name : string) (rec : list flt) : E (string * list flt) :=
  if String.eqb rec_name name then
    match fuel with
    | O => eraise OutOfFuel
    | S k =>
        de (row, _) <- stop (b_xsuptran rec_name rec);
        de cs <- stop (liftR (conv_row (map snd (table_descr name)) row));
        de h <- stop geth;
        des stop (seth (h5_upd p (append_rows [cs]) h));
        de (n, fs) <- stop rheader;
        e_xsup_loop k name p n fs
    end
  else eret (rec_name, rec).
Definition e_xsuptran : ereader := fun n rec =>
  de t <- e_get_table n;
  fun s => e_xsup_loop (fuel_of s) n (fst t) n rec s.
Definition e_sconmesh : ereader := fun n rec =>
  de nr <- stop (liftR (int_at rec 2));
  if 1 <? nr then eraise NotImplementedError else e_run_reader (one b_sconmesh) n rec.
Definition e_rd_rdielcor : ereader := fun n rec =>
  des stop (modg (set_ielcor None)); e_run_reader e_rdielcor n rec.
Definition e_std (n : string) (sk : nat) : ereader := e_run_reader (one (b_standard (length (columns n)) sk)).
Definition e_opt (n : string) (noptf : nat) : ereader := e_run_reader (one (b_optional (length (columns n)) 8 noptf)).
(** The dict `readers`. *)
Definition e_readers : list (string * ereader) := [
  ("IRECSIZE", (fun n r => stop (rd_irecsize n r))); ("HIERARCH", e_hierarch);
  ("DATE", e_run_reader (one b_text)); ("TEXT", e_run_reader (one b_text));
  ("IDENT", e_ident); ("IEND", (fun n r => stop (rd_iend n r)));
  ("TDMATER", e_run_reader (one b_td)); ("TDSECT", e_run_reader (one b_td)); ("TDSETNAM", e_run_reader (one b_td));
  ("TDSUPNAM", e_run_reader (one b_td)); ("TSLAYER", e_run_reader (one b_td)); ("TDSCONC", e_run_reader (one b_td));
  ("TDLOAD", e_run_reader (one b_td)); ("TDRESREF", e_run_reader (one b_td)); ("TDBODNAM", e_run_reader (one b_td));
  ("TDRSNAM", e_run_reader (one b_td)); ("TDSCATTER", e_run_reader (one b_td));
  ("GNODE", e_std "GNODE" 0); ("GCOORD", e_std "GCOORD" 0);
  ("GELMNT1", e_run_reader e_gelmnt1); ("GELMNT2", e_run_reader (one b_gelmnt2));
  ("GELREF1", e_run_reader (one b_gelref1));
  ("GECCEN", e_std "GECCEN" 0); ("GUNIVEC", e_std "GUNIVEC" 0); ("GELTH", e_std "GELTH" 0);
  ("GBEAMG", e_std "GBEAMG" 8);
  ("GBARM", e_opt "GBARM" 2); ("GBOX", e_opt "GBOX" 2); ("GCHAN", e_opt "GCHAN" 2);
  ("GCHANR", e_opt "GCHANR" 2); ("GDOBO", e_opt "GDOBO" 2); ("GIORH", e_opt "GIORH" 3);
  ("GIORHR", e_opt "GIORHR" 3); ("GLSEC", e_opt "GLSEC" 2); ("GLSECR", e_opt "GLSECR" 2);
  ("GPIPE", e_opt "GPIPE" 2); ("GUSYI", e_opt "GUSYI" 2);
  ("GSETMEMB", e_run_reader (one b_gsetmemb));
  ("MISOSEL", e_std "MISOSEL" 8);
  ("SCONCEPT", e_run_reader (one b_sconcept)); ("SCONMESH", e_sconmesh);
  ("BNBCD", e_run_reader (one b_bnbcd)); ("BLDEP", e_run_reader (one b_bldep)); ("BEUSLO", e_run_reader (one b_beuslo));
  ("BGRAV", e_std "BGRAV" 8); ("BRIGAC", e_run_reader (one b_brigac));
  ("RSUPTRAN", e_xsuptran); ("HSUPTRAN", e_xsuptran);
  ("RDFORCES", e_run_reader e_compdef); ("RDNODRES", e_run_reader e_compdef);
  ("RDSTRAIN", e_run_reader e_compdef); ("RDSTRESS", e_run_reader e_compdef);
  ("RDELNFOR", e_run_reader e_compdef);
  ("RDPOINTS", e_run_reader e_rdpoints); ("RDIELCOR", e_rd_rdielcor);
  ("RDRESREF", e_run_reader e_rdresref);
  ("RBLODCMB", e_run_reader (one b_groups3)); ("RDRESCMB", e_run_reader (one b_groups3));
  ("RVNODACC", e_run_reader (one b_rvnodres)); ("RVNODDIS", e_run_reader (one b_rvnodres));
  ("RVNODVEL", e_run_reader (one b_rvnodres));
  ("RVFORCES", e_run_reader (one b_rvelmres)); ("RVSTRAIN", e_run_reader (one b_rvelmres));
  ("RVSTRESS", e_run_reader (one b_rvelmres));
  ("WBODCON", e_run_reader (one b_groups3)); ("WDRESREF", e_run_reader (one b_wdresref));
  ("WGLOBDEF", e_run_reader (one b_wglobdef)); ("WBODY", e_run_reader (one b_wbody));
  ("W1MATRIX", e_run_reader (one b_w1matrix));
  ("W1EXFORC", e_run_reader (one b_wcommon1)); ("W1MOTION", e_run_reader (one b_wcommon1));
  ("W2EXFDIF", e_run_reader (one b_wcommon1)); ("W2EXFSUM", e_run_reader (one b_wcommon1));
  ("W1SFORCE", e_run_reader (one b_w1sforce));
  ("W2HDRIFT", e_run_reader (one (b_drift 2))); ("W2MDRIFT", e_run_reader (one (b_drift 5)));
  ("WFKPOINT", e_run_reader (one b_wfkpoint)); ("WFLUIDKN", e_run_reader (one b_wfluidkn));
  ("WSECTION", e_run_reader (one b_wsection)); ("WSURFACE", e_run_reader (one b_wsurface));
  ("WINPUT", e_run_reader (one b_winput)); ("W1PANPRE", e_run_reader (one b_w1panpre))].

(** general_parser 416-443 and parse_file 446-515.  The attribute RECORDS is set
    before the level is looked up. *)
Definition e_general_parser (n : string) (rec : list flt) : E (string * list flt) :=
  de a <- stop (liftR (pyget rec 0));
  if flt_lt a f0 then
    des stop (if flt_eq a fm5 then (dos liftF (read_floatrec 0); sret tt) else sret tt);
    stop rheader
  else match sget n e_readers with
       | Some rd => des stop (modg (add_name n)); rd n rec
       | None => stop (skip_same n rec)
       end.
Fixpoint e_parse_loop (fuel : nat) (only : list string) (n : string) (rec : list flt) : E unit :=
  if String.eqb n "" then eret tt else
  match fuel with
  | O => eraise OutOfFuel
  | S k =>
      de (n1, fs1) <- (if wanted only n then e_general_parser n rec else stop (skip_same n rec));
      e_parse_loop k only n1 fs1
  end.
Definition e_set_attributes : E unit :=
  de g <- stop getg;
  de h <- stop geth;
  de w <- stop (liftR (get_path g h));
  match h5_find w h with
  | None => eraise NoSuchNodeError
  | Some _ =>
      des stop (seth (h5_upd w (put_attr "RECORDS" (AStrs (dedup [] (g_names g)))) h));
      de (lev, idx) <- stop (liftR (level_of g h));
      de h <- stop geth;
      stop (seth (h5_upd w (fun n =>
        put_attr "FILETYPE" (AStr (g_ftid g))
       (put_attr "SELTYP" (AInt (g_seltyp g))
       (put_attr "DATATYPE" (AStr (datatype_of g))
       (put_attr "LEVEL" (AStr lev)
       ((if idx then put_attr "INDEX" (AInt (g_indsel g)) else (fun x => x)) n))))) h))
  end.
Definition e_parse_file (only : list string) : E unit :=
  de (n, rec) <- stop rheader;
  des (fun s => e_parse_loop (S (fuel_of s)) only n rec s);
  e_set_attributes.
(** set_current_ihref 233-239 *)
Definition e_current_ihref (ihref : Z) : E unit :=
  des stop (modg (set_ihref (Some ihref)));
  de g <- stop getg;
  if g_hashier g then
    match g_htab g with
    | None => eraise TypeError
    | Some p =>
        de h <- stop geth;
        de row <- stop (liftR (pygetZ (tab_rows p h) (ihref - 1)));
        des stop (modg (set_hrec (Some row)));
        if String.eqb (g_ftid g) "R" then
          de i <- stop (liftR (col_int 3 row)); stop (modg (set_indsel (Some i)))
        else eret tt
    end
  else eret tt.

(** sif2hdf5.py:184-295: module state and output in any case. *)
Definition e_parse_into (k : SeqFile.kind) (bs : list ascii) (only : list string) (pre : E unit) (gh : glob * h5) : (glob * h5) * Res unit :=
  let (s, r) := (des pre; e_parse_file only) (mkP (open_in k bs) (fst gh) (snd gh)) in ((p_g s, p_out s), r).
Fixpoint e_read_lower (d : dir) (k : SeqFile.kind) (only : list string) (l : list (string * Z)) (gh : glob * h5) : (glob * h5) * Res (list event) :=
  match l with
  | [] => (gh, Ok [])
  | (n, i) :: r =>
      match file_in d n with
      | Some bs =>
          match e_parse_into k bs only (e_current_ihref i) (reset false (fst gh), snd gh) with
          | (gh1, Err e) => (gh1, Err e)
          | (gh1, Ok _) => match e_read_lower d k only r gh1 with
                           | (gh2, Ok evs) => (gh2, Ok (Read n :: evs))
                           | (gh2, Err e) => (gh2, Err e)
                           end
          end
      | None => match e_read_lower d k only r gh with
                | (gh2, Ok evs) => (gh2, Ok (Missing n :: evs))
                | (gh2, Err e) => (gh2, Err e)
                end
      end
  end.
Definition e_convert (d : dir) (top : string) (x : sifname) (usefileprefix : bool) (prefix : string) (only : list string)
  (g : glob) (h0 : h5) : (glob * h5) * Res (list event) :=
  let '(fp, letter, _, ext) := x in
  let g1 := set_prefix (if usefileprefix then prefix ++ l2s fp else prefix)%string (reset true g) in
  match file_in d top with
  | None => ((g1, h0), Err FileNotFoundError)
  | Some bs =>
      let k := kind_of_bytes bs in
      match e_parse_into k bs only (eret tt) (set_ftid (l2s letter) g1, h0) with
      | (gh, Err e) => (gh, Err e)
      | (gh, Ok _) =>
          if g_hashier (fst gh) then
            match g_htab (fst gh) with
            | None => (gh, Err TypeError)
            | Some p =>
                match candidates (l2s fp) (l2s ext) (tab_rows p (snd gh)) with
                | Err e => (gh, Err e)
                | Ok names => match e_read_lower d k only names gh with
                              | (gh2, Ok evs) => (gh2, Ok (Read top :: evs))
                              | (gh2, Err e) => (gh2, Err e)
                              end
                end
            end
          else (gh, Ok [Read top])
      end
  end.
