(** * Convert: sif2hdf5 and open_sif *)
From Verif Require Import Base Flt SeqFile H5 Schema Parsers Data Files SifName.
Open Scope string_scope.
Open Scope Z_scope.
Open Scope list_scope.
Open Scope monad_scope.

(** The directory of the top level file: names and contents of its SESAM files.
    Names are names in this directory; paths and symbolic links are in
    Session. *)
Definition dir := list (string * list ascii).
Definition file_in (d : dir) (n : string) : option (list ascii) := dget String.eqb n d.
(** The HDF5 files, by name. *)
Definition stores := list (string * h5).
Definition store_in (st : stores) (n : string) : h5 := match dget String.eqb n st with Some h => h | None => [] end.

(** What is done with SESAM files: read, or `print('file not found: ' + fname)`. *)
Inductive event : Set := Read (n : string) | Missing (n : string).

(** determine formatting, sif2hdf5.py:213-217 *)
Definition kind_of_bytes (bs : list ascii) : SeqFile.kind :=
  match bs with c :: _ => if Ascii.eqb c "K" then Unf else Fmt | [] => Fmt end.

(** A row of the hierarchy table by column name *)
Definition h_ihref (r : list cell) : Res Z := col_int 1 r.
Definition h_iselty (r : list cell) : Res Z := col_int 2 r.
Definition h_indsel (r : list cell) : Res Z := col_int 3 r.
Definition h_islevl (r : list cell) : Res Z := col_int 4 r.

(** candidate file names with their ihref, sif2hdf5.py:255-277.  The comparison
    with SIF and SIU is case-sensitive. *)
Fixpoint result_names (pre ext : string) (rows : list (list cell)) : Res (list (string * Z)) :=
  match rows with
  | [] => Ok []
  | r :: rs =>
      dor l <- h_islevl r;
      dor x <- (if l =? 1 then
                  dor t <- h_iselty r; dor i <- h_ihref r;
                  Ok [((pre ++ "R" ++ str_of_Z t ++ "H" ++ str_of_Z i ++ "." ++ ext)%string, i)]
                else Ok []);
      dor y <- result_names pre ext rs;
      Ok (x ++ y)
  end.
Fixpoint input_names (pre ext : string) (rows : list (list cell)) : Res (list (string * Z)) :=
  match rows with
  | [] => Ok []
  | r :: rs =>
      dor l <- h_indsel r;
      dor x <- (if l =? 1 then
                  dor t <- h_iselty r; dor i <- h_ihref r;
                  Ok [((pre ++ "T" ++ str_of_Z t ++ "." ++ ext)%string, i)]
                else Ok []);
      dor y <- input_names pre ext rs;
      Ok (x ++ y)
  end.
Definition candidates (pre ext : string) (rows : list (list cell)) : Res (list (string * Z)) :=
  if String.eqb ext "SIF" || String.eqb ext "SIU" then result_names pre ext (tl rows) else input_names pre ext (tl rows).

(** parse one file into the output file *)
Definition parse_into (k : SeqFile.kind) (bs : list ascii) (only : list string) (pre : P unit) (gh : glob * h5) : Res (glob * h5) :=
  dor (_, s) <- (dos pre; parse_file only) (mkP (open_in k bs) (fst gh) (snd gh));
  Ok (p_g s, p_out s).

(** read files, sif2hdf5.py:279-295 *)
Fixpoint read_lower (d : dir) (k : SeqFile.kind) (only : list string) (l : list (string * Z)) (gh : glob * h5)
  : Res (glob * h5 * list event) :=
  match l with
  | [] => Ok (gh, [])
  | (n, i) :: r =>
      match file_in d n with
      | Some bs =>
          dor gh1 <- parse_into k bs only (set_current_ihref i) (reset false (fst gh), snd gh);
          dor (gh2, evs) <- read_lower d k only r gh1;
          Ok (gh2, Read n :: evs)
      | None =>
          dor (gh2, evs) <- read_lower d k only r gh;
          Ok (gh2, Missing n :: evs)
      end
  end.

(** One file with the files below it, sif2hdf5.py:184-295: [x] is the name split,
    [h0] the output file as opened. *)
Definition convert (d : dir) (top : string) (x : sifname) (usefileprefix : bool) (prefix : string) (only : list string)
  (g : glob) (h0 : h5) : Res (glob * h5 * list event) :=
  let '(fp, letter, _, ext) := x in
  let g1 := set_prefix (if usefileprefix then prefix ++ l2s fp else prefix)%string (reset true g) in
  match file_in d top with
  | None => Err FileNotFoundError
  | Some bs =>
      let k := kind_of_bytes bs in
      dor gh <- parse_into k bs only (sret tt) (set_ftid (l2s letter) g1, h0);
      if g_hashier (fst gh) then
        dor rows <- (match g_htab (fst gh) with Some p => Ok (tab_rows p (snd gh)) | None => Err TypeError end);
        dor names <- candidates (l2s fp) (l2s ext) rows;
        dor (gh2, evs) <- read_lower d k only names gh;
        Ok (gh2, Read top :: evs)
      else Ok (gh, [Read top])
  end.

(** fname[:-3] + 'h5' *)
Definition default_name (n : string) : string := (substring 0 (String.length n - 3) n ++ "h5")%string.
(** `if hdf5name`: None and the empty name are both false *)
Definition given (n : option string) : option string := match n with Some s => if String.eqb s "" then None else n | None => None end.

(** sif2hdf5 for one name, sif2hdf5.py:171-end, in_memory=False.  The result
    holds the module state, the HDF5 files and the SESAM files used, in order.
    (When an exception is raised the files written so far are not modelled.) *)
Definition sif2hdf5 (d : dir) (sifname : string) (hdf5name : option string) (append usefileprefix : bool) (prefix : string)
  (only : list string) (g : glob) (st : stores) : Res (glob * stores * list event) :=
  match given hdf5name, append with
  | None, true => Err ValueError
  | o, _ =>
      dor x <- sif_checked (s2l sifname);
      let out := match o with Some n => n | None => default_name sifname end in
      dor (gh, evs) <- convert d sifname x usefileprefix prefix only g (if append then store_in st out else []);
      Ok (fst gh, dset out (snd gh) st, evs)
  end.

(** a sequence of names, sif2hdf5.py:145-169, with one prefix for each name *)
Fixpoint sif2hdf5_each (d : dir) (l : list (string * string)) (hdf5name : option string) (append usefileprefix : bool)
  (only : list string) (g : glob) (st : stores) : Res (glob * stores * list event) :=
  match l with
  | [] => Ok (g, st, [])
  | (n, p) :: r =>
      dor (gst, evs) <- sif2hdf5 d n hdf5name append usefileprefix p only g st;
      dor (gst2, evs2) <- sif2hdf5_each d r hdf5name append usefileprefix only (fst gst) (snd gst);
      Ok (gst2, evs ++ evs2)
  end.
Definition sif2hdf5_seq (d : dir) (l : list (string * string)) (hdf5name : option string) (append usefileprefix : bool)
  (only : list string) (g : glob) (st : stores) : Res (glob * stores * list event) :=
  match given hdf5name with
  | Some _ =>
      match l with
      | [] => Err IndexError
      | (n, p) :: r =>
          dor (gst, evs) <- sif2hdf5 d n hdf5name append usefileprefix p only g st;
          dor (gst2, evs2) <- sif2hdf5_each d r hdf5name true usefileprefix only (fst gst) (snd gst);
          Ok (gst2, evs ++ evs2)
      end
  | None => sif2hdf5_each d l None append usefileprefix only g st
  end.

(** open_sif, file.py:28-43: conversion into memory with the default options,
    then File(...)[prefix + letter + idno].  The result holds the module state,
    the contents of the file in memory, the data object and its class. *)
Definition open_sif (d : dir) (fname : string) (g : glob) : Res (glob * h5 * Files.kind * sdata) :=
  dor x <- sif_checked (s2l fname);
  dor (gh, _) <- convert d fname x true "" [] g [];
  dor y <- parse_sifname (s2l fname);
  dor es <- file_data (snd gh);
  let '(p, l, n, _) := y in
  dor (k, o) <- get_data (l2s (p ++ l ++ n)) es;
  Ok (fst gh, snd gh, k, o).
