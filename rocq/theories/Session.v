(** * Session: paths of files, and the HDF5 files a program has open

    sif2hdf5, open_sif and open_hdf5 as calls made one after the other, with what
    they leave behind when they raise. *)
From Verif Require Import Base Flt SeqFile H5 Schema Parsers Data Files SifName Convert Halt.
Open Scope string_scope.
Open Scope Z_scope.
Open Scope list_scope.
Open Scope monad_scope.

(** ** Paths

    A place in the file system: the names from the root to it.  Directories are
    not links and all those named in a path exist (simplified: with links to
    directories [..] may lead elsewhere). *)
Definition place_of := list string.
Definition slash (c : ascii) : bool := Ascii.eqb c "/".
Fixpoint parts (s : text) : list text :=
  match s with
  | [] => [[]]
  | c :: r => if slash c then [] :: parts r else match parts r with x :: l => (c :: x) :: l | [] => [[c]] end
  end.
Definition go (at_ : place_of) (part : string) : place_of :=
  if String.eqb part "" || String.eqb part "." then at_ else if String.eqb part ".." then removelast at_ else at_ ++ [part].
(** os.path.abspath with [cwd] the current directory *)
Definition abs_path (cwd : place_of) (p : string) : place_of :=
  let start := match s2l p with c :: _ => if slash c then [] else cwd | [] => cwd end in
  fold_left go (map l2s (parts (s2l p))) start.
(** the second part of os.path.split *)
Definition base_name (p : string) : string := l2s (last (parts (s2l p)) []).
(** the path as text *)
Definition path_text (p : place_of) : string := match p with [] => "/" | _ => fold_left (fun s n => s ++ "/" ++ n)%string p "" end.
Definition here_eqb : place_of -> place_of -> bool := path_eqb.

(** The files: contents, or a symbolic link with its target. *)
Inductive node_at : Set := Body (b : list ascii) | Link (target : string).
Definition files := list (place_of * node_at).
Definition found (fs : files) (p : place_of) : option node_at := dget here_eqb p fs.
(** os.path.realpath: links are followed.  (For a circle of links the result is
    one of them, which cannot be opened.) *)
Fixpoint follow (fuel : nat) (fs : files) (p : place_of) : place_of :=
  match fuel with
  | O => p
  | S k => match found fs p with Some (Link t) => follow k fs (abs_path (removelast p) t) | _ => p end
  end.
Definition real_path (fs : files) (p : place_of) : place_of := follow (length fs) fs p.
(** open(p): the contents of the file there.  (A circle of links gives OSError in
    place of FileNotFoundError.) *)
Definition content (fs : files) (p : place_of) : option (list ascii) :=
  match found fs (real_path fs p) with Some (Body b) => Some b | _ => None end.
(** The files of one directory: path.join(fdir, name) of sif2hdf5.py:281 is looked
    up here by its name. *)
Definition listing (fs : files) (d : place_of) : dir :=
  flat_map (fun e => if negb (here_eqb (fst e) []) && here_eqb (removelast (fst e)) d
                     then match content fs (fst e) with Some b => [(last (fst e) "", b)] | None => [] end else []) fs.

(** ** HDF5 files open in this process

    What PyTables keeps for each: the name as given, the mode, the place on disk
    (none for a file in memory), and the contents when a File object holds it. *)
Inductive fmode : Set := MRead | MAppend | MWrite.
Record hnd : Set := mkH { hn_name : string; hn_mode : fmode; hn_at : option place_of; hn_file : option h5 }.
(** The module state of the parser, the current directory, the files, the HDF5
    files on disk, those open, and a number for the next one. *)
Record sess : Set := mkSs { ss_glob : glob; ss_cwd : place_of; ss_files : files; ss_disk : list (place_of * h5);
  ss_open : list (nat * hnd); ss_next : nat }.
Definition set_glob (g : glob) (s : sess) : sess := mkSs g (ss_cwd s) (ss_files s) (ss_disk s) (ss_open s) (ss_next s).
Definition set_disk (p : place_of) (h : h5) (s : sess) : sess :=
  mkSs (ss_glob s) (ss_cwd s) (ss_files s) (dset p h (ss_disk s)) (ss_open s) (ss_next s).
Definition set_open (l : list (nat * hnd)) (s : sess) : sess := mkSs (ss_glob s) (ss_cwd s) (ss_files s) (ss_disk s) l (ss_next s).
Definition on_disk (s : sess) (p : place_of) : option h5 := dget here_eqb p (ss_disk s).

(** tables.open_file: files open under the same name (with mode r only others of
    mode r, with a or w none of mode r, with w none at all: ValueError); then, by the
    HDF5 library, those open under another name at the same place.  (From the
    documentation and sources of PyTables and HDF5 as known, not in /repo.) *)
Definition name_clash (m o : fmode) : bool :=
  match m, o with MRead, MRead => false | MRead, _ => true | MAppend, MRead => true | MAppend, _ => false | MWrite, _ => true end.
Definition place_clash (m o : fmode) : bool :=
  match m, o with MRead, _ => false | MAppend, MRead => true | MAppend, _ => false | MWrite, _ => true end.
Definition tb_open (s : sess) (name : string) (m : fmode) (at_ : option place_of) : Res sess :=
  if existsb (fun e => String.eqb (hn_name (snd e)) name && name_clash m (hn_mode (snd e))) (ss_open s) then Err ValueError
  else
    if match at_ with
       | Some p => existsb (fun e => match hn_at (snd e) with Some q => here_eqb p q && place_clash m (hn_mode (snd e)) | None => false end) (ss_open s)
       | None => false
       end then Err HDF5ExtError
    else
      match m, at_ with
      | MRead, Some p => match on_disk s p with
                         | Some _ => Ok (mkSs (ss_glob s) (ss_cwd s) (ss_files s) (ss_disk s) (ss_open s ++ [(ss_next s, mkH name m at_ None)]) (S (ss_next s)))
                         | None => Err FileNotFoundError
                         end
      | _, _ => Ok (mkSs (ss_glob s) (ss_cwd s) (ss_files s) (ss_disk s) (ss_open s ++ [(ss_next s, mkH name m at_ None)]) (S (ss_next s)))
      end.
(** tables.File.close *)
Definition tb_close (id : nat) (s : sess) : sess := set_open (filter (fun e => negb (Nat.eqb (fst e) id)) (ss_open s)) s.
(** A File object now holds it. *)
Definition hold (id : nat) (h : h5) (s : sess) : sess :=
  set_open (map (fun e => if Nat.eqb (fst e) id then (id, mkH (hn_name (snd e)) (hn_mode (snd e)) (hn_at (snd e)) (Some h)) else e) (ss_open s)) s.

(** ** Calls *)

(** What a call gives: nothing, the place of the HDF5 file, a File object with its
    data objects, one data object with its class. *)
Inductive given_back : Set :=
| GNone | GPlace (p : place_of) (evs : list event) | GFile (id : nat) (es : list Files.entry) | GData (id : nat) (k : Files.kind) (o : sdata).
Inductive scall : Set :=
| CConvert (sifname : string) (hdf5name : option string) (append usefileprefix : bool) (prefix : string) (only : list string)
| COpenSif (sifname : string)
| COpenHdf5 (name : string)
| CClose (id : nat)
| CCloseAll (first : nat)
| CChdir (p : string)
| CFiles (fs : files).

Definition sif_place (s : sess) (sifname : string) : place_of := real_path (ss_files s) (abs_path (ss_cwd s) sifname).
(** Module state when the files are to be opened, sif2hdf5.py:197-207. *)
Definition begun (x : sifname) (usefileprefix : bool) (prefix : string) (g : glob) : glob :=
  let '(fp, _, _, _) := x in set_prefix (if usefileprefix then prefix ++ l2s fp else prefix)%string (reset true g).
(** sif2hdf5, sif2hdf5.py:171-304, for one name and not in memory.  The name is
    that of the file itself, not of a link to it. *)
Definition s_convert (s : sess) (sifname : string) (hdf5name : option string) (append usefileprefix : bool) (prefix : string)
  (only : list string) : sess * Res given_back :=
  match given hdf5name, append with
  | None, true => (s, Err ValueError)
  | o, _ =>
      let p := sif_place s sifname in
      let fname := last p "" in
      match sif_checked (s2l fname) with
      | Err e => (s, Err e)
      | Ok x =>
          let g1 := begun x usefileprefix prefix (ss_glob s) in
          match content (ss_files s) p with
          | None => (set_glob g1 s, Err FileNotFoundError)
          | Some _ =>
              let out := match o with Some n => n | None => default_name fname end in
              let at_ := abs_path (ss_cwd s) out in
              match tb_open s out (if append then MAppend else MWrite) (Some at_) with
              | Err e => (set_glob g1 s, Err e)
              | Ok s1 =>
                  match e_convert (listing (ss_files s) (removelast p)) fname x usefileprefix prefix only (ss_glob s)
                          (if append then match on_disk s at_ with Some h => h | None => [] end else []) with
                  | (gh, Err e) => (set_disk at_ (snd gh) (set_glob (fst gh) s1), Err e)
                  | (gh, Ok evs) => (tb_close (ss_next s) (set_disk at_ (snd gh) (set_glob (fst gh) s1)), Ok (GPlace at_ evs))
                  end
              end
          end
      end
  end.
(** open_sif, file.py:28-43, with sif2hdf5 in memory: the group is looked up by the
    name as given. *)
Definition s_open_sif (s : sess) (sifname : string) : sess * Res given_back :=
  let p := sif_place s sifname in
  let fname := last p "" in
  match sif_checked (s2l fname) with
  | Err e => (s, Err e)
  | Ok x =>
      let g1 := begun x true "" (ss_glob s) in
      match content (ss_files s) p with
      | None => (set_glob g1 s, Err FileNotFoundError)
      | Some _ =>
          match tb_open s (default_name fname) MWrite None with
          | Err e => (set_glob g1 s, Err e)
          | Ok s1 =>
              match e_convert (listing (ss_files s) (removelast p)) fname x true "" [] (ss_glob s) [] with
              | (gh, Err e) => (set_glob (fst gh) s1, Err e)
              | (gh, Ok _) =>
                  let s2 := set_glob (fst gh) s1 in
                  match parse_sifname (s2l (base_name sifname)) with
                  | Err e => (s2, Err e)
                  | Ok (fp, l, n, _) =>
                      match file_data (snd gh) with
                      | Err e => (s2, Err e)
                      | Ok es =>
                          let s3 := hold (ss_next s) (snd gh) s2 in
                          match get_data (l2s (fp ++ l ++ n)) es with
                          | Err e => (s3, Err e)
                          | Ok (k, o) => (s3, Ok (GData (ss_next s) k o))
                          end
                      end
                  end
              end
          end
      end
  end.
(** open_hdf5, file.py:17-26 and 57-113, with mode r *)
Definition s_open_hdf5 (s : sess) (name : string) : sess * Res given_back :=
  let at_ := abs_path (ss_cwd s) name in
  match tb_open s (path_text at_) MRead (Some at_) with
  | Err e => (s, Err e)
  | Ok s1 =>
      let h := match on_disk s at_ with Some h => h | None => [] end in
      match file_data h with
      | Err e => (s1, Err e)
      | Ok es => (hold (ss_next s) h s1, Ok (GFile (ss_next s) es))
      end
  end.
(** the files held by File objects, in the module's set _open_files *)
Definition held (s : sess) : list nat := map fst (filter (fun e => match hn_file (snd e) with Some _ => true | None => false end) (ss_open s)).
Definition s_step (s : sess) (c : scall) : sess * Res given_back :=
  match c with
  | CConvert n o a u p l => s_convert s n o a u p l
  | COpenSif n => s_open_sif s n
  | COpenHdf5 n => s_open_hdf5 s n
  (* File.close or SifData.close, file.py:169-184: only on an object that exists *)
  | CClose id => (if existsb (Nat.eqb id) (held s) then tb_close id s else s, Ok GNone)
  (* close_all_files, file.py:45-49: the set changes while it is gone through, so
     that one file is closed (whichever comes first) and RuntimeError raised *)
  | CCloseAll first => match held s with
                       | [] => (s, Ok GNone)
                       | l => (tb_close (nth (Nat.modulo first (length l)) l 0%nat) s, Err RuntimeError)
                       end
  | CChdir p => (mkSs (ss_glob s) (abs_path (ss_cwd s) p) (ss_files s) (ss_disk s) (ss_open s) (ss_next s), Ok GNone)
  | CFiles fs => (mkSs (ss_glob s) (ss_cwd s) fs (ss_disk s) (ss_open s) (ss_next s), Ok GNone)
  end.
(** Calls one after the other (exceptions are caught by the program), with their
    results. *)
Fixpoint s_run (s : sess) (cs : list scall) : sess * list (Res given_back) :=
  match cs with
  | [] => (s, [])
  | c :: r => let (s1, a) := s_step s c in let (s2, as_) := s_run s1 r in (s2, a :: as_)
  end.
