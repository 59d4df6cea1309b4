(** * SeqFile: freesif/sequentialparser/sequentialfiles.py *)
From Verif Require Import Base Flt.
Open Scope string_scope.
Open Scope Z_scope.
Open Scope list_scope.
Open Scope monad_scope.

(** allowed_record_names_str, sequentialfiles.py:14-44. *)
Definition allowed_record_names_str : list string := [
"DATE"; "IDENT"; "IEND"; "TDMATER"; "TDSECT"; "TDSETNAM"; "TDSUPNAM";
"TEXT"; "TSLAYER"; "ACFD"; "ADDATA"; "BEISTE"; "BELFIX"; "BELLAX";
"BELLO2"; "BELOAD1"; "BEDRAG1"; "BEMASS1"; "BEUSLO"; "BEUVLO"; "BEWAKIN";
"BEWALO1"; "BGRAV"; "BLDEP"; "BLDEP"; "BNACCLO"; "BNBCD"; "BNDISPL";
"BNDOF"; "BNINCO"; "BNLOAD"; "BNLOAX"; "BNMASS"; "BNTEMP"; "BNTRCOS";
"BNWALO"; "BRIGAC"; "BRIGDI"; "BRIGVE"; "BQDP"; "GBARM"; "GBEAMG";
"GBOX"; "GCHAN"; "GCHANR"; "GCOORD"; "GCROINT"; "GDOBO"; "GECC";
"GECCEN"; "GELINT"; "GELMNT1"; "GELREF1"; "GELSTRP"; "GELTH"; "GIORH";
"GIORHR"; "GLMASS"; "GLSEC"; "GLSECR"; "GNODE"; "GPIPE"; "GSEPSPEC";
"GSETMEMB"; "GSLAYER"; "GSLPLATE"; "GSLSTIFF"; "GTONP"; "GUNIVEC"; "GUSYI";
"MAXDMP"; "MAXSPR"; "MCNT"; "MGDAMP"; "MGLDAMP"; "MGLMASS"; "MGMASS";
"MGSPRNG"; "MISOAL"; "MISOEML"; "MISOHL"; "MISOHNL"; "MISOPL"; "MISOPL";
"MISOPL"; "MISOSEL"; "MISTEL"; "MORSMEL"; "MORSSEL"; "MORSSOL"; "MSHGLSP";
"MTEMP"; "MTENONL"; "MTRMEL"; "MTRSEL"; "MTRSOL"; "ADDATA"; "AMATRIX";
"AMDACCL"; "AMDDAMP"; "AMDDISP"; "AMDFREQ"; "AMDLOAD"; "AMDMASS"; "AMDSTIFF";
"AMDVELO"; "BLDEP"; "BNBCD"; "BNDISPL"; "BNDOF"; "BNINCO"; "BNLOAD";
"BNMASS"; "BNTRCOS"; "BQDP"; "BSELL"; "GCOORD"; "GELMNT1"; "GELMNT2";
"GELREF1"; "GNODE"; "HIERARCH"; "HSUPSTAT"; "HSUPTRAN"; "MAXDMP"; "MAXSPR";
"MGDAMP"; "MGSPRNG"; "RBLODCMB"; "RDELNFOR"; "RDFORCES"; "RDIELCOR";
"RDMLFACT"; "RDNODBOC"; "RDNODREA"; "RDNODRES"; "RDPOINTS"; "RDRESCMB";
"RDRESREF"; "RDSERIES"; "RDSTRAIN"; "RDSTRESS"; "RDTRANS"; "RSUMLOAD";
"RSUMMASS"; "RSUMREAC"; "RSUPTRAN"; "RVABSCIS"; "RVELNFOR"; "RVFORCES";
"RVNODACC"; "RVNODDIS"; "RVNODVEL"; "RVNODREA"; "RVORDINA"; "RVSTRAIN";
"RVSTRESS"; "TNODE"; "TELEMENT"; "TDRESREF"; "TDSERIES"; "TDSUPNAM";
"W1EXFORC"; "W1MATRIX"; "WIMOTION"; "WISFORCE"; "W2EXFDIF"; "W2EXFSUM";
"W2FLUDIF"; "W2FLUSUM"; "W2HDRIFT"; "W2MDRIFI"; "WBODCON"; "WBODY"; "WDRESREF";
"WFKPOINT"; "WFLUIDKN"; "WGLOBDEF"; "WGRESPON"; "WSCATTER"; "WSECTION";
"WSURFACE"; "TDBODNAM"; "TDRSNAM"; "TDSCATTER"; "TDSCONC"; "SCONCEPT";
"SCONMESH"; "SCONPLIS"; "SPROSELE"; "SPROMATR"; "SPROSEGM"; "SPROHYDR";
"SPROCODE"; "SPROORIE"; "SPROECCE"; "SPROPILE"; "SPROSOIL"; "IRECSIZE"; "W1PANPRE"].

(** allowed_record_names_b, sequentialfiles.py:46-76.  The element 'WISFORCE'
    is a str, not bytes (line 71), so no bytes value equals it: it is absent
    here. *)
Definition allowed_record_names_b : list string :=
  filter (fun n => negb (String.eqb n "WISFORCE")) allowed_record_names_str.

(** Which class: UnformattedFile or FormattedFile. *)
Inductive kind : Set := Unf | Fmt.

(** Reading state.  [f_rest] is the unread content (tell/seek move inside the
    file, so saving and restoring [f_rest] models them); [f_hasrest],
    [f_floatrest] are the attributes hasrest and floatrest.  hasrest does not
    exist before the first read_stringrec (a read_floats before any record was
    read would raise AttributeError); the model starts it at false, and every
    caller in /repo reads a header first. *)
Record infile : Set := mkIn {
  f_kind : kind; f_rest : list ascii; f_hasrest : bool; f_floatrest : list flt }.

Definition F (A : Type) := StM infile A.

(** Text mode reading translates line ends (io.open default newline=None). *)
Fixpoint universal_newlines (l : list ascii) : list ascii :=
  match l with
  | [] => []
  | c :: r =>
      if Ascii.eqb c "013" then
        match r with
        | d :: r' => if Ascii.eqb d nl then nl :: universal_newlines r'
                     else nl :: universal_newlines r
        | [] => [nl]
        end
      else c :: universal_newlines r
  end.

(** UnformattedFile.__init__ (173-180, mode 'r': skips byte 'K') and
    FormattedFile.__init__ (264-270), on the file content. *)
Definition open_in (k : kind) (content : list ascii) : infile :=
  match k with
  | Unf => mkIn Unf (skipn 1 content) false []
  | Fmt => mkIn Fmt (universal_newlines content) false []
  end.

(** file.readline() on text: up to and including the newline. *)
Fixpoint readline (l : list ascii) : list ascii * list ascii :=
  match l with
  | [] => ([], [])
  | c :: r => if Ascii.eqb c nl then ([c], r)
              else let '(a, b) := readline r in (c :: a, b)
  end.

(** UnformattedFile.read_stringrec 182-191; FormattedFile.read_stringrec
    273-276 (readline()[:-1] drops the last character whatever it is). *)
Definition read_stringrec : F (list ascii) := fun s =>
  match f_kind s with
  | Unf =>
      match f_rest s with
      | [] => Err StructError                       (* unpack of b'' *)
      | b :: r =>
          let rlen := code b in
          let rlen := if rlen =? 129 then 128 else rlen in
          let n := Z.to_nat rlen in
          Ok (firstn n r, mkIn Unf (skipn 1 (skipn n r)) false (f_floatrest s))
      end
  | Fmt =>
      let '(line, rest) := readline (f_rest s) in
      Ok (removelast line, mkIn Fmt rest false (f_floatrest s))
  end.

(** UnformattedFile.tofloatrec 193-194 (struct.error unless the length is a
    multiple of four); FormattedFile.tofloatrec 278-280. *)
Definition tofloatrec (k : kind) (s : list ascii) : Res (list flt) :=
  match k with
  | Unf => if Zlen s mod 4 =? 0 then Ok (map unpack_f (chunks 4 s)) else Err StructError
  | Fmt => rmap parse_float (chunks 16 s)
  end.

(** read_floatrec 196-197 (skipfirst) and 283-284 (always skips 8). *)
Definition read_floatrec (skipfirst : nat) : F (list flt) := fun s =>
  (do l <- read_stringrec;
   match f_kind s with
   | Unf => slift (tofloatrec Unf (skipn skipfirst l))
   | Fmt => slift (tofloatrec Fmt (skipn 8 l))
   end) s.

(** bytes.decode() then str.strip() (strip_recname 252-253), or str.strip()
    (341-342).  UTF-8 decoding: any byte >= 128 is taken as a decoding error
    (valid multi-byte sequences are not modelled). *)
Definition decode (l : list ascii) : Res (list ascii) :=
  if forallb (fun c => code c <? 128) l then Ok l else Err UnicodeDecodeError.
Definition strip_recname (k : kind) (l : list ascii) : Res string :=
  match k with
  | Unf => match decode l with Ok d => Ok (l2s (strip is_space_s d)) | Err e => Err e end
  | Fmt => Ok (l2s (strip is_space_s l))
  end.

(** A string record seen as a header: name and floats (201, 294, 140). *)
Definition as_header (k : kind) (l : list ascii) : Res (string * list flt) :=
  dor n <- strip_recname k (firstn 8 l);
  dor fs <- tofloatrec k (skipn 8 l);
  Ok (n, fs).

(** read_headerrec 199-201, 286-294. *)
Definition read_headerrec : F (string * list flt) := fun s =>
  (do l <- read_stringrec; slift (as_header (f_kind s) l)) s.

(** The `while len(floats) < floats_to_read` loop of UnformattedFile.read_floats
    (223-224). [need] is floats_to_read - len(floats) > 0 on entry. *)
Fixpoint read_until (fuel : nat) (need : Z) (skipfirst : nat) : F (list flt) :=
  if need <=? 0 then sret [] else
  match fuel with
  | O => sraise OutOfFuel
  | S k => do a <- read_floatrec skipfirst;
           do b <- read_until k (need - Zlen a) skipfirst;
           sret (a ++ b)
  end.

(** `for _ in range(nrecs): floats += read_floatrec` (313-314). *)
Fixpoint read_lines (n : nat) (skipfirst : nat) : F (list flt) :=
  match n with
  | O => sret []
  | S k => do a <- read_floatrec skipfirst;
           do b <- read_lines k skipfirst;
           sret (a ++ b)
  end.

(** int(ceil(x/4.)) for a positive integer x (310). *)
Definition ceil4 (x : Z) : Z := (x + 3) / 4.

(** read_floats 203-236 and 296-326.  Note: hasrest is set when a rest is left
    but not cleared when the rest is used up without reading (233-234, 323-324). *)
Definition read_floats (n : Z) (skipfirst : nat) : F (list flt) := fun s =>
  if n =? 0 then Ok ([], s) else
  let floatrest := if f_hasrest s then f_floatrest s else [] in
  let toread := n - Zlen floatrest in
  match (if 0 <? toread then
           (do fl <- (match f_kind s with
                      | Unf => read_until (S (length (f_rest s))) toread skipfirst
                      | Fmt => read_lines (Z.to_nat (ceil4 toread)) skipfirst
                      end);
            sret (floatrest ++ fl)) s
         else Ok (floatrest, s)) with
  | Err e => Err e
  | Ok (floats, s') =>
      let rest := slice_from n floats in
      Ok (slice_to n floats,
          mkIn (f_kind s') (f_rest s')
               (match rest with [] => f_hasrest s' | _ => true end) rest)
  end.

Definition allowed (k : kind) : list string :=
  match k with Unf => allowed_record_names_b | Fmt => allowed_record_names_str end.

(** at_headerrec 238-250 (file.read(9)[1:].strip()) and 328-339. *)
Definition at_headerrec : F bool := fun s =>
  let nm := match f_kind s with
            | Unf => strip is_space_b (skipn 1 (firstn 9 (f_rest s)))
            | Fmt => strip is_space_s (firstn 8 (f_rest s))
            end in
  Ok (negb (f_hasrest s) && str_in (l2s nm) (allowed (f_kind s)), s).

(** skip_contrecs 255-258, 344-347. *)
Fixpoint skip_contrecs (fuel : nat) (l : list ascii) : F (string * list flt) :=
  if lascii_eqb (firstn 8 l) blanks8 then
    match fuel with
    | O => sraise OutOfFuel
    | S k => do l' <- read_stringrec; skip_contrecs k l'
    end
  else fun s => slift (as_header (f_kind s) l) s.

Fixpoint read_stringrecs (n : nat) : F (list (list ascii)) :=
  match n with
  | O => sret []
  | S k => do a <- read_stringrec; do b <- read_stringrecs k; sret (a :: b)
  end.

(** string_rec[:8].strip() in allowed_record_names (139): bytes.strip for
    unformatted, str.strip for formatted files. *)
Definition name_allowed (k : kind) (l : list ascii) : bool :=
  let sp := match k with Unf => is_space_b | Fmt => is_space_s end in
  str_in (l2s (strip sp (firstn 8 l))) (allowed k).

(** SequentialFile.skip_restofrecord 95-146. *)
Definition skip_restofrecord (rec_name : string) (rec : list flt) : F (string * list flt) :=
  do r0 <- slift (pyget rec 0);
  if flt_lt r0 f0 then
    (if flt_eq r0 fm5 then (dos read_floatrec 0; read_headerrec) else read_headerrec)
  else if String.eqb (substring 0 2 rec_name) "TD" then
    do r2 <- slift (pyget rec 2);
    do n2 <- slift (int_of r2);
    dos read_stringrecs (Z.to_nat (n2 / 100));
    do r3 <- slift (pyget rec 3);
    do n3 <- slift (int_of r3);
    dos read_stringrecs (Z.to_nat (n3 / 100));
    read_headerrec
  else fun s =>
    (do l <- read_stringrec;
     if lascii_eqb (firstn 8 l) blanks8 then
       skip_contrecs (S (length (f_rest s))) l
     else if name_allowed (f_kind s) l then
       slift (as_header (f_kind s) l)
     else
       do n0 <- slift (int_of r0);
       dos (fun s' => Ok (tt, mkIn (f_kind s') (f_rest s) (f_hasrest s') (f_floatrest s')));  (* seek(pos) *)
       dos read_floats (n0 - 4) 0;
       read_headerrec) s.

(** get_recordcount 148-165: a dict, kept here as counts in first-seen order. *)
Fixpoint count_add (n : string) (d : list (string * Z)) : list (string * Z) :=
  match d with
  | [] => [(n, 1)]
  | (m, c) :: r => if String.eqb n m then (m, c + 1) :: r else (m, c) :: count_add n r
  end.
Fixpoint count_loop (fuel : nat) (rec_name : string) (rec : list flt)
         (d : list (string * Z)) : F (list (string * Z)) :=
  if String.eqb rec_name "" then sret d else
  match fuel with
  | O => sraise OutOfFuel
  | S k => do (n, r) <- skip_restofrecord rec_name rec;
           count_loop k n r (count_add n d)
  end.
Definition get_recordcount : F (list (string * Z)) := fun s =>
  (do (n, r) <- read_headerrec;
   count_loop (S (length (f_rest s))) n r [(n, 1)]) s.
