(** * FieldSpec: the names of the numbers of a record.

    The fields of each record type in the order of the SESAM interface file
    format, under the names that the documentation of the format gives them, and
    the kind of each: whole number, real, complex number, text, vector, matrix.
    The lists at the end of a record have a name too.  The names and kinds are
    those of the classes *_rec and the dict `atoms` (parsers.py:536-2474); of the
    factors sfy, sfz and the radius r as whole numbers see C56. *)
From Verif Require Import Base Flt SeqFile H5 SeqSpec StoreSpec.
Open Scope string_scope.
Open Scope Z_scope.
Open Scope list_scope.

Fixpoint words_aux (acc : string) (s : string) : list string :=
  match s with
  | EmptyString => [acc]
  | String a r => if Ascii.eqb a " " then acc :: words_aux "" r else words_aux (acc ++ String a "") r
  end.
Definition F (t : ctype) (s : string) : list (string * ctype) := map (fun w => (w, t)) (words_aux "" s).
Definition I := F TI.
Definition R := F TF.

(** Record type; fields; lists. *)
Definition record_fields : list (string * list (string * ctype) * list (string * ctype)) := [
  ("HIERARCH", I "nfield ihref iselty indsel islevl itref ihpref nsub", I "ihsref");
  ("DATE", I "type subtype nrecs nbyte", F (TS 72) "recs");
  ("TEXT", I "type subtype nrecs nbyte", F (TS 72) "recs");
  ("IDENT", I "slevel seltyp selmod", []);
  ("TDMATER", I "nfield idno codnam codtxt" ++ F (TS 64) "name", F (TS 64) "text");
  ("TDSECT", I "nfield idno codnam codtxt" ++ F (TS 64) "name", F (TS 64) "text");
  ("TDSETNAM", I "nfield idno codnam codtxt" ++ F (TS 64) "name", F (TS 64) "text");
  ("TDSUPNAM", I "nfield idno codnam codtxt" ++ F (TS 64) "name", F (TS 64) "text");
  ("TSLAYER", I "nfield idno codnam codtxt" ++ F (TS 64) "name", F (TS 64) "text");
  ("TDSCONC", I "nfield idno codnam codtxt" ++ F (TS 64) "name", F (TS 64) "text");
  ("TDLOAD", I "nfield idno codnam codtxt" ++ F (TS 64) "name", F (TS 64) "text");
  ("TDRESREF", I "nfield idno codnam codtxt" ++ F (TS 64) "name", F (TS 64) "text");
  ("TDBODNAM", I "nfield idno codnam codtxt" ++ F (TS 64) "name", F (TS 64) "text");
  ("TDRSNAM", I "nfield idno codnam codtxt" ++ F (TS 64) "name", F (TS 64) "text");
  ("TDSCATTER", I "nfield idno codnam codtxt" ++ F (TS 64) "name", F (TS 64) "text");
  ("GNODE", I "nodex nodeno ndof odof", []);
  ("GCOORD", I "nodeno" ++ R "xcoord ycoord zcoord", []);
  ("GELMNT1", I "elnox elno eltyp eltyad", I "nodin");
  ("GELMNT2", I "subno slevel stype addno" ++ F (TV 12 TF) "t" ++ I "nnod", I "nod");
  ("GELREF1", I "elno matno addno intno mintno strano streno strepono geono fixno eccno transno", I
    "geono fixno eccno transno");
  ("GECCEN", I "eccno" ++ R "ex ey ez", []);
  ("GUNIVEC", I "transno" ++ R "unix uniy uniz", []);
  ("GELTH", I "geono" ++ R "th" ++ I "nint", []);
  ("GBEAMG", I "geono" ++ R "void area ix iy iz iyz wxmin wymin wzmin shary sharz shceny shcenz sy sz", []);
  ("GBARM", I "geono" ++ R "hz bt bb sfy sfz" ++ I "nloby nlobz", []);
  ("GBOX", I "geono" ++ R "hz ty t_b tt by" ++ I "sfy sfz nloby nlobz", []);
  ("GCHAN", I "geono" ++ R "hz ty by tz" ++ I "sfy sfz empty k nloby nlobz", []);
  ("GCHANR", I "geono" ++ R "hz ty by tz" ++ I "sfy sfz empty k r nloby nlobz", []);
  ("GDOBO", I "geono" ++ R "hz ty by tt t_b" ++ I "sfy sfz nloby nlobz", []);
  ("GIORH", I "geono" ++ R "hz ty bt tt bb t_b" ++ I "sfy sfz nlobyt nlobyb nlobz", []);
  ("GIORHR", I "geono" ++ R "hz ty bt tt bb t_b" ++ I "sfy sfz" ++ R "rt rb" ++ I "nlobyt nlobyb nlobz", []);
  ("GLSEC", I "geono" ++ R "hz ty by tz" ++ I "sfy sfz" ++ R "k" ++ I "nloby nlobz", []);
  ("GLSECR", I "geono" ++ R "hz ty by tz" ++ I "sfy sfz" ++ R "k r" ++ I "nloby nlobz", []);
  ("GPIPE", I "geono" ++ R "di dy t" ++ I "sfy sfz ncir nrad", []);
  ("GUSYI", I "geono" ++ R "hz ty bt b1 tt bb b2 t_b" ++ I "sfy sfz nlobyt nlobyb nlobz", []);
  ("GSETMEMB", I "nfield isref index istype isorig", I "irmemb");
  ("MISOSEL", I "matno" ++ R "young poiss rho damp alpha", []);
  ("SCONCEPT", I "nfield ircon scontype sconrole irparent npart njoin", I "irpart irjoin");
  ("SCONMESH", I "nfield ircon numrep typrep nferep", I "irferep");
  ("BNBCD", I "nodeno ndof", I "fix");
  ("BLDEP", I "nodeno cnod ndof ndep", F (TV 3 TF) "deps");
  ("BEUSLO", I "llc lotyp complx layer elno ndof intno side", R "rload iload");
  ("BGRAV", I "llc" ++ R "empty1 empty2" ++ I "opt" ++ R "gx gy gz", []);
  ("BRIGAC", I "llc" ++ R "empty1" ++ I "complx" ++ R
    "empty2 xcoord ycoord zcoord empty3 raccl1 raccl2 raccl3 raccl4 raccl5 raccl6 iaccl1 iaccl2 iaccl3 iaccl4 iaccl5 iaccl6",
    []);
  ("RSUPTRAN", I "nfield itref" ++ F (TV 4 (TV 4 TF)) "t", []);
  ("HSUPTRAN", I "nfield itref" ++ F (TV 4 (TV 4 TF)) "t", []);
  ("RDFORCES", I "nfield ir lenrec", I "icomp");
  ("RDNODRES", I "nfield ir lenrec", I "icomp");
  ("RDSTRAIN", I "nfield ir lenrec", I "icomp");
  ("RDSTRESS", I "nfield ir lenrec", I "icomp");
  ("RDELNFOR", I "nfield ir lenrec", I "icomp");
  ("RDPOINTS", I "nfield ispalt iielno icoref ieltyp nsp ijkdim nsptra nlay", F (TV 4 TF) "respoint" ++ F (TV
    3 (TV 3 TF)) "xform");
  ("RDIELCOR", I "nfield icoref igrid", R "gamma beta alpha" ++ F (TV 2 TF) "layers");
  ("RDRESREF", I "nfield ires irno ieres icalty icompl numtyp", F (TV 3 TF) "reftyps");
  ("RBLODCMB", I "nfield ires icompl nblc", F (TV 3 TF) "blcs");
  ("RDRESCMB", I "nfield ires icompl nblc", F (TV 3 TF) "rcs");
  ("RVNODACC", I "nfield ires iinod irdva itrans", R "acc");
  ("RVNODDIS", I "nfield ires iinod irdva itrans", R "dis");
  ("RVNODVEL", I "nfield ires iinod irdva itrans", R "vel");
  ("RVFORCES", I "nfield ires iielno ispalt ir", R "force");
  ("RVSTRAIN", I "nfield ires iielno ispalt ir", R "strain");
  ("RVSTRESS", I "nfield ires iielno ispalt ir", R "stress");
  ("WBODCON", I "nfield ibcond ibody numcon", F (TV 3 TF) "refcond");
  ("WDRESREF", I "nfield iwres nresrf numtyp", F (TV 2 TF) "dir freq time");
  ("WGLOBDEF", I "nfield" ++ R "g ro" ++ I "idepth" ++ R "depth", []);
  ("WBODY", I "nfield ibcond" ++ R "clenb bmass wsarea wparea vol xcg ycg zcg xcb ycb zcb xrb yrb zrb" ++ F
    (TV 4 (TV 4 TF)) "t", []);
  ("W1MATRIX", I "nfield imatrx ibconi ibconj iwres imtyp" ++ F (TV 6 (TV 6 TF)) "hmat", []);
  ("W1EXFORC", I "nfield ibcond iwres icompl" ++ F (TV 6 TC) "data", []);
  ("W1MOTION", I "nfield ibcond iwres icompl" ++ F (TV 6 TC) "data", []);
  ("W2EXFDIF", I "nfield ibcond iwres icompl" ++ F (TV 6 TC) "data", []);
  ("W2EXFSUM", I "nfield ibcond iwres icompl" ++ F (TV 6 TC) "data", []);
  ("W1SFORCE", I "nfield ibcond isect iwres icompl" ++ F (TV 6 TC) "data", []);
  ("W2HDRIFT", I "nfield ibcond iwres" ++ F (TV 3 TF) "shfor", []);
  ("W2MDRIFT", I "nfield ibcond iwres" ++ F (TV 6 TF) "smfor", []);
  ("WFKPOINT", I "nfield ifkpnt" ++ F (TV 3 TF) "fkpnt", []);
  ("WFLUIDKN", I "nfield iwres ifkpnt icompl" ++ F TC "p" ++ F (TV 3 TC) "v", []);
  ("WSECTION", I "nfield ibody isect isecty secusr" ++ F (TV 3 TF) "p1 p2 p3", []);
  ("WSURFACE", I "nfield iwres indxwr nnode icompl icompx icompy icompz", F (TV 4 TC) "zelev");
  ("WINPUT", I "nfield ibcond" ++ F (TV 4 (TV 4 TF)) "t", []);
  ("W1PANPRE", I "nfield ibcond iwres ippan isymm1 icompl" ++ F TC "p" ++ I "ipan isymm2", [])].

(** [named h w n j x c]: in the table of record type [n] of the group [w] row [j]
    has the cell [c] in the column [x], and there is one column of this name. *)
Definition low (a : ascii) : ascii :=
  if (65 <=? Z.of_nat (nat_of_ascii a)) && (Z.of_nat (nat_of_ascii a) <=? 90) then ascii_of_nat (nat_of_ascii a + 32) else a.
Definition table_name (n : string) : string := string_of_list_ascii (map low (list_ascii_of_string n)).
Definition named (h : h5) (w : path) (n : string) (j : nat) (x : string) (c : cell) : Prop :=
  exists d rows row i t, h5_find (w ++ [table_name n]) h = Some (Table d rows) /\ nth_error rows j = Some row /\
    nth_error d i = Some (x, t) /\ (forall i' t', nth_error d i' = Some (x, t') -> i' = i) /\ nth_error row i = Some c.
(** The list [x] of row [j]: the part of the array <type>_<x> that the columns
    <x>_start and <x>_stop mark. *)
Definition listed_as (h : h5) (w : path) (n : string) (j : nat) (x : string) (cs : list cell) : Prop :=
  exists a b t arr, named h w n j (x ++ "_start") (CI a) /\ named h w n j (x ++ "_stop") (CI b) /\
    h5_find (w ++ [table_name n ++ "_" ++ x]%string) h = Some (Arr t arr) /\ 0 <= a <= b /\ b <= Zlen arr /\
    cs = firstn (Z.to_nat (b - a)) (skipn (Z.to_nat a) arr).
(** Record [j] of type [n]: every number under its name, every list under its name. *)
Definition stored_by_name (h : h5) (w : path) (n : string) (fs ls : list (string * ctype)) (j : nat) (e : entry) : Prop :=
  length (e_row e) = length fs /\ length (e_data e) = length ls /\
  (forall i x t v, nth_error fs i = Some (x, t) -> nth_error (e_row e) i = Some v ->
     exists c, stored t v c /\ named h w n j x c) /\
  (forall m x t vs, nth_error ls m = Some (x, t) -> nth_error (e_data e) m = Some vs ->
     exists cs, Forall2 (stored t) vs cs /\ listed_as h w n j x cs).

(** The dimensions, radii and factors of the cross sections are real numbers. *)
Definition section_reals : list (string * string) := flat_map (fun nx => map (fun x => (fst nx, x)) (words_aux "" (snd nx)))
  [("GBARM", "hz bt bb sfy sfz"); ("GBOX", "hz ty t_b tt by sfy sfz"); ("GCHAN", "hz ty by tz sfy sfz");
   ("GCHANR", "hz ty by tz sfy sfz r"); ("GDOBO", "hz ty by tt t_b sfy sfz"); ("GIORH", "hz ty bt tt bb t_b sfy sfz");
   ("GIORHR", "hz ty bt tt bb t_b sfy sfz rt rb"); ("GLSEC", "hz ty by tz sfy sfz"); ("GLSECR", "hz ty by tz sfy sfz r");
   ("GPIPE", "di dy t sfy sfz"); ("GUSYI", "hz ty bt b1 tt bb b2 t_b sfy sfz")].
(** Of these, the ones in columns of whole numbers. *)
Definition section_cut : list (string * string) :=
  ("GCHANR", "r") :: flat_map (fun n => [(n, "sfy"); (n, "sfz")])
    ["GBOX"; "GCHAN"; "GCHANR"; "GDOBO"; "GIORH"; "GIORHR"; "GLSEC"; "GLSECR"; "GPIPE"; "GUSYI"].
