(** * Schema: record descriptors and atoms of sequentialparser/parsers.py.

    Columns are listed in the order PyTables gives them: by pos, equal
    positions by name (BRIGAC lines 1511-1512, WSURFACE lines 2391-2394). *)
From Verif Require Import Base Flt H5.
Open Scope string_scope.
Open Scope list_scope.

Definition ints (l : list string) : descr := map (fun n => (n, TI)) l.
Definition reals (l : list string) : descr := map (fun n => (n, TF)) l.

(** hierarch_rec, parsers.py:536-544. *)
Definition d_hierarch : descr := ints ["nfield"; "ihref"; "iselty"; "indsel"; "islevl";
  "itref"; "ihpref"; "nsub"].
(** text_rec, parsers.py:604-608. *)
Definition d_text : descr := ints ["type"; "subtype"; "nrecs"; "nbyte"].
(** ident_rec, parsers.py:645-648. *)
Definition d_ident : descr := ints ["slevel"; "seltyp"; "selmod"].
(** td_rec, parsers.py:687-692. *)
Definition d_td : descr := ints ["nfield"; "idno"; "codnam"; "codtxt"] ++ [("name", TS 64)].
(** gnode_rec, parsers.py:744-748. *)
Definition d_gnode : descr := ints ["nodex"; "nodeno"; "ndof"; "odof"].
(** gcoord_rec, parsers.py:758-762. *)
Definition d_gcoord : descr := ints ["nodeno"] ++ reals ["xcoord"; "ycoord"; "zcoord"].
(** gelmnt1_rec, parsers.py:772-776. *)
Definition d_gelmnt1 : descr := ints ["elnox"; "elno"; "eltyp"; "eltyad"].
(** gelmnt2_rec, parsers.py:812-818. *)
Definition d_gelmnt2 : descr := ints ["subno"; "slevel"; "stype"; "addno"] ++ [("t", TV 12
  TF)] ++ ints ["nnod"].
(** gelref1_rec, parsers.py:853-865. *)
Definition d_gelref1 : descr := ints ["elno"; "matno"; "addno"; "intno"; "mintno";
  "strano"; "streno"; "strepono"; "geono"; "fixno"; "eccno"; "transno"].
(** geccen_rec, parsers.py:930-934. *)
Definition d_geccen : descr := ints ["eccno"] ++ reals ["ex"; "ey"; "ez"].
(** gunivec_rec, parsers.py:942-946. *)
Definition d_gunivec : descr := ints ["transno"] ++ reals ["unix"; "uniy"; "uniz"].
(** gelth_rec, parsers.py:954-957. *)
Definition d_gelth : descr := ints ["geono"] ++ reals ["th"] ++ ints ["nint"].
(** gbeamg_rec, parsers.py:965-981. *)
Definition d_gbeamg : descr := ints ["geono"] ++ reals ["void"; "area"; "ix"; "iy"; "iz";
  "iyz"; "wxmin"; "wymin"; "wzmin"; "shary"; "sharz"; "shceny"; "shcenz"; "sy"; "sz"].
(** GBARM_rec, parsers.py:989-997. *)
Definition d_GBARM : descr := ints ["geono"] ++ reals ["hz"; "bt"; "bb"; "sfy"; "sfz"] ++
  ints ["nloby"; "nlobz"].
(** GBOX_rec, parsers.py:1005-1015. *)
Definition d_GBOX : descr := ints ["geono"] ++ reals ["hz"; "ty"; "t_b"; "tt"; "by"] ++
  ints ["sfy"; "sfz"; "nloby"; "nlobz"].
(** GCHAN_rec, parsers.py:1023-1034. *)
Definition d_GCHAN : descr := ints ["geono"] ++ reals ["hz"; "ty"; "by"; "tz"] ++ ints
  ["sfy"; "sfz"; "empty"; "k"; "nloby"; "nlobz"].
(** GCHANR_rec, parsers.py:1042-1054. *)
Definition d_GCHANR : descr := ints ["geono"] ++ reals ["hz"; "ty"; "by"; "tz"] ++ ints
  ["sfy"; "sfz"; "empty"; "k"; "r"; "nloby"; "nlobz"].
(** GDOBO_rec, parsers.py:1062-1072. *)
Definition d_GDOBO : descr := ints ["geono"] ++ reals ["hz"; "ty"; "by"; "tt"; "t_b"] ++
  ints ["sfy"; "sfz"; "nloby"; "nlobz"].
(** GIORH_rec, parsers.py:1080-1092. *)
Definition d_GIORH : descr := ints ["geono"] ++ reals ["hz"; "ty"; "bt"; "tt"; "bb";
  "t_b"] ++ ints ["sfy"; "sfz"; "nlobyt"; "nlobyb"; "nlobz"].
(** GIORHR_rec, parsers.py:1100-1114. *)
Definition d_GIORHR : descr := ints ["geono"] ++ reals ["hz"; "ty"; "bt"; "tt"; "bb";
  "t_b"] ++ ints ["sfy"; "sfz"] ++ reals ["rt"; "rb"] ++ ints ["nlobyt"; "nlobyb";
  "nlobz"].
(** GLSEC_rec, parsers.py:1122-1132. *)
Definition d_GLSEC : descr := ints ["geono"] ++ reals ["hz"; "ty"; "by"; "tz"] ++ ints
  ["sfy"; "sfz"] ++ reals ["k"] ++ ints ["nloby"; "nlobz"].
(** GLSECR_rec, parsers.py:1140-1151. *)
Definition d_GLSECR : descr := ints ["geono"] ++ reals ["hz"; "ty"; "by"; "tz"] ++ ints
  ["sfy"; "sfz"] ++ reals ["k"; "r"] ++ ints ["nloby"; "nlobz"].
(** GPIPE_rec, parsers.py:1159-1167. *)
Definition d_GPIPE : descr := ints ["geono"] ++ reals ["di"; "dy"; "t"] ++ ints ["sfy";
  "sfz"; "ncir"; "nrad"].
(** GUSYI_rec, parsers.py:1175-1189. *)
Definition d_GUSYI : descr := ints ["geono"] ++ reals ["hz"; "ty"; "bt"; "b1"; "tt"; "bb";
  "b2"; "t_b"] ++ ints ["sfy"; "sfz"; "nlobyt"; "nlobyb"; "nlobz"].
(** gsetmemb_rec, parsers.py:1198-1203. *)
Definition d_gsetmemb : descr := ints ["nfield"; "isref"; "index"; "istype"; "isorig"].
(** misosel_rec, parsers.py:1237-1243. *)
Definition d_misosel : descr := ints ["matno"] ++ reals ["young"; "poiss"; "rho"; "damp";
  "alpha"].
(** sconcept_rec, parsers.py:1253-1260. *)
Definition d_sconcept : descr := ints ["nfield"; "ircon"; "scontype"; "sconrole";
  "irparent"; "npart"; "njoin"].
(** sconmesh_rec, parsers.py:1319-1324. *)
Definition d_sconmesh : descr := ints ["nfield"; "ircon"; "numrep"; "typrep"; "nferep"].
(** bnbcd_rec, parsers.py:1363-1365. *)
Definition d_bnbcd : descr := ints ["nodeno"; "ndof"].
(** bldep_rec, parsers.py:1400-1404. *)
Definition d_bldep : descr := ints ["nodeno"; "cnod"; "ndof"; "ndep"].
(** beuslo_rec, parsers.py:1437-1445. *)
Definition d_beuslo : descr := ints ["llc"; "lotyp"; "complx"; "layer"; "elno"; "ndof";
  "intno"; "side"].
(** BGRAV_rec, parsers.py:1485-1492. *)
Definition d_BGRAV : descr := ints ["llc"] ++ reals ["empty1"; "empty2"] ++ ints ["opt"]
  ++ reals ["gx"; "gy"; "gz"].
(** BRIGAC_rec, parsers.py:1503-1523. *)
Definition d_BRIGAC : descr := ints ["llc"] ++ reals ["empty1"] ++ ints ["complx"] ++
  reals ["empty2"; "xcoord"; "ycoord"; "zcoord"; "empty3"; "raccl1"; "raccl2"; "raccl3";
  "raccl4"; "raccl5"; "raccl6"; "iaccl1"; "iaccl2"; "iaccl3"; "iaccl4"; "iaccl5";
  "iaccl6"].
(** XSUPTRAN_rec, parsers.py:1555-1558. *)
Definition d_XSUPTRAN : descr := ints ["nfield"; "itref"] ++ [("t", TV 4 (TV 4 TF))].
(** compdef_rec, parsers.py:1593-1596. *)
Definition d_compdef : descr := ints ["nfield"; "ir"; "lenrec"].
(** rdpoints_rec, parsers.py:1632-1641. *)
Definition d_rdpoints : descr := ints ["nfield"; "ispalt"; "iielno"; "icoref"; "ieltyp";
  "nsp"; "ijkdim"; "nsptra"; "nlay"].
(** rdielcor_rec, parsers.py:1715-1718. *)
Definition d_rdielcor : descr := ints ["nfield"; "icoref"; "igrid"].
(** rdresref_rec, parsers.py:1784-1791. *)
Definition d_rdresref : descr := ints ["nfield"; "ires"; "irno"; "ieres"; "icalty";
  "icompl"; "numtyp"].
(** rxxxxcmb_rec, parsers.py:1835-1839. *)
Definition d_rxxxxcmb : descr := ints ["nfield"; "ires"; "icompl"; "nblc"].
(** rvnodres_rec, parsers.py:1875-1880. *)
Definition d_rvnodres : descr := ints ["nfield"; "ires"; "iinod"; "irdva"; "itrans"].
(** rvelmres_rec, parsers.py:1926-1931. *)
Definition d_rvelmres : descr := ints ["nfield"; "ires"; "iielno"; "ispalt"; "ir"].
(** wbodcon_rec, parsers.py:1986-1990. *)
Definition d_wbodcon : descr := ints ["nfield"; "ibcond"; "ibody"; "numcon"].
(** wdresref_rec, parsers.py:2022-2026. *)
Definition d_wdresref : descr := ints ["nfield"; "iwres"; "nresrf"; "numtyp"].
(** wglobdef_rec, parsers.py:2066-2071. *)
Definition d_wglobdef : descr := ints ["nfield"] ++ reals ["g"; "ro"] ++ ints ["idepth"]
  ++ reals ["depth"].
(** wbody_rec, parsers.py:2097-2114. *)
Definition d_wbody : descr := ints ["nfield"; "ibcond"] ++ reals ["clenb"; "bmass";
  "wsarea"; "wparea"; "vol"; "xcg"; "ycg"; "zcg"; "xcb"; "ycb"; "zcb"; "xrb"; "yrb";
  "zrb"] ++ [("t", TV 4 (TV 4 TF))].
(** w1matrix_rec, parsers.py:2137-2144. *)
Definition d_w1matrix : descr := ints ["nfield"; "imatrx"; "ibconi"; "ibconj"; "iwres";
  "imtyp"] ++ [("hmat", TV 6 (TV 6 TF))].
(** wcommon1_rec, parsers.py:2169-2174. *)
Definition d_wcommon1 : descr := ints ["nfield"; "ibcond"; "iwres"; "icompl"] ++ [("data",
  TV 6 TC)].
(** W1SFORCE_rec, parsers.py:2203-2209. *)
Definition d_W1SFORCE : descr := ints ["nfield"; "ibcond"; "isect"; "iwres"; "icompl"] ++
  [("data", TV 6 TC)].
(** W2HDRIFT_rec, parsers.py:2238-2242. *)
Definition d_W2HDRIFT : descr := ints ["nfield"; "ibcond"; "iwres"] ++ [("shfor", TV 3
  TF)].
(** W2MDRIFT_rec, parsers.py:2263-2267. *)
Definition d_W2MDRIFT : descr := ints ["nfield"; "ibcond"; "iwres"] ++ [("smfor", TV 6
  TF)].
(** WFKPOINT_rec, parsers.py:2292-2295. *)
Definition d_WFKPOINT : descr := ints ["nfield"; "ifkpnt"] ++ [("fkpnt", TV 3 TF)].
(** WFLUIDKN_rec, parsers.py:2316-2322. *)
Definition d_WFLUIDKN : descr := ints ["nfield"; "iwres"; "ifkpnt"; "icompl"] ++ [("p",
  TC)] ++ [("v", TV 3 TC)].
(** WSECTION_rec, parsers.py:2358-2366. *)
Definition d_WSECTION : descr := ints ["nfield"; "ibody"; "isect"; "isecty"; "secusr"] ++
  [("p1", TV 3 TF); ("p2", TV 3 TF); ("p3", TV 3 TF)].
(** WSURFACE_rec, parsers.py:2386-2394. *)
Definition d_WSURFACE : descr := ints ["nfield"; "iwres"; "indxwr"; "nnode"; "icompl";
  "icompx"; "icompy"; "icompz"].
(** WINPUT_rec, parsers.py:2440-2443. *)
Definition d_WINPUT : descr := ints ["nfield"; "ibcond"] ++ [("t", TV 4 (TV 4 TF))].
(** W1PANPRE_rec, parsers.py:2462-2471. *)
Definition d_W1PANPRE : descr := ints ["nfield"; "ibcond"; "iwres"; "ippan"; "isymm1";
  "icompl"] ++ [("p", TC)] ++ ints ["ipan"; "isymm2"].

(** The dict `descriptors` (filled throughout parsers.py). *)
Definition descriptors : list (string * descr) := [
  ("HIERARCH", d_hierarch);
  ("DATE", d_text);
  ("TEXT", d_text);
  ("IDENT", d_ident);
  ("GNODE", d_gnode);
  ("GCOORD", d_gcoord);
  ("GELMNT1", d_gelmnt1);
  ("GELMNT2", d_gelmnt2);
  ("GELREF1", d_gelref1);
  ("GECCEN", d_geccen);
  ("GUNIVEC", d_gunivec);
  ("GELTH", d_gelth);
  ("GBEAMG", d_gbeamg);
  ("GBARM", d_GBARM);
  ("GBOX", d_GBOX);
  ("GCHAN", d_GCHAN);
  ("GCHANR", d_GCHANR);
  ("GDOBO", d_GDOBO);
  ("GIORH", d_GIORH);
  ("GIORHR", d_GIORHR);
  ("GLSEC", d_GLSEC);
  ("GLSECR", d_GLSECR);
  ("GPIPE", d_GPIPE);
  ("GUSYI", d_GUSYI);
  ("GSETMEMB", d_gsetmemb);
  ("MISOSEL", d_misosel);
  ("SCONCEPT", d_sconcept);
  ("SCONMESH", d_sconmesh);
  ("BNBCD", d_bnbcd);
  ("BLDEP", d_bldep);
  ("BEUSLO", d_beuslo);
  ("BGRAV", d_BGRAV);
  ("BRIGAC", d_BRIGAC);
  ("RSUPTRAN", d_XSUPTRAN);
  ("HSUPTRAN", d_XSUPTRAN);
  ("RDPOINTS", d_rdpoints);
  ("RDIELCOR", d_rdielcor);
  ("RDRESREF", d_rdresref);
  ("RBLODCMB", d_rxxxxcmb);
  ("RDRESCMB", d_rxxxxcmb);
  ("RVNODACC", d_rvnodres);
  ("RVNODDIS", d_rvnodres);
  ("RVNODVEL", d_rvnodres);
  ("RVFORCES", d_rvelmres);
  ("RVSTRAIN", d_rvelmres);
  ("RVSTRESS", d_rvelmres);
  ("WBODCON", d_wbodcon);
  ("WDRESREF", d_wdresref);
  ("WGLOBDEF", d_wglobdef);
  ("WBODY", d_wbody);
  ("W1MATRIX", d_w1matrix);
  ("W1SFORCE", d_W1SFORCE);
  ("W2HDRIFT", d_W2HDRIFT);
  ("W2MDRIFT", d_W2MDRIFT);
  ("WFKPOINT", d_WFKPOINT);
  ("WFLUIDKN", d_WFLUIDKN);
  ("WSECTION", d_WSECTION);
  ("WSURFACE", d_WSURFACE);
  ("WINPUT", d_WINPUT);
  ("W1PANPRE", d_W1PANPRE);
  ("TDMATER", d_td);
  ("TDSECT", d_td);
  ("TDSETNAM", d_td);
  ("TDSUPNAM", d_td);
  ("TSLAYER", d_td);
  ("TDSCONC", d_td);
  ("TDLOAD", d_td);
  ("TDRESREF", d_td);
  ("TDBODNAM", d_td);
  ("TDRSNAM", d_td);
  ("TDSCATTER", d_td);
  ("RDFORCES", d_compdef);
  ("RDNODRES", d_compdef);
  ("RDSTRAIN", d_compdef);
  ("RDSTRESS", d_compdef);
  ("RDELNFOR", d_compdef);
  ("W1EXFORC", d_wcommon1);
  ("W1MOTION", d_wcommon1);
  ("W2EXFDIF", d_wcommon1);
  ("W2EXFSUM", d_wcommon1)].

(** The dict `atoms`: name, element type of each companion array. *)
Definition atoms : list (string * descr) := [
  ("HIERARCH", [("ihsref", TI)]);
  ("DATE", [("recs", TS 72)]);
  ("TEXT", [("recs", TS 72)]);
  ("GELMNT1", [("nodin", TI)]);
  ("GELMNT2", [("nod", TI)]);
  ("GELREF1", [("geono", TI); ("fixno", TI); ("eccno", TI); ("transno", TI)]);
  ("GSETMEMB", [("irmemb", TI)]);
  ("SCONCEPT", [("irpart", TI); ("irjoin", TI)]);
  ("SCONMESH", [("irferep", TI)]);
  ("BNBCD", [("fix", TI)]);
  ("BLDEP", [("deps", TV 3 TF)]);
  ("BEUSLO", [("rload", TF); ("iload", TF)]);
  ("RDPOINTS", [("respoint", TV 4 TF); ("xform", TV 3 (TV 3 TF))]);
  ("RDIELCOR", [("gamma", TF); ("beta", TF); ("alpha", TF); ("layers", TV 2 TF)]);
  ("RDRESREF", [("reftyps", TV 3 TF)]);
  ("RBLODCMB", [("blcs", TV 3 TF)]);
  ("RDRESCMB", [("rcs", TV 3 TF)]);
  ("RVNODACC", [("acc", TF)]);
  ("RVNODDIS", [("dis", TF)]);
  ("RVNODVEL", [("vel", TF)]);
  ("RVFORCES", [("force", TF)]);
  ("RVSTRAIN", [("strain", TF)]);
  ("RVSTRESS", [("stress", TF)]);
  ("WBODCON", [("refcond", TV 3 TF)]);
  ("WDRESREF", [("dir", TV 2 TF); ("freq", TV 2 TF); ("time", TV 2 TF)]);
  ("WSURFACE", [("zelev", TV 4 TC)]);
  ("TDMATER", [("text", TS 64)]);
  ("TDSECT", [("text", TS 64)]);
  ("TDSETNAM", [("text", TS 64)]);
  ("TDSUPNAM", [("text", TS 64)]);
  ("TSLAYER", [("text", TS 64)]);
  ("TDSCONC", [("text", TS 64)]);
  ("TDLOAD", [("text", TS 64)]);
  ("TDRESREF", [("text", TS 64)]);
  ("TDBODNAM", [("text", TS 64)]);
  ("TDRSNAM", [("text", TS 64)]);
  ("TDSCATTER", [("text", TS 64)]);
  ("RDFORCES", [("icomp", TI)]);
  ("RDNODRES", [("icomp", TI)]);
  ("RDSTRAIN", [("icomp", TI)]);
  ("RDSTRESS", [("icomp", TI)]);
  ("RDELNFOR", [("icomp", TI)])].

(** elem_types, parsers.py:71-80: number of nodes of each element type. *)
Definition elem_types : list (Z * Z) :=
  [(15, 2); (16, 2); (18, 1); (23, 3); (24, 4); (25, 3); (26, 6); (28, 8)]%Z.

Definition sget {V} (n : string) (d : list (string * V)) : option V := dget String.eqb n d.
Definition columns (n : string) : descr := match sget n descriptors with Some d => d | None => [] end.
Definition atoms_of (n : string) : descr := match sget n atoms with Some d => d | None => [] end.
(** name.lower() *)
Definition lower_s (n : string) : string := l2s (map lower (s2l n)).
