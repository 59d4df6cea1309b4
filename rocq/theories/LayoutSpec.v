(** * LayoutSpec: the record types.

    For each record type, how a record is laid out on the file and what is to be
    stored for it: the numbers of the header line ([fs], name excluded), the
    continuation part ([bs]), the values of the table row and the data of the
    companion arrays.  Written from the format description of the records;
    the reading functions of [Parsers] are not used. *)
From Verif Require Import Base Flt SeqFile H5 Schema SeqSpec StoreSpec ParserSpec.
From Coq Require Import Permutation.
Open Scope string_scope.
Open Scope Z_scope.
Open Scope list_scope.

Definition nums (l : list flt) : list pyval := map PF l.
(** Tuples of numbers. *)
Definition tuples (ls : list (list flt)) : list pyval := map (fun l => PT (nums l)) ls.
Definition all_len {A} (n : nat) (ls : list (list A)) : Prop := Forall (fun l => length l = n) ls.
(** An m by n matrix of numbers, by rows. *)
Definition matrix (m n : nat) (rows : list (list flt)) : Prop := length rows = m /\ all_len n rows.
(** A count given as a number of the record. *)
Definition count (f : flt) (n : nat) : Prop := trunc_is f (Z.of_nat n).

(** Real and imaginary parts in turn. *)
Definition complexes (l : list (flt * flt)) : list pyval := map (fun c => PC (fst c) (snd c)) l.
Definition parts (l : list (flt * flt)) : list flt := flat_map (fun c => [fst c; snd c]) l.

(** A text line: the text, without blanks at its ends, and blanks around it. *)
Definition white (k : kind) (c : ascii) : Prop :=
  9 <= code c <= 13 \/ code c = 32 \/ (k = Fmt /\ 28 <= code c <= 31).
Definition trim (k : kind) (t : list ascii) : Prop :=
  match t with [] => True | a :: _ => ~ white k a /\ ~ white k (last t blank) end.
Inductive text_line (k : kind) (t : list ascii) : list ascii -> Prop :=
| text_line_intro i j : trim k t -> text_line k t (repeat blank i ++ t ++ repeat blank j).

(** Number of nodes of the element types. *)
Definition node_count : list (Z * nat) :=
  [(15, 2%nat); (16, 2%nat); (18, 1%nat); (23, 3%nat); (24, 4%nat); (25, 3%nat); (26, 6%nat); (28, 8%nat)].
(** Records of a fixed number of numbers: name, how many, how continued. *)
Definition fixed_types : list (string * nat * lead) :=
  [("GNODE", 4%nat, Lead0); ("GCOORD", 4%nat, Lead0); ("GECCEN", 4%nat, Lead0);
   ("GUNIVEC", 4%nat, Lead0); ("GELTH", 3%nat, Lead0);
   ("GBEAMG", 16%nat, Lead8); ("MISOSEL", 6%nat, Lead8); ("BGRAV", 7%nat, Lead8)].
(** Cross sections: name, how many numbers, how many of them optional. *)
Definition section_types : list (string * nat * nat) :=
  [("GBARM", 8, 2); ("GBOX", 10, 2); ("GCHAN", 11, 2); ("GCHANR", 12, 2); ("GDOBO", 10, 2);
   ("GIORH", 12, 3); ("GIORHR", 14, 3); ("GLSEC", 10, 2); ("GLSECR", 11, 2); ("GPIPE", 8, 2)]%nat.
Definition text_types := ["DATE"; "TEXT"].
Definition name_types := ["TDMATER"; "TDSECT"; "TDSETNAM"; "TDSUPNAM"; "TSLAYER"; "TDSCONC";
  "TDLOAD"; "TDRESREF"; "TDBODNAM"; "TDRSNAM"; "TDSCATTER"].
(** Component definitions and the results they describe. *)
Definition comp_types := [("RDFORCES", "RVFORCES"); ("RDNODRES", "RVNODRES"); ("RDSTRAIN", "RVSTRAIN");
  ("RDSTRESS", "RVSTRESS"); ("RDELNFOR", "RVELNFOR")].
Definition combi_types := ["RBLODCMB"; "RDRESCMB"; "WBODCON"].
Definition nodres_types := ["RVNODACC"; "RVNODDIS"; "RVNODVEL"].
Definition elmres_types := ["RVFORCES"; "RVSTRAIN"; "RVSTRESS"].
Definition six_types := ["W1EXFORC"; "W1MOTION"; "W2EXFDIF"; "W2EXFSUM"].

Definition upd {A B} (eqb : A -> A -> bool) (f : A -> option B) (a : A) (b : B) : A -> option B :=
  fun x => if eqb x a then Some b else f x.
Definition pair_eqb {A B} (ea : A -> A -> bool) (eb : B -> B -> bool) (x y : A * B) : bool :=
  (ea (fst x) (fst y) && eb (snd x) (snd y))%bool.
Definition with_elem c e t := mkX (upd Z.eqb (x_elem c) e t) (x_points c) (x_nsp c) (x_compl c) (x_lenrec c).
Definition with_points c icoref loc alt nsp :=
  mkX (x_elem c) (upd Z.eqb (x_points c) icoref loc) (upd (pair_eqb Z.eqb Z.eqb) (x_nsp c) alt nsp)
      (x_compl c) (x_lenrec c).
Definition with_compl c ires v := mkX (x_elem c) (x_points c) (x_nsp c) (upd Z.eqb (x_compl c) ires v) (x_lenrec c).
Definition with_lenrec c key v :=
  mkX (x_elem c) (x_points c) (x_nsp c) (x_compl c) (upd (pair_eqb String.eqb Z.eqb) (x_lenrec c) key v).

(** Reference list of GELREF1: the number itself says -1, then one per node. *)
Definition ref_list (f : flt) (n : nat) (l : list flt) : Prop :=
  (flt_eq f fm1 = true /\ length l = n) \/ (flt_eq f fm1 = false /\ l = []).

(** Result points of RDPOINTS: number, and the coordinates if the number is
    positive. *)
Definition point := (flt * list flt)%type.
Definition point_ok (p : point) : Prop :=
  (flt_lt f0 (fst p) = true /\ length (snd p) = 3%nat) \/ (flt_lt f0 (fst p) = false /\ snd p = []).
Definition point_nums (p : point) : list flt := fst p :: snd p.
Definition point_data (p : point) : list pyval :=
  match snd p with [] => [] | _ => [PT (nums (point_nums p))] end.

(** Grid of RDIELCOR: from RDPOINTS, else the one of the element type. *)
Definition grid_of (c : ctx) (icoref : Z) (loc : Z * Z * Z * Z) : Prop :=
  x_points c icoref = Some loc \/
  (x_points c icoref = None /\ ((icoref = 15 /\ loc = (0, 1, 1, 3)) \/ (icoref = 24 /\ loc = (0, 2, 3, 3)))).

(** WDRESREF: kinds of reference (1 direction, 2 frequency, 3 time) with their
    pairs of numbers. *)
Definition refkind := (flt * list (list flt))%type.
Definition ref_nums (r : refkind) : list flt := fst r :: concat (snd r).
Definition ref_data (rs : list refkind) (j : Z) (d : list (list flt)) : Prop :=
  (exists f, In (f, d) rs /\ trunc_is f j) \/ ((forall r, In r rs -> ~ trunc_is (fst r) j) /\ d = []).

(** WSURFACE: a point is a number and a value for each of the three components
    that is present. *)
Inductive comp_vals (cplx : bool) : list flt -> list flt -> list pyval -> Prop :=
| comp_nil : comp_vals cplx [] [] []
| comp_none c cs l vs : flt_eq c f0 = true -> comp_vals cplx cs l vs -> comp_vals cplx (c :: cs) l (PF f0 :: vs)
| comp_real c cs x l vs : c = f1 -> cplx = false -> comp_vals cplx cs l vs ->
    comp_vals cplx (c :: cs) (x :: l) (PF x :: vs)
| comp_cplx c cs x y l vs : c = f1 -> cplx = true -> comp_vals cplx cs l vs ->
    comp_vals cplx (c :: cs) (x :: y :: l) (PC x y :: vs).
Definition surf_point (cplx : bool) (comps : list flt) (p : list flt) (v : pyval) : Prop :=
  exists x l vs, p = x :: l /\ comp_vals cplx comps l vs /\ v = PT (PF x :: vs).

Section Layout.
  (** The kinds of reference that the WDRESREF records list. *)
  Variable kinds : list Z.

  Inductive layout (k : kind) (c : ctx) : string -> item -> list ascii -> ctx -> Prop :=
  (* missing numbers are zero, surplus ones ignored *)
  | lay_fixed n nc ld fs more bs rest :
      In (n, nc, ld) fixed_types ->
      length more = (nc - 4)%nat -> (more = [] \/ length fs = 4%nat) -> enc_data k ld more bs ->
      layout k c n (mkItem fs bs (mkEntry (nums (firstn nc (fs ++ more ++ repeat f0 nc))) [])) rest c
  (* optional numbers not given: next record follows *)
  | lay_section_without n nc no fs more bs cs m mfs hb tl :
      In (n, nc, no) section_types -> length fs = 4%nat -> length more = (nc - 4 - no)%nat ->
      cut_of k more [] cs -> enc_conts k Lead8 cs bs ->
      enc_header k m mfs hb -> In m (allowed k) ->
      layout k c n (mkItem fs bs (mkEntry (nums (fs ++ more ++ repeat f0 no)) [])) (hb ++ tl) c
  | lay_section_with n nc no fs more bs rest :
      In (n, nc, no) section_types -> length fs = 4%nat -> length more = (nc - 4)%nat ->
      enc_data k Lead8 more bs ->
      layout k c n (mkItem fs bs (mkEntry (nums (fs ++ more)) [])) rest c
  (* all its 14 numbers given *)
  | lay_gusyi fs more bs rest :
      length fs = 4%nat -> length more = 10%nat -> enc_data k Lead8 more bs ->
      layout k c "GUSYI" (mkItem fs bs (mkEntry (nums (fs ++ more)) [])) rest c
  | lay_text n a b nl e lines bs rest :
      In n text_types -> count nl (length lines) -> frames k lines bs ->
      layout k c n (mkItem [a; b; nl; e] bs (mkEntry (nums [a; b; nl; e]) [map PS lines])) rest c
  (* codnam, codtxt: hundreds give the number of name and of text lines *)
  | lay_name n a b cn ct zn zt names nls texts tls bs1 bs2 rest :
      In n name_types -> trunc_is cn zn -> trunc_is ct zt ->
      100 * Z.of_nat (length names) <= zn < 100 * (Z.of_nat (length names) + 1) ->
      100 * Z.of_nat (length texts) <= zt < 100 * (Z.of_nat (length texts) + 1) ->
      Forall2 (text_line k) names nls -> Forall2 (text_line k) texts tls ->
      Forall (Forall (fun x => code x < 128)) names ->
      frames k nls bs1 -> frames k tls bs2 ->
      layout k c n (mkItem [a; b; cn; ct] (bs1 ++ bs2)
        (mkEntry (nums [a; b; cn; ct] ++ [PS (concat names)]) [map PS texts])) rest c
  | lay_gelmnt1 a elno eltyp ad e t n nod bs rest :
      trunc_is elno e -> trunc_is eltyp t -> In (t, n) node_count -> length nod = n ->
      enc_data k Lead8 nod bs ->
      layout k c "GELMNT1" (mkItem [a; elno; eltyp; ad] bs (mkEntry (nums [a; elno; eltyp; ad]) [nums nod]))
        rest (with_elem c e t)
  | lay_gelmnt2 fs t nn nods bs rest :
      length fs = 4%nat -> length t = 12%nat -> count nn (length nods) ->
      enc_data k Lead8 (t ++ nn :: nods) bs ->
      layout k c "GELMNT2" (mkItem fs bs
        (mkEntry (nums fs ++ [PT (nums t); PI (Z.of_nat (length nods))]) [nums nods])) rest c
  | lay_gelref1 elno a b d r2 geono fixno eccno transno e t n geo fix_ ecc trans b2 b3 bs rest :
      trunc_is elno e -> x_elem c e = Some t -> In (t, n) node_count ->
      length r2 = 4%nat ->
      ref_list geono n geo -> ref_list fixno n fix_ -> ref_list eccno n ecc -> ref_list transno n trans ->
      enc_cont k Lead8 r2 b2 -> enc_cont k Lead8 [geono; fixno; eccno; transno] b3 ->
      enc_data k Lead8 (geo ++ fix_ ++ ecc ++ trans) bs ->
      layout k c "GELREF1" (mkItem [elno; a; b; d] (b2 ++ b3 ++ bs)
        (mkEntry (nums ([elno; a; b; d] ++ r2 ++ [geono; fixno; eccno; transno]))
           [nums geo; nums fix_; nums ecc; nums trans])) rest c
  | lay_gsetmemb nf a b d e mem bs rest :
      count nf (5 + length mem) -> enc_data k Lead0 (e :: mem) bs ->
      layout k c "GSETMEMB" (mkItem [nf; a; b; d] bs (mkEntry (nums [nf; a; b; d; e]) [nums mem])) rest c
  | lay_sconcept_parts nf a ty d e np nj irp irj bs rest :
      trunc_is ty 7 -> count np (length irp) -> count nj (length irj) ->
      enc_data k Lead0 ([e; np; nj] ++ irp ++ irj) bs ->
      layout k c "SCONCEPT" (mkItem [nf; a; ty; d] bs
        (mkEntry (nums [nf; a; ty; d; e; np; nj]) [nums irp; nums irj])) rest c
  | lay_sconcept_plain nf a ty d e bs rest :
      trunc_is ty 2 -> enc_data k Lead0 [e] bs ->
      layout k c "SCONCEPT" (mkItem [nf; a; ty; d] bs
        (mkEntry (nums [nf; a; ty; d; e; f0; f0]) [[]; []])) rest c
  | lay_sconmesh nf a nr z d nfe fe bs rest :
      trunc_is nr z -> z <= 1 -> count nfe (length fe) -> enc_data k Lead0 (nfe :: fe) bs ->
      layout k c "SCONMESH" (mkItem [nf; a; nr; d] bs (mkEntry (nums [nf; a; nr; d; nfe]) [nums fe])) rest c
  | lay_bnbcd node nd x y ndof more bs rest :
      count nd ndof -> length more = (ndof - 2)%nat -> enc_data k Lead8 more bs ->
      layout k c "BNBCD" (mkItem [node; nd; x; y] bs
        (mkEntry (nums [node; nd]) [nums (firstn ndof (x :: y :: more))])) rest c
  (* one line per dependency, its fourth number unused *)
  | lay_bldep fs a b d nd deps fill cs bs rest :
      fs = [a; b; d; nd] -> count nd (length deps) -> all_len 3 deps ->
      length fill = length deps -> cs = map (fun x => fst x ++ snd x) (combine deps fill) ->
      enc_conts k Lead8 cs bs ->
      layout k c "BLDEP" (mkItem fs bs (mkEntry (nums fs) [tuples deps])) rest c
  | lay_beuslo a b cplx d r1a nd r1b rl il b1 bs rest :
      count nd (length rl) -> length r1b = 2%nat ->
      (flt_eq cplx f0 = true /\ il = [] \/ flt_eq cplx f0 = false /\ length il = length rl) ->
      enc_cont k Lead8 (r1a :: nd :: r1b) b1 -> enc_data k Lead8 (rl ++ il) bs ->
      layout k c "BEUSLO" (mkItem [a; b; cplx; d] (b1 ++ bs)
        (mkEntry (nums ([a; b; cplx; d] ++ r1a :: nd :: r1b)) [nums rl; nums il])) rest c
  | lay_brigac a b cplx d r1 im im' bs rest :
      length r1 = 10%nat -> length im' = 6%nat ->
      (flt_eq cplx f0 = true /\ im = [] /\ im' = repeat f0 6 \/ flt_eq cplx f0 = false /\ im' = im) ->
      enc_data k Lead8 (r1 ++ im) bs ->
      layout k c "BRIGAC" (mkItem [a; b; cplx; d] bs (mkEntry (nums ([a; b; cplx; d] ++ r1 ++ im')) [])) rest c
  | lay_compdef n rv nf ir lr x z more bs rest :
      In (n, rv) comp_types -> trunc_is ir z -> count lr (1 + length more) -> enc_data k Lead0 more bs ->
      layout k c n (mkItem [nf; ir; lr; x] bs (mkEntry (nums [nf; ir; lr]) [nums (x :: more)])) rest
        (with_lenrec c (rv, z) (1 + Z.of_nat (length more)))
  | lay_rdpoints nf alt el cr e nsp ijk nst nl alt' el' cr' nsp' nl' nok noj noi (pts : list point) xfs bs rest :
      trunc_is alt alt' -> trunc_is el el' -> trunc_is cr cr' -> trunc_is nsp nsp' -> trunc_is nl nl' ->
      (noj < 100)%nat -> (noi < 100)%nat ->
      trunc_is ijk (10000 * Z.of_nat nok + 100 * Z.of_nat noj + Z.of_nat noi) ->
      length pts = (nok * noj * noi)%nat -> Forall point_ok pts ->
      count nst (length xfs) -> Forall (matrix 3 3) xfs ->
      enc_data k Lead0 ([e; nsp; ijk; nst; nl] ++ flat_map point_nums pts ++ concat (map (@concat flt) xfs)) bs ->
      layout k c "RDPOINTS" (mkItem [nf; alt; el; cr] bs
        (mkEntry (nums [nf; alt; el; cr; e; nsp; ijk; nst; nl])
           [flat_map point_data pts; map (fun m => PT (tuples m)) xfs])) rest
        (with_points c cr' (nl', Z.of_nat nok, Z.of_nat noj, Z.of_nat noi) (alt', el') nsp')
  | lay_rdielcor nf cr ig g1 cr' nlay nok noj noi gs be al la bs rest :
      trunc_is cr cr' ->
      grid_of c cr' (Z.of_nat nlay, Z.of_nat nok, Z.of_nat noj, Z.of_nat noi) ->
      length gs = (nok - 1)%nat -> length be = noj -> length al = noi -> matrix nlay 2 la ->
      enc_data k Lead0 (gs ++ be ++ al ++ concat la) bs ->
      layout k c "RDIELCOR" (mkItem [nf; cr; ig; g1] bs
        (mkEntry (nums [nf; cr; ig]) [nums (firstn nok (g1 :: gs)); nums be; nums al; tuples la])) rest c
  | lay_rdresref nf ires a b d ic nt ires' ic' gs bs rest :
      trunc_is ires ires' -> trunc_is ic ic' -> count nt (length gs) -> all_len 3 gs ->
      enc_data k Lead0 ([d; ic; nt] ++ concat gs) bs ->
      layout k c "RDRESREF" (mkItem [nf; ires; a; b] bs
        (mkEntry (nums [nf; ires; a; b; d; ic; nt]) [tuples gs])) rest (with_compl c ires' ic')
  | lay_combi n a b d ng gs bs rest :
      In n combi_types -> count ng (length gs) -> all_len 3 gs -> enc_data k Lead0 (concat gs) bs ->
      layout k c n (mkItem [a; b; d; ng] bs (mkEntry (nums [a; b; d; ng]) [tuples gs])) rest c
  (* real results only; see C16 for complex ones *)
  | lay_nodres n nf ires a b d ires' res bs rest :
      In n nodres_types -> count nf (5 + length res) -> trunc_is ires ires' -> x_compl c ires' = Some 0 ->
      enc_data k Lead0 (d :: res) bs ->
      layout k c n (mkItem [nf; ires; a; b] bs (mkEntry (nums [nf; ires; a; b; d]) [nums res])) rest c
  | lay_elmres n nf ires el alt ir ires' el' alt' ir' nsp lr ic res bs rest :
      In n elmres_types ->
      trunc_is ires ires' -> trunc_is el el' -> trunc_is alt alt' -> trunc_is ir ir' ->
      x_nsp c (alt', el') = Some nsp -> x_lenrec c (n, ir') = Some lr -> x_compl c ires' = Some ic ->
      Z.of_nat (length res) = nsp * lr * (ic + 1) ->
      enc_data k Lead0 (ir :: res) bs ->
      layout k c n (mkItem [nf; ires; el; alt] bs (mkEntry (nums [nf; ires; el; alt; ir]) [nums res])) rest c
  | lay_wdresref nf a nr nt (rs : list refkind) n dd df dt bs rest :
      count nr n -> count nt (length rs) ->
      NoDup kinds -> (exists js, Forall2 (fun r j => trunc_is (fst r) j) rs js /\ Permutation js kinds) ->
      Forall (fun r => matrix n 2 (snd r)) rs ->
      ref_data rs 1 dd -> ref_data rs 2 df -> ref_data rs 3 dt ->
      enc_data k Lead0 (flat_map ref_nums rs) bs ->
      layout k c "WDRESREF" (mkItem [nf; a; nr; nt] bs
        (mkEntry (nums [nf; a; nr; nt]) [tuples dd; tuples df; tuples dt])) rest c
  | lay_wglobdef_finite a b d idep z depth bs rest :
      trunc_is idep z -> z <> 0 -> enc_data k Lead0 [depth] bs ->
      layout k c "WGLOBDEF" (mkItem [a; b; d; idep] bs (mkEntry (nums [a; b; d; idep; depth]) [])) rest c
  | lay_wglobdef_infinite a b d idep rest :
      trunc_is idep 0 ->
      layout k c "WGLOBDEF" (mkItem [a; b; d; idep] [] (mkEntry (nums [a; b; d; idep; f1]) [])) rest c
  | lay_wbody fs r1 t bs rest :
      length fs = 4%nat -> length r1 = 12%nat -> matrix 4 4 t -> enc_data k Lead0 (r1 ++ concat t) bs ->
      layout k c "WBODY" (mkItem fs bs (mkEntry (nums (fs ++ r1) ++ [PT (tuples t)]) [])) rest c
  | lay_w1matrix fs r1 t bs rest :
      length fs = 4%nat -> length r1 = 2%nat -> matrix 6 6 t -> enc_data k Lead0 (r1 ++ concat t) bs ->
      layout k c "W1MATRIX" (mkItem fs bs (mkEntry (nums (fs ++ r1) ++ [PT (tuples t)]) [])) rest c
  | lay_six_real n a b d ic v bs rest :
      In n six_types -> trunc_is ic 0 -> length v = 6%nat -> enc_data k Lead0 v bs ->
      layout k c n (mkItem [a; b; d; ic] bs (mkEntry (nums [a; b; d; ic] ++ [PT (nums v)]) [])) rest c
  | lay_six_complex n a b d ic z v bs rest :
      In n six_types -> trunc_is ic z -> z <> 0 -> length v = 6%nat -> enc_data k Lead0 (parts v) bs ->
      layout k c n (mkItem [a; b; d; ic] bs (mkEntry (nums [a; b; d; ic] ++ [PT (complexes v)]) [])) rest c
  | lay_w1sforce_real a b d e ic v bs rest :
      trunc_is ic 0 -> length v = 6%nat -> enc_data k Lead0 (ic :: v) bs ->
      layout k c "W1SFORCE" (mkItem [a; b; d; e] bs (mkEntry (nums [a; b; d; e; ic] ++ [PT (nums v)]) [])) rest c
  | lay_w1sforce_complex a b d e ic z v bs rest :
      trunc_is ic z -> z <> 0 -> length v = 6%nat -> enc_data k Lead0 (ic :: parts v) bs ->
      layout k c "W1SFORCE" (mkItem [a; b; d; e] bs (mkEntry (nums [a; b; d; e; ic] ++ [PT (complexes v)]) [])) rest c
  | lay_w2hdrift a b d x v bs rest :
      length v = 2%nat -> enc_data k Lead0 v bs ->
      layout k c "W2HDRIFT" (mkItem [a; b; d; x] bs (mkEntry (nums [a; b; d] ++ [PT (nums (x :: v))]) [])) rest c
  | lay_w2mdrift a b d x v bs rest :
      length v = 5%nat -> enc_data k Lead0 v bs ->
      layout k c "W2MDRIFT" (mkItem [a; b; d; x] bs (mkEntry (nums [a; b; d] ++ [PT (nums (x :: v))]) [])) rest c
  | lay_wfkpoint a b x y z bs rest :
      enc_data k Lead0 [z] bs ->
      layout k c "WFKPOINT" (mkItem [a; b; x; y] bs (mkEntry (nums [a; b] ++ [PT (nums [x; y; z])]) [])) rest c
  | lay_wfluidkn_real a b d ic p v bs rest :
      trunc_is ic 0 -> length v = 3%nat -> enc_data k Lead0 (p :: v) bs ->
      layout k c "WFLUIDKN" (mkItem [a; b; d; ic] bs
        (mkEntry (nums [a; b; d; ic; p] ++ [PT (nums v)]) [])) rest c
  | lay_wfluidkn_complex a b d ic z p v bs rest :
      trunc_is ic z -> z <> 0 -> length v = 3%nat -> enc_data k Lead0 (parts (p :: v)) bs ->
      layout k c "WFLUIDKN" (mkItem [a; b; d; ic] bs
        (mkEntry (nums [a; b; d; ic] ++ [PC (fst p) (snd p); PT (complexes v)]) [])) rest c
  | lay_wsection a b d e usr p1 p2 p3 bs rest :
      length p1 = 3%nat -> length p2 = 3%nat -> length p3 = 3%nat ->
      enc_data k Lead0 (usr :: p1 ++ p2 ++ p3) bs ->
      layout k c "WSECTION" (mkItem [a; b; d; e] bs
        (mkEntry (nums [a; b; d; e; usr] ++ [PT (nums p1); PT (nums p2); PT (nums p3)]) [])) rest c
  | lay_wsurface nf a b d ic cx cy cz (cplx : bool) pts vals bs rest :
      count nf (8 + length (concat pts)) ->
      (if cplx then ic = f1 else flt_eq ic f0 = true) ->
      Forall2 (surf_point cplx [cx; cy; cz]) pts vals ->
      (pts = [] -> Forall (fun f => f = f1 \/ flt_eq f f0 = true) [cx; cy; cz]) ->
      enc_data k Lead0 ([ic; cx; cy; cz] ++ concat pts) bs ->
      layout k c "WSURFACE" (mkItem [nf; a; b; d] bs
        (mkEntry (nums [nf; a; b; d; ic; cx; cy; cz]) [vals])) rest c
  | lay_winput a b x y rows v bs rest :
      matrix 4 4 rows -> concat rows = x :: y :: v -> enc_data k Lead0 v bs ->
      layout k c "WINPUT" (mkItem [a; b; x; y] bs (mkEntry (nums [a; b] ++ [PT (tuples rows)]) [])) rest c
  | lay_w1panpre_real fs a ic p i j bs rest :
      length fs = 4%nat -> trunc_is ic 0 -> enc_data k Lead0 [a; ic; p; i; j] bs ->
      layout k c "W1PANPRE" (mkItem fs bs (mkEntry (nums (fs ++ [a; ic]) ++ [PC p f0; PF i; PF j]) [])) rest c
  | lay_w1panpre_complex fs a ic z p q i j bs rest :
      length fs = 4%nat -> trunc_is ic z -> z <> 0 -> enc_data k Lead0 [a; ic; p; q; i; j] bs ->
      layout k c "W1PANPRE" (mkItem fs bs (mkEntry (nums (fs ++ [a; ic]) ++ [PC p q; PF i; PF j]) [])) rest c.
End Layout.
