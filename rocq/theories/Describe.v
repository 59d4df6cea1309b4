(** * Describe: finding the records of a file.

    [file_of] (FileSpec) says what it means for bytes to be a file with given
    records.  Here the records are computed from the bytes; DescribeProofs shows
    that whatever is found is right.  This is not a model of the repository but a
    decision aid for the specification, independent of [SeqFile] and [Parsers]. *)
From Verif Require Import Base Flt SeqFile H5 Schema SeqSpec StoreSpec ParserSpec LayoutSpec FileSpec Sample.
Open Scope string_scope.
Open Scope Z_scope.
Open Scope list_scope.

Definition obind {A B} (o : option A) (f : A -> option B) : option B := match o with Some a => f a | None => None end.
Notation "'let*' p ':=' o 'in' k" := (obind o (fun p => k)) (at level 200, p pattern, o at level 100, k at level 200).
Definition guard (b : bool) : option unit := if b then Some tt else None.
Notation orelse a b := (match a with Some x => Some x | None => b end).  (* b only if needed *)

(** ** Physical records: payload and bytes *)
Definition phys : Set := list ascii * list ascii.
Fixpoint line (bs : list ascii) : option (list ascii * list ascii) :=
  match bs with
  | [] => None
  | c :: r => if Ascii.eqb c nl then Some ([], r) else let* (p, q) := line r in Some (c :: p, q)
  end.
Definition deframe (k : kind) (bs : list ascii) : option (phys * list ascii) :=
  match k with
  | Fmt => let* (p, r) := line bs in Some ((p, p ++ [nl]), r)
  | Unf =>
      match bs with
      | [] => None
      | b :: r =>
          let n := if code b =? 129 then 128%nat else Z.to_nat (code b) in
          let p := firstn n r in
          if Nat.eqb (length p) n then match skipn n r with t :: q => Some ((p, b :: p ++ [t]), q) | [] => None end else None
      end
  end.
Fixpoint deframes (fuel : nat) (k : kind) (bs : list ascii) : list phys * list ascii :=
  match fuel with
  | O => ([], bs)
  | S f => match deframe k bs with None => ([], bs) | Some (p, r) => let '(ps, e) := deframes f k r in (p :: ps, e) end
  end.
Definition bytes (ps : list phys) (e : list ascii) : list ascii := concat (map snd ps) ++ e.

(** ** Numbers *)
Definition is_blank (c : ascii) : bool := Ascii.eqb c blank.
Definition is_dig (c : ascii) : bool := (48 <=? code c) && (code c <=? 57).
Definition dval (l : list ascii) : Z := fold_left (fun n c => 10 * n + (code c - 48)) l 0.
Fixpoint digit_run (l : list ascii) : list ascii * list ascii :=
  match l with
  | c :: r => if is_dig c then let '(a, b) := digit_run r in (c :: a, b) else ([], l)
  | [] => ([], l)
  end.
Definition sgn (l : list ascii) : bool * list ascii :=
  match l with c :: r => if Ascii.eqb c "-" then (true, r) else if Ascii.eqb c "+" then (false, r) else (false, l) | [] => (false, l) end.
Definition some_in {A} (l : list A) : bool := match l with [] => false | _ => true end.
(** exponent, if there is one; then blanks *)
Definition exponent_of (l : list ascii) : option Z :=
  if forallb is_blank l then Some 0
  else match l with
  | e :: l =>
      let '(xs, l) := sgn l in
      let '(ed, l) := digit_run l in
      if (Ascii.eqb e "e" || Ascii.eqb e "E") && some_in ed && forallb is_blank l then Some (if xs then - dval ed else dval ed) else None
  | [] => None
  end.
(** sign, digits, exponent *)
Definition field (l : list ascii) : option (bool * Z * Z) :=
  let '(s, l) := sgn (dropwhile is_blank l) in
  let '(ip, l) := digit_run l in
  match l with
  | p :: l =>
      let '(fp, l) := digit_run l in
      let* x := exponent_of l in
      if Ascii.eqb p "." && some_in ip then Some (s, dval (ip ++ fp), x - Z.of_nat (length fp)) else None
  | [] => None
  end.
Definition width (k : kind) : nat := match k with Fmt => 16%nat | Unf => 4%nat end.
Definition num (k : kind) (l : list ascii) : option flt :=
  let* _ := guard (Nat.eqb (length l) (width k)) in
  match k with
  | Unf => Some (unpack_f l)
  | Fmt => let* (sm, x) := field l in let '(s, m) := sm in Some (dec_to_flt s m x)
  end.
Fixpoint numbers_of (fuel : nat) (k : kind) (l : list ascii) : option (list flt) :=
  match l with
  | [] => Some []
  | _ => match fuel with
         | O => None
         | S f => let* v := num k (firstn (width k) l) in let* vs := numbers_of f k (skipn (width k) l) in Some (v :: vs)
         end
  end.
Definition all_numbers (k : kind) (l : list ascii) : option (list flt) := numbers_of (length l) k l.

(** ** Headers and continuation records *)
Definition is_graphic (c : ascii) : bool := (33 <=? code c) && (code c <=? 126).
Definition header (k : kind) (p : phys) : option (string * list flt) :=
  let nb := firstn 8 (fst p) in
  let n := strip is_blank nb in
  let* _ := guard (Nat.eqb (length nb) 8 && some_in n && forallb is_graphic n) in
  let* fs := all_numbers k (skipn 8 (fst p)) in
  Some (l2s n, fs).
Definition cont (k : kind) (ld : lead) (p : phys) : option (list flt) :=
  let n := lead_of k ld in
  let* _ := guard (Nat.eqb (length (firstn n (fst p))) n && forallb is_blank (firstn n (fst p))) in
  all_numbers k (skipn n (fst p)).
(** The next header, or the end. *)
Definition next (k : kind) (ps : list phys) (e : list ascii) : option (string * list flt * list phys * list ascii) :=
  match ps with
  | p :: r => let* (n, fs) := header k p in Some (n, fs, r, e)
  | [] => match k, e with
          | Fmt, [] | Unf, [_] => Some ("", [], [], [])
          | _, _ => None
          end
  end.

(** ** Continuation parts *)
Definition full_cut (k : kind) (cs : list (list flt)) : bool :=
  match k with Unf => true | Fmt => forallb (fun c => Nat.eqb (length c) 4) cs end.
Definition last_cut (k : kind) (c : list flt) : bool := match k with Unf => true | Fmt => Nat.leb (length c) 4 end.
(** the first [build] of [all] without some of its last numbers that works *)
Fixpoint attempt {A} (build : list flt -> option A) (all : list flt) (pads : list nat) : option A :=
  match pads with
  | [] => None
  | j :: js => orelse (build (firstn (length all - j) all)) (attempt build all js)
  end.
Section Gather.
  Context {A : Type}.
  Variables (k : kind) (ld : lead) (padded : bool) (build : list flt -> option A).
  (** [before]: the continuation records so far *)
  Fixpoint gather (before : list (list flt)) (used : list ascii) (ps : list phys) : option (A * list ascii * list phys) :=
    match ps with
    | [] => None
    | p :: r =>
        let* c := cont k ld p in
        let used := used ++ snd p in
        match
          (if last_cut k c then attempt build (concat before ++ c) (if padded then seq 0 (length c) else if some_in c then [0%nat] else []) else None)
        with
        | Some a => Some (a, used, r)
        | None => let* _ := guard (full_cut k [c]) in gather (before ++ [c]) used r
        end
    end.
  Definition data (ps : list phys) : option (A * list ascii * list phys) :=
    match build [] with Some a => Some (a, [], ps) | None => gather [] [] ps end.
End Gather.
(** A counted number of physical records. *)
Fixpoint lines (n : nat) (ps : list phys) : option (list (list ascii) * list ascii * list phys) :=
  match n with
  | O => Some ([], [], ps)
  | S j => match ps with
           | [] => None
           | p :: r => let* (lb, q) := lines j r in Some (fst p :: fst lb, snd p ++ snd lb, q)
           end
  end.
Fixpoint conts (k : kind) (ld : lead) (n : nat) (ps : list phys) : option (list (list flt) * list ascii * list phys) :=
  match n with
  | O => Some ([], [], ps)
  | S j => match ps with
           | [] => None
           | p :: r => let* c := cont k ld p in let* (lb, q) := conts k ld j r in Some (c :: fst lb, snd p ++ snd lb, q)
           end
  end.

(** ** Whole numbers, matrices *)
Definition whole (f : flt) : option Z := match int_of f with Ok z => Some z | Err _ => None end.
Definition howmany (f : flt) : option nat := let* z := whole f in if 0 <=? z then Some (Z.to_nat z) else None.
Definition is_count (f : flt) (n : nat) : bool := match howmany f with Some m => Nat.eqb m n | None => false end.
Definition has_len {B} (n : nat) (l : list B) : bool := Nat.eqb (length l) n.
(** rows of [n], as many as needed *)
Fixpoint in_rows {B} (m n : nat) (l : list B) : list (list B) :=
  match m with O => [] | S j => firstn n l :: in_rows j n (skipn n l) end.
(** [m] rows of [n] each *)
Definition to_matrix {B} (m n : nat) (l : list B) : option (list (list B)) :=
  let* _ := guard (has_len (m * n) l) in Some (in_rows m n l).

(** ** Record types: from the header numbers [fs] and the data [d] to the entry.
    Each function checks that [d] is all the record needs and nothing more. *)
Definition take {B} (n : nat) (l : list B) : option (list B * list B) :=
  if Nat.leb n (length l) then Some (firstn n l, skipn n l) else None.
Definition builder := ctx -> string -> list flt -> list flt -> option (entry * ctx).
Definition zin (z : Z) (l : list Z) : bool := existsb (Z.eqb z) l.
Definition nodes_of (t : Z) : option nat := let* (x, n) := find (fun p => fst p =? t) node_count in Some n.

Definition b_fixed (nc : nat) : builder := fun c _ fs d =>
  let* _ := guard (has_len (nc - 4) d && (Nat.leb nc 4 || has_len 4 fs)) in
  Some (mkEntry (nums (firstn nc (fs ++ d ++ repeat f0 nc))) [], c).
Definition b_gusyi : builder := fun c _ fs d =>
  let* _ := guard (has_len 4 fs && has_len 10 d) in Some (mkEntry (nums (fs ++ d)) [], c).
Definition b_gelmnt1 : builder := fun c _ fs d =>
  match fs with
  | [a; elno; eltyp; ad] =>
      let* e := whole elno in let* t := whole eltyp in let* n := nodes_of t in
      let* _ := guard (has_len n d) in
      Some (mkEntry (nums [a; elno; eltyp; ad]) [nums d], with_elem c e t)
  | _ => None
  end.
Definition b_gelmnt2 : builder := fun c _ fs d =>
  let* (t, r) := take 12 d in
  match r with
  | nn :: nods =>
      let* _ := guard (has_len 4 fs && is_count nn (length nods)) in
      Some (mkEntry (nums fs ++ [PT (nums t); PI (Z.of_nat (length nods))]) [nums nods], c)
  | [] => None
  end.
Definition b_gsetmemb : builder := fun c _ fs d =>
  match fs, d with
  | [nf; a; b; g], e :: mem =>
      let* _ := guard (is_count nf (5 + length mem)) in Some (mkEntry (nums [nf; a; b; g; e]) [nums mem], c)
  | _, _ => None
  end.
Definition b_sconcept : builder := fun c _ fs d =>
  match fs, d with
  | [nf; a; ty; g], [e] =>
      let* t := whole ty in let* _ := guard (t =? 2) in Some (mkEntry (nums [nf; a; ty; g; e; f0; f0]) [[]; []], c)
  | [nf; a; ty; g], e :: np :: nj :: r =>
      let* t := whole ty in let* _ := guard (t =? 7) in
      let* n := howmany np in let* (irp, irj) := take n r in
      let* _ := guard (is_count nj (length irj)) in
      Some (mkEntry (nums [nf; a; ty; g; e; np; nj]) [nums irp; nums irj], c)
  | _, _ => None
  end.
Definition b_sconmesh : builder := fun c _ fs d =>
  match fs, d with
  | [nf; a; nr; g], nfe :: fe =>
      let* z := whole nr in let* _ := guard ((z <=? 1) && is_count nfe (length fe)) in
      Some (mkEntry (nums [nf; a; nr; g; nfe]) [nums fe], c)
  | _, _ => None
  end.
Definition b_bnbcd : builder := fun c _ fs d =>
  match fs with
  | [node; nd; x; y] =>
      let* ndof := howmany nd in let* _ := guard (has_len (ndof - 2) d) in
      Some (mkEntry (nums [node; nd]) [nums (firstn ndof (x :: y :: d))], c)
  | _ => None
  end.
Definition b_brigac : builder := fun c _ fs d =>
  match fs with
  | [a; b; cplx; g] =>
      let* (r1, im) := take 10 d in
      let* im' := (if flt_eq cplx f0 then let* _ := guard (has_len 0 im) in Some (repeat f0 6) else let* _ := guard (has_len 6 im) in Some im) in
      Some (mkEntry (nums ([a; b; cplx; g] ++ r1 ++ im')) [], c)
  | _ => None
  end.
Definition b_compdef (rv : string) : builder := fun c _ fs d =>
  match fs with
  | [nf; ir; lr; x] =>
      let* z := whole ir in let* _ := guard (is_count lr (1 + length d)) in
      Some (mkEntry (nums [nf; ir; lr]) [nums (x :: d)], with_lenrec c (rv, z) (1 + Z.of_nat (length d)))
  | _ => None
  end.
Fixpoint points (n : nat) (l : list flt) : option (list point * list flt) :=
  match n with
  | O => Some ([], l)
  | S j => match l with
           | p :: r =>
               let* (xs, r) := (if flt_lt f0 p then take 3 r else Some ([], r)) in
               let* (ps, r) := points j r in Some ((p, xs) :: ps, r)
           | [] => None
           end
  end.
Definition b_rdpoints : builder := fun c _ fs d =>
  match fs, d with
  | [nf; alt; el; cr], e :: nsp :: ijk :: nst :: nl :: r =>
      let* alt' := whole alt in let* el' := whole el in let* cr' := whole cr in let* nsp' := whole nsp in let* nl' := whole nl in
      let* z := whole ijk in let* _ := guard (0 <=? z) in
      let nok := Z.to_nat (z / 10000) in let noj := Z.to_nat (z / 100 mod 100) in let noi := Z.to_nat (z mod 100) in
      let* (pts, r) := points (nok * noj * noi) r in
      let* m := howmany nst in
      let* rows := to_matrix m 9 r in
      let xfs := map (in_rows 3 3) rows in
      Some (mkEntry (nums [nf; alt; el; cr; e; nsp; ijk; nst; nl]) [flat_map point_data pts; map (fun x => PT (tuples x)) xfs],
            with_points c cr' (nl', Z.of_nat nok, Z.of_nat noj, Z.of_nat noi) (alt', el') nsp')
  | _, _ => None
  end.
Definition grid (c : ctx) (cr : Z) : option (Z * Z * Z * Z) :=
  match x_points c cr with
  | Some l => Some l
  | None => if cr =? 15 then Some (0, 1, 1, 3) else if cr =? 24 then Some (0, 2, 3, 3) else None
  end.
Definition b_rdielcor : builder := fun c _ fs d =>
  match fs with
  | [nf; cr; ig; g1] =>
      let* cr' := whole cr in
      let* loc := grid c cr' in
      let '(zl, zk, zj, zi) := loc in
      let* _ := guard ((0 <=? zl) && (0 <=? zk) && (0 <=? zj) && (0 <=? zi)) in
      let nok := Z.to_nat zk in
      let* (gs, r) := take (nok - 1) d in
      let* (be, r) := take (Z.to_nat zj) r in
      let* (al, r) := take (Z.to_nat zi) r in
      let* la := to_matrix (Z.to_nat zl) 2 r in
      Some (mkEntry (nums [nf; cr; ig]) [nums (firstn nok (g1 :: gs)); nums be; nums al; tuples la], c)
  | _ => None
  end.
Definition b_rdresref : builder := fun c _ fs d =>
  match fs, d with
  | [nf; ires; a; b], g :: ic :: nt :: r =>
      let* ires' := whole ires in let* ic' := whole ic in let* n := howmany nt in
      let* gs := to_matrix n 3 r in
      Some (mkEntry (nums [nf; ires; a; b; g; ic; nt]) [tuples gs], with_compl c ires' ic')
  | _, _ => None
  end.
Definition b_combi : builder := fun c _ fs d =>
  match fs with
  | [a; b; g; ng] => let* n := howmany ng in let* gs := to_matrix n 3 d in Some (mkEntry (nums [a; b; g; ng]) [tuples gs], c)
  | _ => None
  end.
Definition b_nodres : builder := fun c _ fs d =>
  match fs, d with
  | [nf; ires; a; b], g :: res =>
      let* ires' := whole ires in
      let* ic := x_compl c ires' in
      let* _ := guard ((ic =? 0) && is_count nf (5 + length res)) in
      Some (mkEntry (nums [nf; ires; a; b; g]) [nums res], c)
  | _, _ => None
  end.
Definition b_elmres : builder := fun c n fs d =>
  match fs, d with
  | [nf; ires; el; alt], ir :: res =>
      let* ires' := whole ires in let* el' := whole el in let* alt' := whole alt in let* ir' := whole ir in
      let* nsp := x_nsp c (alt', el') in let* lr := x_lenrec c (n, ir') in let* ic := x_compl c ires' in
      let* _ := guard (Z.of_nat (length res) =? nsp * lr * (ic + 1)) in
      Some (mkEntry (nums [nf; ires; el; alt; ir]) [nums res], c)
  | _, _ => None
  end.
Fixpoint refkinds (m n : nat) (l : list flt) : option (list (refkind * Z)) :=
  match m with
  | O => let* _ := guard (has_len 0 l) in Some []
  | S j => match l with
           | f :: r => let* z := whole f in let* (a, r) := take (n * 2) r in let* rs := refkinds j n r in Some ((f, in_rows n 2 a, z) :: rs)
           | [] => None
           end
  end.
Definition ref_of (rs : list (refkind * Z)) (j : Z) : list (list flt) :=
  match find (fun r => snd r =? j) rs with Some r => snd (fst r) | None => [] end.
Fixpoint no_dup (l : list Z) : bool := match l with [] => true | x :: r => negb (zin x r) && no_dup r end.
Definition b_wdresref (kinds : list Z) : builder := fun c _ fs d =>
  match fs with
  | [nf; a; nr; nt] =>
      let* n := howmany nr in let* m := howmany nt in
      let* rs := refkinds m n d in
      let js := map snd rs in
      let* _ := guard (no_dup kinds && no_dup js && Nat.eqb (length js) (length kinds) && forallb (fun j => zin j kinds) js) in
      Some (mkEntry (nums [nf; a; nr; nt]) [tuples (ref_of rs 1); tuples (ref_of rs 2); tuples (ref_of rs 3)], c)
  | _ => None
  end.
Definition b_wglobdef : builder := fun c _ fs d =>
  match fs, d with
  | [a; b; g; idep], [depth] => let* z := whole idep in let* _ := guard (negb (z =? 0)) in Some (mkEntry (nums [a; b; g; idep; depth]) [], c)
  | [a; b; g; idep], [] => let* z := whole idep in let* _ := guard (z =? 0) in Some (mkEntry (nums [a; b; g; idep; f1]) [], c)
  | _, _ => None
  end.
(** header, [p] numbers, a matrix *)
Definition b_square (p m : nat) : builder := fun c _ fs d =>
  let* (r1, r) := take p d in let* t := to_matrix m m r in let* _ := guard (has_len 4 fs) in
  Some (mkEntry (nums (fs ++ r1) ++ [PT (tuples t)]) [], c).
Fixpoint pairs (l : list flt) : option (list (flt * flt)) :=
  match l with
  | [] => Some []
  | x :: y :: r => let* ps := pairs r in Some ((x, y) :: ps)
  | _ => None
  end.
(** [m] real or complex numbers *)
Definition values (ic : flt) (m : nat) (l : list flt) : option (list pyval) :=
  let* z := whole ic in
  if z =? 0 then let* _ := guard (has_len m l) in Some (nums l)
  else let* ps := pairs l in let* _ := guard (has_len m ps) in Some (complexes ps).
Definition b_six : builder := fun c _ fs d =>
  match fs with
  | [a; b; g; ic] => let* v := values ic 6 d in Some (mkEntry (nums [a; b; g; ic] ++ [PT v]) [], c)
  | _ => None
  end.
Definition b_w1sforce : builder := fun c _ fs d =>
  match fs, d with
  | [a; b; g; e], ic :: r => let* v := values ic 6 r in Some (mkEntry (nums [a; b; g; e; ic] ++ [PT v]) [], c)
  | _, _ => None
  end.
Definition b_drift (n : nat) : builder := fun c _ fs d =>
  match fs with
  | [a; b; g; x] => let* _ := guard (has_len n d) in Some (mkEntry (nums [a; b; g] ++ [PT (nums (x :: d))]) [], c)
  | _ => None
  end.
Definition b_wfkpoint : builder := fun c _ fs d =>
  match fs, d with
  | [a; b; x; y], [z] => Some (mkEntry (nums [a; b] ++ [PT (nums [x; y; z])]) [], c)
  | _, _ => None
  end.
Definition b_wfluidkn : builder := fun c _ fs d =>
  match fs with
  | [a; b; g; ic] =>
      let* z := whole ic in
      if z =? 0 then
        match d with
        | p :: v => let* _ := guard (has_len 3 v) in Some (mkEntry (nums [a; b; g; ic; p] ++ [PT (nums v)]) [], c)
        | [] => None
        end
      else
        let* ps := pairs d in
        match ps with
        | p :: v => let* _ := guard (has_len 3 v) in Some (mkEntry (nums [a; b; g; ic] ++ [PC (fst p) (snd p); PT (complexes v)]) [], c)
        | [] => None
        end
  | _ => None
  end.
Definition b_wsection : builder := fun c _ fs d =>
  match fs, d with
  | [a; b; g; e], usr :: r =>
      let* (p1, r) := take 3 r in let* (p2, p3) := take 3 r in let* _ := guard (has_len 3 p3) in
      Some (mkEntry (nums [a; b; g; e; usr] ++ [PT (nums p1); PT (nums p2); PT (nums p3)]) [], c)
  | _, _ => None
  end.
Definition is_f1 (f : flt) : bool := match f with FFin false 1 0 => true | _ => false end.
Fixpoint comp_take (cplx : bool) (cs l : list flt) : option (list flt * list pyval * list flt) :=
  match cs with
  | [] => Some ([], [], l)
  | c :: r =>
      if flt_eq c f0 then let* (uv, q) := comp_take cplx r l in Some (fst uv, PF f0 :: snd uv, q)
      else if is_f1 c then
        match cplx, l with
        | false, x :: l => let* (uv, q) := comp_take cplx r l in Some (x :: fst uv, PF x :: snd uv, q)
        | true, x :: y :: l => let* (uv, q) := comp_take cplx r l in Some (x :: y :: fst uv, PC x y :: snd uv, q)
        | _, _ => None
        end
      else None
  end.
Fixpoint surf_points (fuel : nat) (cplx : bool) (cs l : list flt) : option (list (list flt) * list pyval) :=
  match l with
  | [] => Some ([], [])
  | x :: r =>
      match fuel with
      | O => None
      | S f => let* (uv, q) := comp_take cplx cs r in let* (ps, vs) := surf_points f cplx cs q in
               Some ((x :: fst uv) :: ps, PT (PF x :: snd uv) :: vs)
      end
  end.
Definition b_wsurface : builder := fun c _ fs d =>
  match fs, d with
  | [nf; a; b; g], ic :: cx :: cy :: cz :: r =>
      let* _ := guard ((is_f1 ic || flt_eq ic f0) && forallb (fun f => is_f1 f || flt_eq f f0) [cx; cy; cz] && is_count nf (8 + length r)) in
      let* (ps, vals) := surf_points (length r) (is_f1 ic) [cx; cy; cz] r in
      Some (mkEntry (nums [nf; a; b; g; ic; cx; cy; cz]) [vals], c)
  | _, _ => None
  end.
Definition b_winput : builder := fun c _ fs d =>
  match fs with
  | [a; b; x; y] => let* rows := to_matrix 4 4 (x :: y :: d) in Some (mkEntry (nums [a; b] ++ [PT (tuples rows)]) [], c)
  | _ => None
  end.
Definition b_w1panpre : builder := fun c _ fs d =>
  match d with
  | [a; ic; p; i; j] =>
      let* z := whole ic in let* _ := guard ((z =? 0) && has_len 4 fs) in Some (mkEntry (nums (fs ++ [a; ic]) ++ [PC p f0; PF i; PF j]) [], c)
  | [a; ic; p; q; i; j] =>
      let* z := whole ic in let* _ := guard (negb (z =? 0) && has_len 4 fs) in Some (mkEntry (nums (fs ++ [a; ic]) ++ [PC p q; PF i; PF j]) [], c)
  | _ => None
  end.
(** The record types with one continuation part: names, how continued, how read. *)
Definition builders (kinds : list Z) : list (list string * lead * builder) :=
  map (fun t => let '(n, nc, ld) := t in ([n], ld, b_fixed nc)) fixed_types ++
  map (fun t => ([fst t], Lead0, b_compdef (snd t))) comp_types ++
  [(["GUSYI"], Lead8, b_gusyi); (["GELMNT1"], Lead8, b_gelmnt1); (["GELMNT2"], Lead8, b_gelmnt2); (["GSETMEMB"], Lead0, b_gsetmemb);
   (["SCONCEPT"], Lead0, b_sconcept); (["SCONMESH"], Lead0, b_sconmesh); (["BNBCD"], Lead8, b_bnbcd); (["BRIGAC"], Lead8, b_brigac);
   (["RDPOINTS"], Lead0, b_rdpoints); (["RDIELCOR"], Lead0, b_rdielcor); (["RDRESREF"], Lead0, b_rdresref); (combi_types, Lead0, b_combi);
   (nodres_types, Lead0, b_nodres); (elmres_types, Lead0, b_elmres); (["WDRESREF"], Lead0, b_wdresref kinds); (["WGLOBDEF"], Lead0, b_wglobdef);
   (["WBODY"], Lead0, b_square 12 4); (["W1MATRIX"], Lead0, b_square 2 6); (six_types, Lead0, b_six); (["W1SFORCE"], Lead0, b_w1sforce);
   (["W2HDRIFT"], Lead0, b_drift 2); (["W2MDRIFT"], Lead0, b_drift 5); (["WFKPOINT"], Lead0, b_wfkpoint); (["WFLUIDKN"], Lead0, b_wfluidkn);
   (["WSECTION"], Lead0, b_wsection); (["WSURFACE"], Lead0, b_wsurface); (["WINPUT"], Lead0, b_winput); (["W1PANPRE"], Lead0, b_w1panpre)].

(** ** Records of any type: entry, bytes, what is known after it, what is left *)
Definition found : Type := entry * list ascii * ctx * list phys.
Definition is_white (k : kind) (c : ascii) : bool :=
  (9 <=? code c) && (code c <=? 13) || (code c =? 32) || match k with Fmt => (28 <=? code c) && (code c <=? 31) | Unf => false end.
Definition text (k : kind) (l : list ascii) : option (list ascii) :=
  let t := strip is_blank l in
  let* _ := guard match t with [] => true | a :: _ => negb (is_white k a) && negb (is_white k (last t blank)) end in Some t.
Fixpoint texts (k : kind) (ls : list (list ascii)) : option (list (list ascii)) :=
  match ls with [] => Some [] | l :: r => let* t := text k l in let* ts := texts k r in Some (t :: ts) end.
Definition r_text (c : ctx) (fs : list flt) (ps : list phys) : option found :=
  match fs with
  | [a; b; nl; e] => let* n := howmany nl in let* (lb, q) := lines n ps in Some (mkEntry (nums [a; b; nl; e]) [map PS (fst lb)], snd lb, c, q)
  | _ => None
  end.
Definition r_name (k : kind) (c : ctx) (fs : list flt) (ps : list phys) : option found :=
  match fs with
  | [a; b; cn; ct] =>
      let* n1 := howmany cn in let* n2 := howmany ct in
      let* (l1, q) := lines (Z.to_nat (Z.of_nat n1 / 100)) ps in
      let* (l2, q) := lines (Z.to_nat (Z.of_nat n2 / 100)) q in
      let* t1 := texts k (fst l1) in let* t2 := texts k (fst l2) in
      let* _ := guard (forallb (forallb (fun x => code x <? 128)) t1) in
      Some (mkEntry (nums [a; b; cn; ct] ++ [PS (concat t1)]) [map PS t2], snd l1 ++ snd l2, c, q)
  | _ => None
  end.
Definition refs_take (f : flt) (n : nat) (l : list flt) : option (list flt * list flt) := if flt_eq f fm1 then take n l else Some ([], l).
Definition b_refs (n : nat) (geono fixno eccno transno : flt) (d : list flt) : option (list (list flt)) :=
  let* (geo, d) := refs_take geono n d in let* (fix_, d) := refs_take fixno n d in let* (ecc, d) := refs_take eccno n d in
  let* (trans, d) := refs_take transno n d in let* _ := guard (has_len 0 d) in Some [geo; fix_; ecc; trans].
Definition r_gelref1 (k : kind) (c : ctx) (fs : list flt) (ps : list phys) : option found :=
  match fs, ps with
  | [elno; a; b; g], p1 :: p2 :: q =>
      let* z := whole elno in let* t := x_elem c z in let* n := nodes_of t in
      let* r2 := cont k Lead8 p1 in let* r3 := cont k Lead8 p2 in
      let* _ := guard (has_len 4 r2) in
      match r3 with
      | [geono; fixno; eccno; transno] =>
          let* (ru, q) := data k Lead8 true (b_refs n geono fixno eccno transno) q in
          Some (mkEntry (nums ([elno; a; b; g] ++ r2 ++ [geono; fixno; eccno; transno])) (map nums (fst ru)), snd p1 ++ snd p2 ++ snd ru, c, q)
      | _ => None
      end
  | _, _ => None
  end.
Definition r_bldep (k : kind) (c : ctx) (fs : list flt) (ps : list phys) : option found :=
  match fs with
  | [a; b; g; nd] =>
      let* n := howmany nd in let* (cu, q) := conts k Lead8 n ps in
      let* _ := guard (forallb (fun r => Nat.leb 3 (length r)) (fst cu)) in
      Some (mkEntry (nums fs) [tuples (map (firstn 3) (fst cu))], snd cu, c, q)
  | _ => None
  end.
Definition r_beuslo (k : kind) (c : ctx) (fs : list flt) (ps : list phys) : option found :=
  match fs, ps with
  | [a; b; cplx; g], p1 :: q =>
      let* r := cont k Lead8 p1 in
      match r with
      | r1a :: nd :: r1b =>
          let* n := howmany nd in let* _ := guard (has_len 2 r1b) in
          let* (ru, q) := data k Lead8 true (fun d => let* (rl, il) := take n d in
                                       let* _ := guard (if flt_eq cplx f0 then has_len 0 il else has_len n il) in Some (rl, il)) q in
          let '(rl, il) := fst ru in
          Some (mkEntry (nums ([a; b; cplx; g] ++ r1a :: nd :: r1b)) [nums rl; nums il], snd p1 ++ snd ru, c, q)
      | _ => None
      end
  | _, _ => None
  end.
Definition exactly (n : nat) (d : list flt) : option (list flt) := let* _ := guard (has_len n d) in Some d.
Definition r_section (k : kind) (nc no : nat) (c : ctx) (fs : list flt) (ps : list phys) : option found :=
  let* _ := guard (has_len 4 fs) in
  orelse (let* (du, q) := data k Lead8 true (exactly (nc - 4)) ps in Some (mkEntry (nums (fs ++ fst du)) [], snd du, c, q))
         (let* (du, q) := data k Lead8 false (exactly (nc - 4 - no)) ps in
          match q with
          | h :: _ => let* (m, mfs) := header k h in let* _ := guard (str_in m (allowed k)) in
                      Some (mkEntry (nums (fs ++ fst du ++ repeat f0 no)) [], snd du, c, q)
          | [] => None
          end).
Definition r_regular (kinds : list Z) (k : kind) (c : ctx) (n : string) (fs : list flt) (ps : list phys) : option found :=
  let* (ml, b) := find (fun t => str_in n (fst (fst t))) (builders kinds) in
  let* (ecu, q) := data k (snd ml) true (b c n fs) ps in
  let '(ec, u) := ecu in Some (fst ec, u, snd ec, q).
Definition record (kinds : list Z) (k : kind) (c : ctx) (n : string) (fs : list flt) (ps : list phys) : option found :=
  if str_in n text_types then r_text c fs ps
  else if str_in n name_types then r_name k c fs ps
  else if String.eqb n "GELREF1" then r_gelref1 k c fs ps
  else if String.eqb n "BLDEP" then r_bldep k c fs ps
  else if String.eqb n "BEUSLO" then r_beuslo k c fs ps
  else match find (fun t => String.eqb (fst (fst t)) n) section_types with
       | Some (_, nc, no) => r_section k nc no c fs ps
       | None => r_regular kinds k c n fs ps
       end.
Definition r_hier (k : kind) (c : ctx) (n : string) (fs : list flt) (ps : list phys) : option found :=
  let* (eu, q) := data k Lead0 true (fun d => match d with
    | a :: b :: g :: ns :: ih =>
        let* _ := guard (has_len 4 fs && is_count ns (length ih) && String.eqb n "HIERARCH") in Some (mkEntry (nums (fs ++ [a; b; g; ns])) [nums ih])
    | _ => None
    end) ps in
  Some (fst eu, snd eu, c, q).
Definition r_tran (k : kind) (c : ctx) (n : string) (fs : list flt) (ps : list phys) : option found :=
  match fs with
  | [nf; it; x; y] =>
      let* nf' := whole nf in let* it' := whole it in
      let* (eu, q) := data k Lead0 true (fun d => let* rows := to_matrix 4 4 (x :: y :: d) in Some (mkEntry [PI nf'; PI it'; PT (tuples rows)] [])) ps in
      let* _ := guard (str_in n tran_types) in Some (fst eu, snd eu, c, q)
  | _ => None
  end.

(** ** Runs *)
Record run_found : Type := mkFound { rf_item : item; rf_items : list item; rf_ctx : ctx; rf_name : string; rf_fs : list flt; rf_ps : list phys; rf_end : list ascii }.
Fixpoint run (rec : kind -> ctx -> string -> list flt -> list phys -> option found) (fuel : nat) (k : kind) (n : string) (c : ctx) (fs : list flt)
    (ps : list phys) (e : list ascii) : option run_found :=
  let* (euc, q) := rec k c n fs ps in
  let '(en, u, c1) := euc in
  let* (mmq, e1) := next k q e in
  let '(m, mfs, q1) := mmq in
  if String.eqb m n then
    match fuel with
    | O => None
    | S f => let* r := run rec f k n c1 mfs q1 e1 in
             Some (mkFound (mkItem fs u en) (rf_item r :: rf_items r) (rf_ctx r) (rf_name r) (rf_fs r) (rf_ps r) (rf_end r))
    end
  else Some (mkFound (mkItem fs u en) [] c1 m mfs q1 e1).
(** ** Records that are passed over *)
Definition starts_blank (p : phys) : bool := lascii_eqb (firstn 8 (fst p)) blanks8.
Fixpoint blank_run (ps : list phys) : list phys * list phys :=
  match ps with p :: r => if starts_blank p then let '(a, b) := blank_run r in (p :: a, b) else ([], ps) | [] => ([], []) end.
Definition restf (k : kind) (n : string) (fs : list flt) (ps : list phys) (e : list ascii) : option (list ascii * list phys) :=
  match fs with
  | [] => None
  | f :: l =>
      if flt_lt f f0 then
        if flt_eq f fm5 then match ps with p :: r => let* _ := cont k Lead0 p in Some (snd p, r) | [] => None end else Some ([], ps)
      else if prefix "TD" n then
        match l with
        | _ :: a :: b :: _ =>
            let* za := whole a in let* zb := whole b in
            let* (lb, q) := lines (Z.to_nat (za / 100) + Z.to_nat (zb / 100)) ps in Some (snd lb, q)
        | _ => None
        end
      else
        let '(bl, r) := blank_run ps in
        if some_in bl then Some (concat (map snd bl), r)
        else
          if match next k ps e with Some (m, _, _, _) => str_in m (allowed k) | None => false end then Some ([], ps)
          else
            let* z := whole f in
            if z <=? 4 then Some ([], ps)
            else match k, ps with
                 | Unf, p :: _ =>
                     let* (du, q) := data k Lead0 true (exactly (Z.to_nat (z - 4))) ps in
                     let* _ := guard (lascii_eqb (firstn (length (snd p)) (snd du)) (snd p) &&
                                      negb (str_in (l2s (strip is_space_b (firstn 8 (fst p)))) allowed_record_names_str)) in
                     Some (snd du, q)
                 | _, _ => None
                 end
  end.
Fixpoint pass (fuel : nat) (k : kind) (n : string) (fs : list flt) (ps : list phys) (e : list ascii) : option (string * list flt * list phys * list ascii) :=
  let* (u, q) := restf k n fs ps e in
  let* (mmq, e1) := next k q e in
  let '(m, mfs, q1) := mmq in
  if String.eqb m n then match fuel with O => None | S f => pass f k n mfs q1 e1 end else Some (m, mfs, q1, e1).

(** ** Whole files *)
Definition is_asked (only : list string) (n : string) : bool := match only with [] => true | _ => str_in n only end.
Definition some_kinds : list (list Z) := [[1; 2]; [1]; [2]; [3]; [1; 3]; [2; 3]; [1; 2; 3]].
Fixpoint first_of {A B} (f : A -> option B) (l : list A) : option (A * B) :=
  match l with [] => None | a :: r => match f a with Some b => Some (a, b) | None => first_of f r end end.
Definition after (st : fstate) (c : ctx) (hier : bool) (n : string) (con : content) : fstate :=
  mkF c true hier (put_tab n con (s_tabs st)) (s_names st ++ [n]).
Definition store_run (st : fstate) (n : string) (es : list entry) : option content := putf (cols_of n) (elts_of n) (base_content n (s_tabs st n)) es.
Section Reading.
  Variables (only : list string) (k : kind) (id : Z) (sub : bool).
  Fixpoint readf (fuel : nat) (st : fstate) (n : string) (fs : list flt) (ps : list phys) (e : list ascii) : option (list seg) :=
    match fuel with
    | O => None
    | S fu =>
        let run_of hier r :=
          let its := rf_item r :: rf_items r in
          let* con := store_run st n (map i_entry its) in
          let* segs := readf fu (after st (rf_ctx r) hier n con) (rf_name r) (rf_fs r) (rf_ps r) (rf_end r) in
          Some (Run n its :: segs) in
        let passed (_ : unit) :=
          let* (mmq, e1) := pass fu k n fs ps e in
          let '(m, mfs, q) := mmq in
          let* segs := readf fu st m mfs q e1 in Some (Pass n :: segs) in
        if String.eqb n "" then Some []
        else if negb (is_asked only n) then passed tt
        else
          match fs with
          | [] => None
          | f :: l =>
              if String.eqb n "IEND" && flt_eq f f0 then Some [Look "IEND" fs (bytes ps e)]
              else if flt_lt f f0 then
                let* q := (if flt_eq f fm5 then match ps with p :: r => let* _ := cont k Lead0 p in Some r | [] => None end else Some ps) in
                let* (mmq, e1) := next k q e in
                let '(m, mfs, q1) := mmq in
                let* segs := readf fu st m mfs q1 e1 in Some (Pass n :: segs)
              else if str_in n laid_types then
                let* _ := guard (s_known st) in
                let* (kinds, r) := first_of (fun kinds => run (record kinds) fu k n (s_ctx st) fs ps e) some_kinds in
                run_of (s_hier st) r
              else if str_in n tran_types then
                let* _ := guard (s_known st) in
                let* r := run r_tran fu k n (s_ctx st) fs ps e in run_of (s_hier st) r
              else if String.eqb n "HIERARCH" then
                match l with
                | g :: x :: _ =>
                    let* z := whole x in let* _ := guard ((z =? id) && negb sub) in
                    let* r := run r_hier fu k n (s_ctx st) fs ps e in run_of true r
                | _ => None
                end
              else if String.eqb n "IDENT" then
                match l with
                | g :: x :: _ =>
                    let* a := whole f in let* b := whole g in let* d := whole x in
                    let* _ := guard (s_known st || (b =? id)) in
                    let en := mkEntry [PI a; PI b; PI d] [] in
                    let* con := store_run st n [en] in
                    let* (mmq, e1) := next k ps e in
                    let '(m, mfs, q1) := mmq in
                    let* segs := readf fu (after st (s_ctx st) (s_hier st) n con) m mfs q1 e1 in
                    Some (Run n [mkItem fs [] en] :: segs)
                | _ => None
                end
              else if String.eqb n "IRECSIZE" then
                match l with
                | g :: _ =>
                    let* _ := whole g in
                    let* (mmq, e1) := next k ps e in
                    let '(m, mfs, q1) := mmq in
                    let* segs := readf fu (saw st n) m mfs q1 e1 in Some (Look n fs (bytes ps e) :: segs)
                | _ => None
                end
              else if String.eqb n "IEND" then
                let* (mmq, e1) := next k ps e in
                let '(m, mfs, q1) := mmq in
                let* segs := readf fu (saw st n) m mfs q1 e1 in Some (Look n fs (bytes ps e) :: segs)
              else if str_in n known_types then None else passed tt
          end
    end.
End Reading.
(** The records of a file, if it keeps to the description. *)
Definition describe (only : list string) (k : kind) (id : Z) (sub : bool) (bs : list ascii) : option (list seg) :=
  let '(ps, e) := deframes (length bs) k bs in
  let* (mmq, e1) := next k ps e in
  let '(m, mfs, q) := mmq in
  readf only k id sub (S (length ps)) start m mfs q e1.
