(** * Survey: files and what their records say, worked out

    [describe] (Describe) takes a file apart; here the files of an assembly are
    taken apart, and nodes, elements, sets and results are gathered from the
    records.  Proved right in SurveyProofs; the reading functions of the model
    are not used. *)
From Verif Require Import Base Flt SeqFile H5 Schema Files SeqSpec StoreSpec ParserSpec LayoutSpec FileSpec DataSpec RecordSpec StrucSpec ElemResSpec
  SifNameSpec Convert ConvertSpec AssemblySpec SaysSpec Describe.
Open Scope string_scope.
Open Scope Z_scope.
Open Scope list_scope.

(** ** Contents of a file *)
Fixpoint lf (l : list ascii) : list ascii :=
  match l with
  | [] => []
  | c :: r => if Ascii.eqb c "013" then "010"%char :: match r with d :: r' => if Ascii.eqb d "010" then lf r' else lf r | [] => [] end else c :: lf r
  end.
Definition content_of (b : list ascii) : SeqFile.kind * list ascii :=
  match b with c :: r => if Ascii.eqb c "K" then (Unf, r) else (Fmt, lf b) | [] => (Fmt, []) end.
Definition any_record (segs : list seg) : bool := existsb (fun s => match s with Run _ _ => true | _ => false end) segs.
(** A file with at least one record kept, its kind given. *)
Definition records_of (k : SeqFile.kind) (id : Z) (sub : bool) (b : list ascii) : option (list seg) :=
  let '(k', bs) := content_of b in
  let* segs := describe [] k id sub bs in
  let* _ := guard (match k, k' with Fmt, Fmt | Unf, Unf => any_record segs | _, _ => false end) in Some segs.

(** ** Assemblies *)
Definition whole_at (e : entry) (i : nat) : option Z := match nth_error (e_row e) i with Some (PF f) => whole f | _ => None end.
Definition place_of (e : entry) : option place :=
  let* a := whole_at e 1 in let* b := whole_at e 2 in let* c := whole_at e 3 in let* d := whole_at e 4 in Some (mkPlace a b c d).
Fixpoint all_of {A B} (f : A -> option B) (l : list A) : option (list B) :=
  match l with [] => Some [] | a :: r => let* b := f a in let* bs := all_of f r in Some (b :: bs) end.
Fixpoint distinct (l : list path) : bool :=
  match l with [] => true | p :: r => negb (existsb (fun q => if list_eq_dec string_dec p q then true else false) r) && distinct r end.
Definition lower_good (d : dir) (fp ext : string) (k : SeqFile.kind) (p : place) : bool :=
  match file_in d (lower_file fp ext p) with
  | None => true
  | Some b => negb (pl_type p =? 0) && match records_of k (pl_type p) true b with Some _ => true | None => false end
  end.
Fixpoint numbered_from (z : Z) (ps : list place) : bool := match ps with [] => true | p :: r => (pl_ref p =? z) && numbered_from (z + 1) r end.
Definition survey (d : dir) (fp letter ext pre : string) (id : Z) (b : list ascii) : option (list seg * list place) :=
  let k := fst (content_of b) in
  let* segs := records_of k id false b in
  let* ps := all_of place_of (entries_of "HIERARCH" segs) in
  let* _ := guard (negb (id =? 0) && numbered_from 1 ps && forallb (lower_good d fp ext k) (lower_places ext ps) &&
                   distinct (map (lower_group pre letter id) (lower_places ext ps))) in
  Some (segs, ps).

(** ** Records of one type, in order *)
Fixpoint from {A} (f : nat -> entry -> option A) (j : nat) (es : list entry) : option (list A) :=
  match es with [] => Some [] | e :: r => let* a := f j e in let* l := from f (S j) r in Some (a :: l) end.
Definition list_of {A} (n : string) (segs : list seg) (f : nat -> entry -> option A) : option (list A) :=
  let es := entries_of n segs in let* _ := guard (some_in es) in from f 0 es.
Definition real_of (e : entry) (i : nat) : option cell := match nth_error (e_row e) i with Some (PF f) => Some (CF (round32 f)) | _ => None end.
Definition flts_of (e : entry) : option (list flt) :=
  match e_data e with
  | [l] => all_of (fun v => match v with PF f => Some f | _ => None end) l
  | _ => None
  end.
Definition wholes_of (e : entry) : option (list Z) := let* fs := flts_of e in all_of whole fs.
Definition reals_of (e : entry) : option (list cell) := let* fs := flts_of e in Some (reals_ fs).
(** a text of at most 64 characters, without the zero bytes at its end *)
Fixpoint trimmed (l : list ascii) : list ascii :=
  match l with [] => [] | c :: r => match trimmed r with [] => if Ascii.eqb c nul then [] else [c] | t => c :: t end end.
Definition text_of_ (e : entry) (i : nat) : option (list ascii) := match nth_error (e_row e) i with Some (PS s) => Some (trimmed (firstn 64 s)) | _ => None end.

(** ** Mesh, sets *)
Definition v_node (j : nat) (e : entry) : option Z := let* z := whole_at e 0 in let* i := whole_at e 1 in let* _ := guard (i =? no_of j) in Some z.
Definition v_coord (j : nat) (e : entry) : option (list cell) :=
  let* i := whole_at e 0 in let* _ := guard (i =? no_of j) in let* x := real_of e 1 in let* y := real_of e 2 in let* z := real_of e 3 in Some [x; y; z].
Definition v_elem (j : nat) (e : entry) : option melem :=
  let* a := whole_at e 0 in let* i := whole_at e 1 in let* t := whole_at e 2 in let* _ := guard (i =? no_of j) in let* l := wholes_of e in Some (mkElem a t l).
Definition mesh_of (segs : list seg) : option (list mnode * list melem) :=
  let* zs := list_of "GNODE" segs v_node in
  let* xs := list_of "GCOORD" segs v_coord in
  let* es := list_of "GELMNT1" segs v_elem in
  let* _ := guard (Nat.eqb (length zs) (length xs) &&
    forallb (fun e => some_in (el_nodes e) && forallb (fun z => (1 <=? z) && (z <=? Zlen zs)) (el_nodes e)) es) in
  Some (map (fun p => mkNode (fst p) (snd p)) (combine zs xs), es).
Definition v_setname (_ : nat) (e : entry) : option setname := let* z := whole_at e 1 in let* t := text_of_ e 4 in Some (t, z).
Definition v_member (_ : nat) (e : entry) : option memrec := let* a := whole_at e 1 in let* b := whole_at e 3 in let* l := wholes_of e in Some (a, b, l).
Definition sets_of (segs : list seg) : option (list setname * list memrec) :=
  let* nms := list_of "TDSETNAM" segs v_setname in let* ms := list_of "GSETMEMB" segs v_member in Some (nms, ms).

(** ** Properties, results *)
Definition geo_of (segs : list seg) : option (list Z) :=
  list_of "GELREF1" segs (fun j e => let* i := whole_at e 0 in let* g := whole_at e 8 in let* _ := guard (i =? no_of j) in Some g).
Definition sections_of (segs : list seg) : option (list (Z * list cell)) :=
  list_of "GBEAMG" segs (fun _ e => let* i := whole_at e 0 in let* l := all_of (real_of e) (seq 1 15) in Some (i, l)).
Definition thicknesses_of (segs : list seg) : option (list (Z * cell)) :=
  list_of "GELTH" segs (fun _ e => let* i := whole_at e 0 in let* c := real_of e 1 in Some (i, c)).
Definition refs_of (segs : list seg) : option (list ref) :=
  list_of "RDRESREF" segs (fun _ e => let* a := whole_at e 1 in let* b := whole_at e 2 in let* c := whole_at e 3 in let* d := whole_at e 5 in Some (mkRef a b c d)).
Definition loads_of (segs : list seg) : option (list (Z * list ascii)) :=
  list_of "TDLOAD" segs (fun _ e => let* a := whole_at e 1 in let* t := text_of_ e 4 in Some (a, t)).
Definition v_result (e : entry) : option (Z * Z * list cell) := let* a := whole_at e 1 in let* b := whole_at e 2 in let* l := reals_of e in Some (a, b, l).
(** node results: one case after the other, in each all nodes in order *)
Fixpoint blocks (fuel nn : nat) (l : list (Z * Z * list cell)) : option (list block) :=
  match l with
  | [] => Some []
  | (z, _, _) :: _ =>
      match fuel with
      | O => None
      | S f =>
          let* (a, r) := take nn l in
          let* _ := guard (forallb (fun jx => (fst (fst (snd jx)) =? z) && (snd (fst (snd jx)) =? no_of (fst jx))) (combine (seq 0 nn) a)) in
          let* bs := blocks f nn r in Some ((z, map snd a) :: bs)
      end
  end.
Definition noderes_of (segs : list seg) (rn : string) (nn : nat) : option (list block) :=
  let* l := list_of rn segs (fun _ => v_result) in blocks (length l) nn l.
(** element results: cases as they come *)
Definition v_eres (es : list melem) (_ : nat) (e : entry) : option (Z * (nat * list cell)) :=
  let* x := v_result e in
  let '(a, b, l) := x in
  let j := Z.to_nat (b - 1) in
  let* el := nth_error es j in let* t := whole_at e 4 in
  let* _ := guard ((t =? el_typ el) && (no_of j =? b)) in Some (a, (j, l)).
Fixpoint eblocks (l : list (Z * (nat * list cell))) : list eblock :=
  match l with
  | [] => []
  | (z, x) :: r => match eblocks r with (z', xs) :: bs => if z =? z' then (z, x :: xs) :: bs else (z, [x]) :: (z', xs) :: bs | [] => [(z, [x])] end
  end.
Definition elemres_of (segs : list seg) (rn : string) (es : list melem) : option (list eblock) :=
  let* l := list_of rn segs (v_eres es) in Some (eblocks l).
