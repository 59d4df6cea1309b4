(** * SetArg: the argument [sets] as a Python value (data/strucdata.py:41-45).

    [Struc] takes the names as text.  Here they are str or np.bytes_, and the set is
    looked up by a condition, a text that PyTables compiles. *)
From Verif Require Import Base Flt H5 Schema Data Struc Listing.
Open Scope string_scope.
Open Scope Z_scope.
Open Scope list_scope.
Open Scope monad_scope.

(** What can come out of the loop at line 43. *)
Inductive pyval : Set := PStr (s : list ascii) | PBytes (s : list ascii) | PInt (z : Z).
(** What can be given: nothing, one value, a sequence of values. *)
Inductive sets_arg : Set := SNone | SOne (v : pyval) | SSeq (l : list pyval).

(** repr() of it: of a str as in [Listing]; of np.bytes_ as NumPy 2 shows it
    (poetry.lock: 2.2.0); of an int in decimals. *)
Fixpoint digits (fuel : nat) (n : nat) : list ascii :=
  match fuel with
  | O => []
  | S f => (if (n <? 10)%nat then [] else digits f (Nat.div n 10)) ++ [ascii_of_nat (48 + Nat.modulo n 10)]
  end.
Definition repr_of (v : pyval) : list ascii :=
  match v with
  | PStr s => s2l (py_repr (l2s s))
  | PBytes s => s2l "np.bytes_(b" ++ s2l (py_repr (l2s s)) ++ [")"%char]
  | PInt z => (if z <? 0 then ["-"%char] else []) ++ digits 20 (Z.to_nat (Z.abs z))
  end.
(** 'name==b{}'.format(repr(setname)), strucdata.py:44 *)
Definition condition (v : pyval) : list ascii := s2l "name==b" ++ repr_of v.

(** The rest of a bytes literal after its opening quote [q]: the bytes and what
    follows the closing quote.  Escapes as repr writes them; octal ones and
    characters beyond ASCII do not occur and are not modelled. *)
Definition hex_value (c : ascii) : option nat :=
  let n := nat_of_ascii c in
  if ((48 <=? n) && (n <=? 57))%nat then Some (n - 48)%nat
  else if ((97 <=? n) && (n <=? 102))%nat then Some (n - 87)%nat else None.
Fixpoint unquote (q : ascii) (l : list ascii) : option (list ascii * list ascii) :=
  match l with
  | [] => None
  | c :: r =>
      if Ascii.eqb c q then Some ([], r)
      else if Ascii.eqb c backslash then
        match r with
        | e :: r' =>
            let go (x : ascii) (t : list ascii) := match unquote q t with Some (s, u) => Some (x :: s, u) | None => None end in
            if Ascii.eqb e q || Ascii.eqb e backslash then go e r'
            else if Ascii.eqb e "t" then go (ascii_of_nat 9) r'
            else if Ascii.eqb e "n" then go (ascii_of_nat 10) r'
            else if Ascii.eqb e "r" then go (ascii_of_nat 13) r'
            else if Ascii.eqb e "x" then
              match r' with
              | a :: b :: r2 =>
                  match hex_value a, hex_value b with Some x, Some y => go (ascii_of_nat (16 * x + y)) r2 | _, _ => None end
              | _ => None
              end
            else None
        | [] => None
        end
      else match unquote q r with Some (s, u) => Some (c :: s, u) | None => None end
  end.
(** The name that a condition compares with.  What follows [name==b] is a literal
    if it starts with a quote.  Otherwise the [b] is the start of a variable's name,
    b100 or bnp, which neither is a column of the table nor exists in getrow
    (helpers.py:12-18): NameError.  Before, numexpr refuses texts with certain
    characters outside single quotes; with a name without single quotes nothing is
    outside but [name==b]. *)
Definition compared (cond : list ascii) : Res (list ascii) :=
  match skipn 7 cond with
  | q :: r =>
      if Ascii.eqb q single || Ascii.eqb q double then
        match unquote q r with Some (s, []) => Ok s | _ => Err ValueError end
      else Err NameError
  | [] => Err NameError
  end.

(** Truth of the argument: None, '' and empty sequences are false. *)
Definition given_sets (a : sets_arg) : bool :=
  match a with
  | SNone | SSeq [] | SOne (PStr []) | SOne (PBytes []) => false
  | SOne (PInt z) => negb (z =? 0)
  | _ => true
  end.
(** strucdata.py:41-43: a str is a sequence of one; going through np.bytes_ gives
    ints; an int cannot be gone through. *)
Definition values (a : sets_arg) : Res (list pyval) :=
  match a with
  | SNone => Err TypeError
  | SOne (PStr s) => Ok [PStr s]
  | SOne (PBytes s) => Ok (map (fun c => PInt (code c)) s)
  | SOne (PInt _) => Err TypeError
  | SSeq l => Ok l
  end.
(** StrucData._get_setmember_indices, strucdata.py:30-49 *)
Definition setmember_indices (h : h5) (d : sdata) (a : sets_arg) (istype : Z) : Res (list Z) :=
  dor (tdsetnam, _) <- record1 h d "TDSETNAM";
  dor (gsetmemb, irmemb) <- record1 h d "GSETMEMB";
  dor vs <- values a;
  dor setmembs <- rmap (fun v =>
      dor nm <- compared (condition v);
      dor row <- getrow tdsetnam (text_is tdsetnam "name" nm);
      dor isref <- ifield tdsetnam "idno" row;
      dor rs <- rfilter (both (int_is gsetmemb "isref" isref) (int_is gsetmemb "istype" istype)) (t_rows gsetmemb);
      rmap (fun r => dor a <- ifield gsetmemb "irmemb_start" r;
                     dor b <- ifield gsetmemb "irmemb_stop" r;
                     ints_of (slice a b irmemb)) rs) vs;
  dor all <- concatenate (concat setmembs);
  Ok (map (fun x => x - 1) (unique all)).
(** StrucData._get_elementindices, strucdata.py:84-98 *)
Definition elementindices (h : h5) (d : sdata) (a : sets_arg) (kind : string) : Res (list Z) :=
  if given_sets a then
    dor idx <- setmember_indices h d a 2;
    if some_kind kind then get_elementkind_indices h d kind (Some idx) else Ok idx
  else get_elementindices h d [] kind.
(** FirstLevelData.get_elementnumbers, strucdata.py:690-705 *)
Definition elementnumbers (h : h5) (d : sdata) (a : sets_arg) (kind : string) (numbertype : string) : Res (list Z) :=
  dor (gelmnt1, _) <- record1 h d "GELMNT1";
  dor c <- elem_col numbertype;
  if given_sets a || some_kind kind then
    dor idx <- elementindices h d a kind;
    dor nos <- icol gelmnt1 c;
    take nos idx
  else icol gelmnt1 c.
(** The values that get_setnames returns (strucdata.py:187): np.bytes_ *)
Definition as_bytes (c : cell) : pyval := match c with CS s => PBytes s | CI z => PInt z | _ => PInt 0 end.
