(** * Listing: files and data objects as text (data/file.py, data/sifdata.py). *)
From Verif Require Import Base Flt H5 Schema Data Files Struc Trans Nd Hydro Handles.
Open Scope string_scope.
Open Scope Z_scope.
Open Scope list_scope.
Open Scope monad_scope.

(** '{!r}'.format(s) of a str: within single quotes, or double ones when there
    are single but no double quotes in it; backslash, the quote, tab, newline,
    carriage return and the other control characters are escaped.  Characters
    beyond ASCII are left as they are (Python escapes those not printable). *)
Definition hex_digit (n : nat) : ascii := match String.get n "0123456789abcdef" with Some c => c | None => "0"%char end.
Definition backslash : ascii := ascii_of_nat 92.
Definition single : ascii := ascii_of_nat 39.
Definition double : ascii := ascii_of_nat 34.
Definition repr_char (q c : ascii) : list ascii :=
  if Ascii.eqb c q || Ascii.eqb c backslash then [backslash; c]
  else if Ascii.eqb c (ascii_of_nat 9) then [backslash; "t"%char]
  else if Ascii.eqb c (ascii_of_nat 10) then [backslash; "n"%char]
  else if Ascii.eqb c (ascii_of_nat 13) then [backslash; "r"%char]
  else if (code c <? 32) || (code c =? 127) then
    [backslash; "x"%char; hex_digit (Nat.div (nat_of_ascii c) 16); hex_digit (Nat.modulo (nat_of_ascii c) 16)]
  else [c].
Definition has_char (c : ascii) (s : list ascii) : bool := existsb (Ascii.eqb c) s.
Definition py_repr (s : string) : string :=
  let l := s2l s in
  let q := if has_char single l && negb (has_char double l) then double else single in
  l2s ([q] ++ flat_map (repr_char q) l ++ [q]).

(** SifData.__str__, sifdata.py:37-48 *)
Definition data_str (d : sdata) : string :=
  if d_open d then
    if String.eqb (d_datatype d) "HYDRODYNAMIC" then lower_s (d_datatype d) ++ " data"
    else lower_s (d_level d) ++ " " ++ lower_s (d_datatype d) ++ " data"
  else "<Closed SifData object>".
(** SifData.__repr__, sifdata.py:50-56; name: the last part of the group *)
Definition data_repr (d : sdata) : string :=
  if d_open d then "SifData(name=" ++ last (d_group d) "" ++ ")" else "<Closed SifData object>".

(** sorted(self._data.items()): the keys of a dict are all different, so that
    two items are never compared beyond them. *)
Fixpoint ins_key (o : hobj) (l : list hobj) : list hobj :=
  match l with [] => [o] | p :: r => if str_leb (ob_key o) (ob_key p) then o :: l else p :: ins_key o r end.
Definition by_key (l : list hobj) : list hobj := fold_right ins_key [] l.
Definition newline : string := String (ascii_of_nat 10) EmptyString.
(** File.__str__, file.py:139-148 *)
Definition file_str (f : hfile) : string :=
  if hf_open f then
    fold_left (fun s o => s ++ (py_repr (ob_key o) ++ ": " ++ data_str (ob_data o) ++ newline))%string (by_key (hf_objs f)) ""
  else "<Closed File object>".
(** File.__repr__, file.py:150-159: sorted() of the data objects, which cannot be
    compared: TypeError when there are two or more. *)
Definition file_repr (f : hfile) : Res string :=
  if hf_open f then
    match hf_objs f with
    | [] => Ok ""
    | [o] => Ok (data_repr (ob_data o) ++ newline)%string
    | _ => Err TypeError
    end
  else Ok "<Closed File object>".

(** SifData._record_info, sifdata.py:114-118: the tables of the group in
    alphabetical order, their names filled with blanks up to eight characters.
    There is no check that the object is open; the attribute _tbgroup of a closed
    one is gone. *)
Definition child_tables (h : h5) (p : path) : list string :=
  str_sort (flat_map (fun qn => match h5_find (fst qn) h, below p (fst qn) with
                                | Some (Table _ _), Some n => [n]
                                | _, _ => []
                                end) h).
Fixpoint blanks (n : nat) : string := match n with O => "" | S m => String " "%char (blanks m) end.
Definition fill (w : nat) (s : string) : string := s ++ blanks (w - String.length s).
Definition table_len (h : h5) (p : path) : nat := match h5_find p h with Some (Table _ rows) => length rows | _ => O end.
Definition record_info (h : h5) (d : sdata) : Res string :=
  if d_open d then
    Ok (fold_left (fun s n => s ++ (fill 8 n ++ ": " ++ str_of_Z (Z.of_nat (table_len h (d_group d ++ [n])%list)) ++ newline))%string
          (child_tables h (d_group d)) "")
  else Err AttributeError.
