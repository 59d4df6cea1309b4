(** * Write: FormattedFile as a writer, sequentialfiles.py:264-270, 349-402

    The state is the text written so far and float_places_left.  The attribute
    [self.write], which _write_line (355) calls, is a parameter: the class has no
    such method ([None]); with [Some fwrite] it is self.f.write, which every other
    line of the writer uses. *)
From Verif Require Import Base Flt SeqFile.
Open Scope string_scope.
Open Scope Z_scope.
Open Scope list_scope.
Open Scope monad_scope.

(** ** '{:>16.8e}'.format(f), sequentialfiles.py:357, 377 (CPython's
    float.__format__: the exact binary value correctly rounded to nine digits, a tie
    to the even digit). *)

(** The nearest whole number to N / D. *)
Definition nearest_int (N D : Z) : Z :=
  let n := N / D in let r := N mod D in
  if 2 * r <? D then n else if D <? 2 * r then n + 1 else if Z.even n then n else n + 1.

(** Number of decimal digits of n (0 for 0). *)
Fixpoint ndig_aux (fuel : nat) (n : Z) : Z :=
  match fuel with
  | O => 0
  | S k => if n <=? 0 then 0 else 1 + ndig_aux k (n / 10)
  end.
Definition ndig (n : Z) : Z := ndig_aux (S (Z.to_nat (Z.log2 n))) n.
(** The power of ten of the first digit of num / den. *)
Definition dlog (num den : Z) : Z :=
  if den <=? num then ndig (num / den) - 1 else - ndig ((den - 1) / num).

(** The [k] last digits of [n]. *)
Fixpoint last_digits (k : nat) (n : Z) : list ascii :=
  match k with
  | O => []
  | S j => last_digits j (n / 10) ++ [chr (48 + n mod 10)]
  end.

(** Nine digits and the power of ten of the first. *)
Definition nine_digits (num den : Z) : Z * Z :=
  let x := dlog num den in
  let d := nearest_int (num * 10 ^ Z.max 0 (8 - x)) (den * 10 ^ Z.max 0 (x - 8)) in
  if d =? 10 ^ 9 then (10 ^ 8, x + 1) else (d, x).

Definition sci_text (s : bool) (d x : Z) : list ascii :=
  (if s then ["-"%char] else []) ++ last_digits 1 (d / 10 ^ 8) ++ ["."%char] ++ last_digits 8 d
    ++ ["e"%char; if x <? 0 then "-"%char else "+"%char]
    ++ last_digits (if Z.abs x <? 100 then 2 else 3) (Z.abs x).

Definition rjust16 (l : list ascii) : list ascii := repeat blank (16 - length l) ++ l.
Definition ljust8 (l : list ascii) : list ascii := l ++ repeat blank (8 - length l).

Definition format_e8 (f : flt) : list ascii :=
  rjust16
    match f with
    | FNan => s2l "nan"
    | FInf s => if s then s2l "-inf" else s2l "inf"
    | FZero s => sci_text s 0 0
    | FFin s m e =>
        let '(d, x) := if 0 <=? e then nine_digits (Z.shiftl (Zpos m) e) 1
                       else nine_digits (Zpos m) (Z.shiftl 1 (- e)) in
        sci_text s d x
    end.

(** ** The methods *)
Record outtext : Set := mkOut { o_text : list ascii; o_places : Z }.
Definition W (A : Type) := StM outtext A.
Definition fwrite (l : list ascii) : W unit :=
  fun s => Ok (tt, mkOut (o_text s ++ l) (o_places s)).

(** FormattedFile.__init__ 264-270, mode 'w'. *)
Definition open_out : outtext := mkOut [] 0.

Section Writer.
  Variable self_write : option (list ascii -> W unit).

  (** _write_line 349-361. *)
  Definition write_line (header : list ascii) (rec : list flt) : W unit := fun s =>
    (dos (if o_places s =? 0 then sret tt else fwrite [nl]);
     dos (match self_write with
          | Some w => w (ljust8 header)
          | None => sraise AttributeError
          end);
     dos fwrite (flat_map format_e8 rec);
     fun s2 =>
       let left := 4 - Zlen rec in
       if left =? 0 then fwrite [nl] (mkOut (o_text s2) left) else Ok (tt, mkOut (o_text s2) left)) s.

  (** write_string 363-367. *)
  Definition write_string (str : list ascii) (leading : nat) : W unit := fun s =>
    (dos (if o_places s =? 0 then sret tt else fwrite [nl]);
     fwrite (repeat blank leading ++ str ++ [nl])) s.

  Fixpoint write_lines (ls : list (list flt)) : W unit :=
    match ls with
    | [] => sret tt
    | l :: r => dos write_line blanks8 l; write_lines r
    end.

  (** write_floats 369-395. *)
  Definition write_floats (fl : list flt) : W unit := fun s =>
    match fl with
    | [] => Ok (tt, s)
    | _ =>
      let fpl := o_places s in
      let n := Zlen fl in
      if fpl =? 0 then write_lines (chunks 4 (slice_from fpl fl)) s
      else
        match fwrite (flat_map format_e8 (slice_to fpl fl)) s with
        | Err e => Err e
        | Ok (_, s1) =>
            if n <? fpl then Ok (tt, mkOut (o_text s1) (fpl - n))
            else if fpl =? n then fwrite [nl] (mkOut (o_text s1) 0)
            else write_lines (chunks 4 (slice_from fpl fl)) s1
        end
    end.

  (** write_record 400-402. *)
  Definition write_record (rec_name : list ascii) (rec : list flt) : W unit :=
    dos write_line rec_name (slice_to 4 rec);
    write_floats (slice_from 4 rec).

  (** A file of records, one write_record after the other. *)
  Fixpoint write_records (rs : list (string * list flt)) : W unit :=
    match rs with
    | [] => sret tt
    | (n, rec) :: r => dos write_record (s2l n) rec; write_records r
    end.
End Writer.

(** The class as it is. *)
Definition no_write : option (list ascii -> W unit) := None.

Example format_cases : map (fun f => l2s (format_e8 f)) [f_of_Z 1; FZero true; FFin true 5404319552844595 (-54); fmk false 9999999999 0; FFin false 1 (-1074); FNan; FInf true]
 = ["  1.00000000e+00"; " -0.00000000e+00"; " -3.00000000e-01"; "  1.00000000e+10"; " 4.94065646e-324"; "             nan"; "            -inf"].
Proof. vm_compute. reflexivity. Qed.
