(** * Flt: Python floats.

    A Python float is an IEEE binary64 number.  Here finite non-zero numbers
    are kept as [(-1)^s * m * 2^e] with [m] odd, which is a unique
    representation whatever the format the number came from, so that equality
    of model floats is equality of values (and of the sign of zero).
    Rounding to binary64/binary32 is explicit, round-half-even. *)
From Verif Require Import Base.
Open Scope Z_scope.

Inductive flt : Set :=
| FNan
| FInf (s : bool)
| FZero (s : bool)
| FFin (s : bool) (m : positive) (e : Z).

(** Strip factors of two from the mantissa. *)
Fixpoint strip2 (m : positive) (e : Z) : positive * Z :=
  match m with
  | xO p => strip2 p (e + 1)
  | _ => (m, e)
  end.
Definition fmk (s : bool) (m : positive) (e : Z) : flt :=
  let '(m', e') := strip2 m e in FFin s m' e'.

(** Number of binary digits. *)
Definition nbits (m : positive) : Z := Zpos (Pos.size m).

(** Round [m * 2^e] to at most [prec] bits, quantum at least [2^emin],
    overflow at [2^emax]; half to even. *)
Definition fround (prec emin emax : Z) (f : flt) : flt :=
  match f with
  | FFin s m e =>
      let q := Z.max (nbits m + e - prec) emin in
      if q <=? e then (if emax <? nbits m + e then FInf s else f)
      else
        let sh := q - e in
        let n := Z.shiftr (Zpos m) sh in
        let r := Zpos m - Z.shiftl n sh in
        let half := Z.shiftl 1 (sh - 1) in
        let n' := if r <? half then n
                  else if half <? r then n + 1
                  else if Z.even n then n else n + 1 in
        match n' with
        | Zpos p => if emax <? nbits p + q then FInf s else fmk s p q
        | _ => FZero s
        end
  | _ => f
  end.
Definition round64 : flt -> flt := fround 53 (-1074) 1024.
Definition round32 : flt -> flt := fround 24 (-149) 128.

(** [float(n)] for a Python int of moderate size. *)
Definition f_of_Z (z : Z) : flt :=
  match z with
  | Z0 => FZero false
  | Zpos p => fmk false p 0
  | Zneg p => fmk true p 0
  end.

(** [int(x)]: truncation towards zero. *)
Definition int_of (f : flt) : Res Z :=
  match f with
  | FNan => Err ValueError
  | FInf _ => Err OverflowError
  | FZero _ => Ok 0
  | FFin s m e =>
      let a := if 0 <=? e then Z.shiftl (Zpos m) e else Z.shiftr (Zpos m) (- e) in
      Ok (if s then - a else a)
  end.

(** [bool(x)] *)
Definition truthy (f : flt) : bool := match f with FZero _ => false | _ => true end.

(** Exact comparison; [None] when unordered (NaN). *)
Definition scaled (f : flt) (e0 : Z) : Z :=
  match f with
  | FFin s m e => let a := Z.shiftl (Zpos m) (e - e0) in if s then - a else a
  | _ => 0
  end.
Definition fexp (f : flt) : Z := match f with FFin _ _ e => e | _ => 0 end.
Definition fcmp (a b : flt) : option comparison :=
  match a, b with
  | FNan, _ | _, FNan => None
  | FInf s, FInf t => Some (if Bool.eqb s t then Eq else if s then Lt else Gt)
  | FInf s, _ => Some (if s then Lt else Gt)
  | _, FInf t => Some (if t then Gt else Lt)
  | _, _ => let e0 := Z.min (fexp a) (fexp b) in Some (scaled a e0 ?= scaled b e0)
  end.
Definition flt_lt (a b : flt) : bool := match fcmp a b with Some Lt => true | _ => false end.
Definition flt_eq (a b : flt) : bool := match fcmp a b with Some Eq => true | _ => false end.

(** [a + b] in binary64. *)
Definition fadd (a b : flt) : flt :=
  match a, b with
  | FNan, _ | _, FNan => FNan
  | FInf s, FInf t => if Bool.eqb s t then FInf s else FNan
  | FInf s, _ => FInf s
  | _, FInf t => FInf t
  | FZero s, FZero t => FZero (s && t)
  | FZero _, _ => b
  | _, FZero _ => a
  | FFin _ _ _, FFin _ _ _ =>
      let e0 := Z.min (fexp a) (fexp b) in
      match scaled a e0 + scaled b e0 with
      | Z0 => FZero false
      | Zpos p => round64 (fmk false p e0)
      | Zneg p => round64 (fmk true p e0)
      end
  end.

(** ** struct.unpack('f'): little-endian IEEE single (native order, x86). *)
Definition word32 (b0 b1 b2 b3 : ascii) : Z :=
  code b0 + 256 * code b1 + 65536 * code b2 + 16777216 * code b3.
Definition flt_of_word (w : Z) : flt :=
  let s := 2147483648 <=? w in
  let ex := (w / 8388608) mod 256 in
  let fr := w mod 8388608 in
  if ex =? 255 then (if fr =? 0 then FInf s else FNan)
  else if ex =? 0 then
    match fr with Zpos p => fmk s p (-149) | _ => FZero s end
  else
    match fr + 8388608 with Zpos p => fmk s p (ex - 150) | _ => FZero s end.
Definition unpack_f (l : list ascii) : flt :=
  match l with
  | [b0; b1; b2; b3] => flt_of_word (word32 b0 b1 b2 b3)
  | _ => FNan
  end.

(** ** float(str) *)

Definition is_digit (c : ascii) : bool := let z := code c in (48 <=? z) && (z <=? 57).
Definition dig (c : ascii) : Z := code c - 48.

(** Longest run of decimal digits: value, count, rest. *)
Fixpoint digrun (acc : Z) (n : Z) (l : list ascii) : Z * Z * list ascii :=
  match l with
  | c :: r => if is_digit c then digrun (10 * acc + dig c) (n + 1) r else (acc, n, l)
  | [] => (acc, n, l)
  end.

(** Correctly rounded [(-1)^s * m * 10^x]. *)
Definition dec_to_flt (s : bool) (m x : Z) : flt :=
  match m with
  | Zpos p =>
      if 0 <=? x then
        match m * 10 ^ x with Zpos q => round64 (fmk s q 0) | _ => FZero s end
      else
        let d := 10 ^ (- x) in
        let sh := Z.max 0 (56 + Z.log2 d - Z.log2 m) in
        let n := Z.shiftl m sh in
        let q := n / d in
        let r := n - q * d in
        match 2 * q + (if r =? 0 then 0 else 1) with
        | Zpos k => round64 (fmk s k (- sh - 1))
        | _ => FZero s
        end
  | _ => FZero s
  end.

Definition sign_of (l : list ascii) : bool * list ascii :=
  match l with
  | c :: r => if Ascii.eqb c "-" then (true, r)
              else if Ascii.eqb c "+" then (false, r) else (false, l)
  | [] => (false, l)
  end.

Definition lower (c : ascii) : ascii :=
  let z := code c in if (65 <=? z) && (z <=? 90) then chr (z + 32) else c.

(** Python's float() on a string without digit-group underscores (a field with
    an underscore is rejected here, which CPython accepts between digits;
    SESAM files have none). *)
Definition parse_float (s0 : list ascii) : Res flt :=
  let l := strip is_space_s s0 in
  let '(s, l) := sign_of l in
  let w := l2s (map lower l) in
  if String.eqb w "inf" || String.eqb w "infinity" then Ok (FInf s)
  else if String.eqb w "nan" then Ok FNan
  else
    let '(ip, ni, l) := digrun 0 0 l in
    let '(m, nf, l) :=
      match l with
      | c :: r => if Ascii.eqb c "." then
                    let '(m, n, r') := digrun ip 0 r in (m, n, r')
                  else (ip, 0, l)
      | [] => (ip, 0, l)
      end in
    if ni + nf =? 0 then Err ValueError
    else
      match l with
      | [] => Ok (dec_to_flt s m (- nf))
      | c :: r =>
          if Ascii.eqb (lower c) "e" then
            let '(es, r1) := sign_of r in
            let '(ev, ne, r2) := digrun 0 0 r1 in
            match r2 with
            | [] => if ne =? 0 then Err ValueError
                    else Ok (dec_to_flt s m ((if es then - ev else ev) - nf))
            | _ => Err ValueError
            end
          else Err ValueError
      end.

Definition f0 := FZero false.
Definition f1 := f_of_Z 1.
Definition fm1 := f_of_Z (-1).
Definition fm5 := f_of_Z (-5).

(** ** NumPy stores *)

(** Assignment of a Python float to an int32 field of a structured array
    (`recs[i] = tuple`): int(x), then range check.  Recent NumPy raises
    OverflowError outside int32; older versions wrap. *)
Definition int32_set (f : flt) : Res Z :=
  match int_of f with
  | Ok z => if (-2147483648 <=? z) && (z <=? 2147483647) then Ok z else Err OverflowError
  | Err e => Err e
  end.
(** `astype(int32)` of a float64 array (EArray.append of np.array(list of
    floats)): truncation, INT_MIN when not representable (x86). *)
Definition int32_cast (f : flt) : Z :=
  match int_of f with
  | Ok z => if (-2147483648 <=? z) && (z <=? 2147483647) then z else -2147483648
  | Err _ => -2147483648
  end.

Example parse_ex1 : parse_float (s2l "  1.23456000E+05") = Ok (f_of_Z 123456).
Proof. vm_compute. reflexivity. Qed.
Example parse_ex3 : parse_float (s2l " -2.50000000e-01") = Ok (FFin true 1 (-2)).
Proof. vm_compute. reflexivity. Qed.
(** 0.1 is the binary64 0x3FB999999999999A. *)
Example parse_ex4 : parse_float (s2l "0.1") = Ok (fmk false 7205759403792794 (-56)).
Proof. vm_compute. reflexivity. Qed.
Example unpack_ex : unpack_f (map chr [0; 0; 128; 191]) = fm1
                 /\ unpack_f (map chr [0; 32; 241; 71]) = f_of_Z 123456
                 /\ unpack_f (map chr [1; 0; 0; 0]) = FFin false 1 (-149)
                 /\ unpack_f (map chr [0; 0; 128; 127]) = FInf false.
Proof. repeat split; vm_compute; reflexivity. Qed.
