(** * HydroFloat: the arithmetic of hydrodata.py, number by number.

    Hydro.v leaves the periods, the headings in degrees and the division of
    the pressures as parameters; here they are what numpy computes.  The arrays
    are float32 and complex64 (the columns of the tables, schema.py), and Python
    floats met by an array are first made float32, so that each operation is one
    of single precision, rounded to nearest, half to even. *)
From Verif Require Import Base Flt H5 Schema.
Open Scope Z_scope.

(** [a * b], [a / b] and [a + b], rounded by [rnd]. *)
Definition fneg (a : flt) : flt :=
  match a with FNan => FNan | FInf s => FInf (negb s) | FZero s => FZero (negb s) | FFin s m e => FFin (negb s) m e end.
Definition fsign (a : flt) : bool := match a with FNan => false | FInf s | FZero s | FFin s _ _ => s end.
Definition fmul (rnd : flt -> flt) (a b : flt) : flt :=
  let s := xorb (fsign a) (fsign b) in
  match a, b with
  | FNan, _ | _, FNan | FInf _, FZero _ | FZero _, FInf _ => FNan
  | FInf _, _ | _, FInf _ => FInf s
  | FZero _, _ | _, FZero _ => FZero s
  | FFin _ m e, FFin _ n f => rnd (fmk s (m * n) (e + f))
  end.
(** The quotient of the mantissas to 56 digits and more, the last one marking
    whether anything is left over. *)
Definition fdiv (rnd : flt -> flt) (a b : flt) : flt :=
  let s := xorb (fsign a) (fsign b) in
  match a, b with
  | FNan, _ | _, FNan | FInf _, FInf _ | FZero _, FZero _ => FNan
  | FInf _, _ | _, FZero _ => FInf s
  | FZero _, _ | _, FInf _ => FZero s
  | FFin _ m e, FFin _ n f =>
      let sh := Z.max 0 (56 + Z.log2 (Zpos n) - Z.log2 (Zpos m)) in
      let N := Z.shiftl (Zpos m) sh in
      let q := N / Zpos n in
      match 2 * q + (if N - q * Zpos n =? 0 then 0 else 1) with
      | Zpos k => rnd (fmk s k (e - f - sh - 1))
      | _ => FZero s
      end
  end.
Definition fplus (rnd : flt -> flt) (a b : flt) : flt :=
  match a, b with
  | FNan, _ | _, FNan => FNan
  | FInf s, FInf t => if Bool.eqb s t then FInf s else FNan
  | FInf s, _ => FInf s
  | _, FInf t => FInf t
  | FZero s, FZero t => FZero (s && t)
  | FZero _, _ => b
  | _, FZero _ => a
  | FFin _ _ _, FFin _ _ _ =>
      let e0 := Z.min (fexp a) (fexp b) in
      match scaled a e0 + scaled b e0 with
      | Z0 => FZero false
      | Zpos p => rnd (fmk false p e0)
      | Zneg p => rnd (fmk true p e0)
      end
  end.
Definition mul32 := fmul round32.
Definition div32 := fdiv round32.
Definition add32 := fplus round32.
Definition sub32 (a b : flt) : flt := fplus round32 a (fneg b).
Definition fabs (a : flt) : flt :=
  match a with FNan => FNan | FInf _ => FInf false | FZero _ => FZero false | FFin _ m e => FFin false m e end.

(** np.pi, the double 0x1.921fb54442d18p+1 *)
Definition np_pi : flt := FFin false 884279719003555 (-48).

(** hydrodata.py:61 `2*np.pi / self._angfreqs`: the Python float 2*np.pi, made
    float32, by each entry *)
Definition period32 (w : flt) : flt := div32 (round32 (fmul round64 (f_of_Z 2) np_pi)) w.
(** hydrodata.py:139 `self._directions * 180. / np.pi` *)
Definition degrees32 (d : flt) : flt := div32 (mul32 d (round32 (f_of_Z 180))) (round32 np_pi).

(** numpy's division of complex numbers (Smith's), [a + b i] by [c + d i]. *)
Definition smith (a b c d : flt) : flt * flt :=
  if flt_lt (fabs c) (fabs d) then
    let rat := div32 c d in
    let scl := div32 f1 (add32 d (mul32 c rat)) in
    (mul32 (add32 (mul32 a rat) b) scl, mul32 (sub32 (mul32 b rat) a) scl)
  else if negb (truthy c) && negb (truthy d) then (div32 a (fabs c), div32 b (fabs c))
  else
    let rat := div32 d c in
    let scl := div32 f1 (add32 c (mul32 d rat)) in
    (mul32 (add32 a (mul32 b rat)) scl, mul32 (sub32 b (mul32 a rat)) scl).
(** hydrodata.py:285 `p / self.ro / self.g`, one of the divisions: an entry of a
    complex64 array by a float32, which is made complex64.  (No other cells meet
    there; of them the result is not meant.) *)
Definition divide32 (p c : cell) : cell :=
  match p, c with
  | CC a b, CF c => let '(x, y) := smith a b c (FZero false) in CC x y
  | _, _ => p
  end.
