(** * CalcFloat: principal and von Mises stresses with every operation rounded. *)
From Coq Require Import Reals.
From Verif Require Import Base Flt H5 Nd Calc.
Open Scope list_scope.
Open Scope monad_scope.
Local Open Scope R_scope.

(** The arrays are of single or double precision and stay so; [rnd] is the rounding
    of the array's type, which numpy applies after each operation on the entries
    ([x ** 2] is one multiplication, [np.sqrt] is rounded correctly). *)
Section Rounded.
  Variable rnd : R -> R.
  Definition fadd (x y : R) : R := rnd (x + y).
  Definition fsub (x y : R) : R := rnd (x - y).
  Definition fmul (x y : R) : R := rnd (x * y).
  Definition fdiv (x y : R) : R := rnd (x / y).
  Definition fsqrt (x : R) : R := rnd (sqrt x).
  Definition fsq (x : R) : R := fmul x x.
  (** principal2d, principal.py:13-29 *)
  Definition principal2d_fl_at (p : list R) : Res (list R) :=
    dor sxx <- comp p 0;
    dor syy <- comp p 1;
    dor txy <- comp p 2;
    let part1 := fdiv (fadd sxx syy) 2 in
    let part2 := fmul (/ 2) (fsqrt (fadd (fsq (fsub sxx syy)) (fmul 4 (fsq txy)))) in
    Ok [fadd part1 part2; fsub part1 part2].
  Definition principal2d_fl (arr : list (list R)) : Res (list (list R)) := rmap principal2d_fl_at arr.
  (** vonmises2d, vonmises.py:11-22 *)
  Definition vonmises2d_fl_at (p : list R) : Res R :=
    dor sxx <- comp p 0;
    dor syy <- comp p 1;
    dor txy <- comp p 2;
    Ok (fsqrt (fadd (fsub (fadd (fsq sxx) (fsq syy)) (fmul sxx syy)) (fmul 3 (fsq txy)))).
  Definition vonmises2d_fl (arr : list (list R)) : Res (list R) := rmap vonmises2d_fl_at arr.
End Rounded.
