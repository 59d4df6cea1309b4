(** * Calc: calculations on results (freesif/calc). *)
From Coq Require Import Reals.
From Verif Require Import Base Flt H5 Nd.
Open Scope Z_scope.
Open Scope list_scope.
Open Scope monad_scope.

(** ** Signed absolute maximum *)
Section Order.
  Context {A : Type}.
  Variables (lt : A -> A -> bool) (neg : A -> A).
  (** max and min of the entries of an axis; ValueError without entries *)
  Definition amax (l : list A) : Res A :=
    match l with [] => Err ValueError | x :: r => Ok (fold_left (fun m y => if lt m y then y else m) r x) end.
  Definition amin (l : list A) : Res A :=
    match l with [] => Err ValueError | x :: r => Ok (fold_left (fun m y => if lt y m then y else m) r x) end.
  (** The entries which an axis runs through, for each index of the others. *)
  Definition line (a : nd A) (k : nat) (idx : list nat) : list A :=
    optmap (fun i => at_ a (insert_at k i idx)) (seq 0 (nth k (n_shape a) 0%nat)).
  Definition drop_at {B} (k : nat) (l : list B) : list B := firstn k l ++ skipn (S k) l.
  Definition reduce (f : list A -> Res A) (a : nd A) (axis : option Z) : Res (nd A) :=
    match axis with
    | None => dor x <- f (n_flat a); Ok (mkNd [] [x])
    | Some z =>
        let n := Zlen (n_shape a) in
        if (z <? - n) || (n <=? z) then Err ValueError (* AxisError *)
        else
          let k := Z.to_nat (if z <? 0 then z + n else z) in
          let sh := drop_at k (n_shape a) in
          dor xs <- rmap (fun idx => f (line a k idx)) (indices sh);
          Ok (mkNd sh xs)
    end.
  (** absmax, general.py:11-16; np.where entry by entry *)
  Definition absmax (a : nd A) (axis : option Z) : Res (nd A) :=
    dor ma <- reduce amax a axis;
    dor mi <- reduce amin a axis;
    Ok (mkNd (n_shape ma) (map (fun p => if lt (fst p) (neg (snd p)) then snd p else fst p) (combine (n_flat ma) (n_flat mi)))).
End Order.

(** ** Principal and von Mises stresses, over the reals.  An array of shape
    (..., k) is the list of its points, each with its k components. *)
Local Open Scope R_scope.
Definition Rltb (x y : R) : bool := if Rlt_dec x y then true else false.
Definition comp (p : list R) (i : nat) : Res R := match nth_error p i with Some x => Ok x | None => Err IndexError end.
(** principal2d, principal.py:13-29 *)
Definition principal2d_at (p : list R) : Res (list R) :=
  dor sxx <- comp p 0;
  dor syy <- comp p 1;
  dor txy <- comp p 2;
  let part1 := (sxx + syy) / 2 in
  let part2 := / 2 * sqrt ((sxx - syy) ^ 2 + 4 * txy ^ 2) in
  Ok [part1 + part2; part1 - part2].
Definition principal2d (arr : list (list R)) : Res (list (list R)) := rmap principal2d_at arr.
(** vonmises2d, vonmises.py:11-22 *)
Definition vonmises2d_at (p : list R) : Res R :=
  dor sxx <- comp p 0;
  dor syy <- comp p 1;
  dor txy <- comp p 2;
  Ok (sqrt (sxx ^ 2 + syy ^ 2 - sxx * syy + 3 * txy ^ 2)).
Definition vonmises2d (arr : list (list R)) : Res (list R) := rmap vonmises2d_at arr.

(** np.argmin: the first position of a smallest entry; np.delete of one entry *)
Fixpoint argmin_from (best : R) (bi i : nat) (l : list R) : nat :=
  match l with
  | [] => bi
  | x :: r => if Rltb x best then argmin_from x i (S i) r else argmin_from best bi (S i) r
  end.
Definition argminR (l : list R) : nat := match l with [] => 0%nat | x :: r => argmin_from x 0 1 r end.
(** principal_thickshell, principal.py:32-66; [eig] stands for np.linalg.eig of a
    3x3 matrix: its eigenvalues in some order *)
Definition tensor (p : list R) : Res (list (list R)) :=
  dor sxx <- comp p 0;
  dor syy <- comp p 1;
  dor txy <- comp p 2;
  dor txz <- comp p 3;
  dor tyz <- comp p 4;
  Ok [[sxx; txy; txz]; [txy; syy; tyz]; [txz; tyz; 0]].
Definition thickshell_of (p : list R) : Res (list R) :=
  let p_mod := drop_at (argminR (map Rabs p)) p in
  dor p1 <- amax Rltb p_mod;
  dor p2 <- amin Rltb p_mod;
  Ok [p1; p2].
Definition principal_thickshell (eig : list (list R) -> list R) (arr : list (list R)) : Res (list (list R)) :=
  rmap (fun q => dor s <- tensor q; thickshell_of (eig s)) arr.
(** vonmises_thickshell, vonmises.py:25-26 *)
Definition vonmises_thickshell (arr : list (list R)) : Res (list R) := Err NotImplementedError.
