(** * ElemComplex: complex element results at nodes with each operation rounded. *)
From Coq Require Import Reals.
From Verif Require Import Base Flt H5 Schema Data Struc Nd Elem CalcFloat ElemFloat.
Open Scope string_scope.
Open Scope list_scope.
Open Scope monad_scope.

(** NumPy's product of two complex numbers, and a real number as a complex one. *)
Definition cmul (rnd : R -> R) (a b : R * R) : R * R :=
  (fsub rnd (fmul rnd (fst a) (fst b)) (fmul rnd (snd a) (snd b)), fadd rnd (fmul rnd (fst a) (snd b)) (fmul rnd (snd a) (fst b))).
Definition creal (x : R) : R * R := (x, 0%R).
(** What a product of complex matrices adds up for the real and the imaginary part of
    an entry, if the first matrix is real: also products with its imaginary zeros. *)
Definition real_terms (v : list R) (w : list (R * R)) : list (R * R) := flat_map (fun p => [(fst p, fst (snd p)); (0%R, Ropp (snd (snd p)))]) (combine v w).
Definition imag_terms (v : list R) (w : list (R * R)) : list (R * R) := flat_map (fun p => [(fst p, snd (snd p)); (0%R, fst (snd p))]) (combine v w).

Section Parts.
  Variables (rs rd ra : R -> R) (dre dim : nat -> nat -> nat -> list R -> list R -> R).
  (** FirstLevelData._process_element_results, strucdata.py:336-408, for an array of
      complex64: all matrices and factors are real, so the real and the imaginary parts
      are processed side by side (theorem C85_parts is the reason); the order of the
      sums may differ between them. *)
  Definition process_cfl (eltyp : Z) (restype pos : string) (d : list (R * R)) : Res (nd (R * R)) :=
    dor a <- process_fl rs rd ra dre eltyp restype pos (map fst d);
    dor b <- process_fl rs rd ra dim eltyp restype pos (map snd d);
    Ok (mkNd (n_shape a) (combine (n_flat a) (n_flat b))).
  (** FirstLevelData.get_elementresults, strucdata.py:762-807, for complex results *)
  Definition get_elementresults_cfl (num : cell -> R * R) := get_elementresults_with num process_cfl.
End Parts.
