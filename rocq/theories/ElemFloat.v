(** * ElemFloat: processing of element results with every operation rounded.

    The numbers of a record are single precision (float32 arrays read from the
    store), the matrices of the class double precision.  [rs] and [rd] are the
    roundings to single and double; [ra] is that of an operation between a double
    scalar and a single precision array, which is [rs] before NumPy 2 (where the
    scalar is cast too) and [rd] since.  [dot site i j] is what np.dot makes of row
    [i] and column [j]. *)
From Coq Require Import Reals.
From Verif Require Import Base Flt H5 Data Struc Nd Elem CalcFloat.
Open Scope string_scope.
Open Scope Z_scope.
Open Scope list_scope.
Open Scope monad_scope.

Definition mapi {A B} (f : nat -> A -> B) (l : list A) : list B := map (fun p => f (fst p) (snd p)) (combine (seq 0 (length l)) l).
Section Rounded.
  Variables (rs rd ra : R -> R) (dot : nat -> nat -> nat -> list R -> list R -> R).
  (** s3, xquad, xtri, xbm3, strucdata.py:270-294, calculated when the module is
      loaded *)
  Definition s3_fl : R := fsqrt rd 3.
  Definition xquad_fl : mat := xquad 1%R (fadd rd) (fmul rd) (fsub rd) (fdiv rd) s3_fl.
  Definition xtri_fl : mat := xtri 1%R (fadd rd) Ropp (fdiv rd).
  Definition xbm3_fl : mat := xbm3 1%R (fadd rd) (fmul rd) (fsub rd) (fdiv rd) s3_fl.
  (** x_decomp_thin, x_decomp_thick, strucdata.py:303-321; the literals are exact *)
  Definition x_decomp_thin_fl : mat := x_decomp_thin 0%R 1%R Rplus Ropp Rdiv.
  Definition x_decomp_thick_fl : mat := x_decomp_thick 0%R 1%R Rplus Ropp Rdiv.

  Definition rowdot_fl (site i k n : nat) (v : list R) (m : mat) : list R := map (fun j => dot site i (k + j)%nat v (column 0%R m j)) (seq 0 n).
  Definition dot2_fl (site n : nat) (a b : mat) : mat := mapi (fun i r => rowdot_fl site i 0 n r b) a.
  Definition dot3_fl (site n : nat) (a : mat) (b : list mat) : list mat := mapi (fun i r => mapi (fun k m => rowdot_fl site i (k * n) n r m) b) a.

  (** FirstLevelData._extrapolate_to_surface, strucdata.py:397-402, and the
      assignment to the single precision array *)
  Definition a_fl : R := fdiv rd s3_fl 3.
  Definition c_lower : R := fdiv rd (fadd rd (-1) a_fl) (fmul rd 2 a_fl).
  Definition c_upper : R := fdiv rd (fadd rd 1 a_fl) (fmul rd 2 a_fl).
  Definition surface_fl (c lp up : R) : R := rs (fadd ra lp (fmul ra (ra c) (fsub rs up lp))).
  Definition to_surfaces_fl (d : list mat) : list mat :=
    match d with
    | [l; u] => [zip_with (fun lp up => first3 (surface_fl c_lower) lp lp up) l u; zip_with (fun lp up => first3 (surface_fl c_upper) up lp up) l u]
    | _ => d
    end.
  (** _decompose_stresses_thick, _decompose_stresses_thin, strucdata.py:404-408 *)
  Definition decompose_thick_fl (n : nat) (d : list mat) : mat :=
    transp 0%R n (dot2_fl 0 n x_decomp_thick_fl (transp 0%R 10 (map (@concat R) (roll1 n d)))).
  Definition decompose_thin_fl (n : nat) (d : list mat) : mat :=
    transp 0%R n (dot2_fl 0 n x_decomp_thin_fl (transp 0%R 6 (map (@concat R) d))).

  (** FirstLevelData._process_eltyp15, strucdata.py:342-346 *)
  Definition process_15_fl (d : list R) : Res (nd R) := process_15 d.
  (** _process_eltyp23, strucdata.py:348-353 *)
  Definition process_23_fl (pos : string) (d : list R) : Res (nd R) :=
    dor m <- shape2 2 6 d;
    if String.eqb pos "nodes" then Ok (arr2 6 (dot2_fl 1 6 xbm3_fl m)) else Ok (arr2 6 m).
  (** _process_eltyp24, strucdata.py:355-360 *)
  Definition process_24_fl (restype : string) (d : list R) : Res (nd R) :=
    dor m <- shape2 10 3 d;
    dor r <- rows_at idxquad m;
    let d := chunks 2 r in
    if String.eqb restype "decomposedstress" then Ok (arr2 6 (decompose_thin_fl 4 d)) else Ok (arr3 2 3 d).
  (** _process_eltyp25, strucdata.py:362-367 *)
  Definition process_25_fl (restype : string) (d : list R) : Res (nd R) :=
    dor m <- shape2 8 3 d;
    dor r <- rows_at idxtri m;
    let d := chunks 2 r in
    if String.eqb restype "decomposedstress" then Ok (arr2 6 (decompose_thin_fl 3 d)) else Ok (arr3 2 3 d).
  (** _process_eltyp26, _process_eltyp28, strucdata.py:369-395 *)
  Definition process_thick_fl (n : nat) (x : mat) (restype pos : string) (d : list R) : Res (nd R) :=
    dor d <- shape3 2 n 5 d;
    if String.eqb pos "respts" then Ok (arr3 2 5 (roll1 n d))
    else if String.eqb pos "nodes" then
      let d := to_surfaces_fl d in
      if String.eqb restype "generalstress" then Ok (arr3 2 5 (dot3_fl 1 5 x (no_shear 0%R d)))
      else if String.eqb restype "decomposedstress" then Ok (arr2 8 (dot2_fl 1 8 x (decompose_thick_fl n d)))
      else Ok (arr3 2 5 (dot3_fl 1 5 x d))
    else Err ValueError.
  (** FirstLevelData._process_element_results, strucdata.py:329-340 *)
  Definition process_fl (eltyp : Z) (restype pos : string) (d : list R) : Res (nd R) :=
    if eltyp =? 15 then process_15_fl d
    else if eltyp =? 23 then process_23_fl pos d
    else if eltyp =? 24 then process_24_fl restype d
    else if eltyp =? 25 then process_25_fl restype d
    else if eltyp =? 26 then process_thick_fl 3 xtri_fl restype pos d
    else if eltyp =? 28 then process_thick_fl 4 xquad_fl restype pos d
    else Err KeyError.
  (** FirstLevelData.get_elementresults, strucdata.py:762-807, for real results *)
  Definition get_elementresults_fl (num : cell -> R) := get_elementresults_with num process_fl.
End Rounded.
