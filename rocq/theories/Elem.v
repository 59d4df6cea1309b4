(** * Elem: element results at nodes and result points (data/strucdata.py).

    Arithmetic is left open: [F] with its operations stands for the numbers of
    NumPy arrays, real or complex, [num] for reading a stored number, [s3] for
    np.sqrt(3).  A nested list is an array; [nd] of Nd.v where a shape is set. *)
From Verif Require Import Base Flt H5 Schema Data Struc Nd.
Open Scope string_scope.
Open Scope Z_scope.
Open Scope list_scope.
Open Scope monad_scope.

Section Numbers.
  Context {F : Type}.
  Variables (zero one : F) (add mul sub : F -> F -> F) (opp : F -> F) (div : F -> F -> F) (s3 : F) (num : cell -> F).
  Notation "x + y" := (add x y).
  Notation "x * y" := (mul x y).
  Notation "x - y" := (sub x y).
  Notation "x / y" := (div x y).
  Notation "- x" := (opp x).
  Notation "0" := zero.
  Notation "1" := one.
  Definition two : F := 1 + 1.
  Definition three : F := two + 1.
  Definition five : F := three + two.
  Definition half : F := 1 / two. (* .5 *)
  Definition quarter : F := 1 / (two * two). (* .25 *)

  Definition mat := list (list F).
  Definition scale (k : F) (m : mat) : mat := map (map (fun x => x * k)) m.
  (** FirstLevelData.xquad, strucdata.py:272-281 *)
  Definition xquad : mat := scale quarter
    [[(1+s3)*(1+s3); (1-s3)*(1+s3); (1+s3)*(1-s3); (1-s3)*(1-s3)];
     [(1+s3);        (1+s3);        (1-s3);        (1-s3)       ];
     [(1-s3)*(1+s3); (1+s3)*(1+s3); (1-s3)*(1-s3); (1+s3)*(1-s3)];
     [(1-s3);        (1+s3);        (1-s3);        (1+s3)       ];
     [(1-s3)*(1-s3); (1+s3)*(1-s3); (1-s3)*(1+s3); (1+s3)*(1+s3)];
     [(1-s3);        (1-s3);        (1+s3);        (1+s3)       ];
     [(1+s3)*(1-s3); (1-s3)*(1-s3); (1+s3)*(1+s3); (1-s3)*(1+s3)];
     [(1+s3);        (1-s3);        (1+s3);        (1-s3)       ]].
  (** FirstLevelData.xtri, strucdata.py:283-289 *)
  Definition xtri : mat :=
    [[  five/three; -(1)/three; -(1)/three];
     [   two/three;  two/three; -(1)/three];
     [  -(1)/three; five/three; -(1)/three];
     [  -(1)/three;  two/three;  two/three];
     [  -(1)/three; -(1)/three; five/three];
     [   two/three; -(1)/three;  two/three]].
  (** FirstLevelData.xbm3, strucdata.py:291-294 *)
  Definition xbm3 : mat := scale half [[1 + s3; 1 - s3]; [1; 1]; [1 - s3; 1 + s3]].
  (** FirstLevelData.idxtri, idxquad, strucdata.py:296-299 *)
  Definition idxtri : list nat := [0; 4; 1; 5; 3; 7]%nat.
  Definition idxquad : list nat := [0; 5; 1; 6; 4; 9; 3; 8]%nat.
  (** FirstLevelData.x_decomp_thin, strucdata.py:303-310 *)
  Definition x_decomp_thin : mat :=
    let h := half in let m := - half in
    [[h; 0; 0; h; 0; 0];
     [0; h; 0; 0; h; 0];
     [0; 0; h; 0; 0; h];
     [m; 0; 0; h; 0; 0];
     [0; m; 0; 0; h; 0];
     [0; 0; m; 0; 0; h]].
  (** FirstLevelData.x_decomp_thick, strucdata.py:312-321 *)
  Definition x_decomp_thick : mat :=
    let h := half in let m := - half in let k := three / two in
    [[h; 0; 0; 0; 0; h; 0; 0; 0; 0];
     [0; h; 0; 0; 0; 0; h; 0; 0; 0];
     [0; 0; h; 0; 0; 0; 0; h; 0; 0];
     [m; 0; 0; 0; 0; h; 0; 0; 0; 0];
     [0; m; 0; 0; 0; 0; h; 0; 0; 0];
     [0; 0; m; 0; 0; 0; 0; h; 0; 0];
     [0; 0; 0; k; 0; 0; 0; 0; 0; 0];
     [0; 0; 0; 0; k; 0; 0; 0; 0; 0]].

  (** np.dot of a row with a column; with a matrix of [n] columns; of matrices;
      of a matrix with an array of matrices, whose last axis but one is summed
      over.  The sizes agree wherever these are used. *)
  Fixpoint dots (x y : list F) : F :=
    match x, y with
    | a :: x', b :: y' => a * b + dots x' y'
    | _, _ => 0
    end.
  Definition column (m : mat) (j : nat) : list F := map (fun r => nth j r 0) m.
  Definition rowdot (n : nat) (v : list F) (m : mat) : list F := map (fun j => dots v (column m j)) (seq 0 n).
  Definition dot2 (n : nat) (a b : mat) : mat := map (fun r => rowdot n r b) a.
  Definition dot3 (n : nat) (a : mat) (b : list mat) : list mat := map (fun r => map (rowdot n r) b) a.
  (** m.T for a matrix of [n] columns *)
  Definition transp (n : nat) (m : mat) : mat := map (column m) (seq 0 n).

  (** d.reshape(m, n) and d.reshape(l, m, n); ValueError unless the sizes agree *)
  Definition shape2 (m n : nat) (d : list F) : Res mat :=
    if Nat.eqb (length d) (m * n)%nat then Ok (chunks n d) else Err ValueError.
  Definition shape3 (l m n : nat) (d : list F) : Res (list mat) :=
    if Nat.eqb (length d) (l * (m * n))%nat then Ok (map (chunks n) (chunks (m * n) d)) else Err ValueError.
  (** d[indices, :]; IndexError outside *)
  Definition rows_at (ix : list nat) (m : mat) : Res mat :=
    rmap (fun i => match nth_error m i with Some r => Ok r | None => Err IndexError end) ix.
  (** np.rollaxis(d, 1) of an array with [n] as its second dimension *)
  Definition roll1 (n : nat) (d : list mat) : list mat := map (fun j => map (fun m => nth j m []) d) (seq 0 n).

  (** FirstLevelData._extrapolate_to_surface, strucdata.py:397-402, entry by entry *)
  Definition to_lower (lp up : F) : F := let a := s3 / three in lp + (- (1) + a) / (two * a) * (up - lp).
  Definition to_upper (lp up : F) : F := let a := s3 / three in lp + (1 + a) / (two * a) * (up - lp).
  Definition zip_with {A B C} (f : A -> B -> C) (x : list A) (y : list B) : list C := map (fun p => f (fst p) (snd p)) (combine x y).
  (** d[...,:3] = self._extrapolate_to_surface(d[...,:3]); d is (2, n, 5) *)
  Definition first3 (f : F -> F -> F) (own lower upper : list F) : list F := zip_with f (firstn 3 lower) (firstn 3 upper) ++ skipn 3 own.
  Definition to_surfaces (d : list mat) : list mat :=
    match d with
    | [l; u] => [zip_with (fun lp up => first3 to_lower lp lp up) l u; zip_with (fun lp up => first3 to_upper up lp up) l u]
    | _ => d
    end.
  (** d[...,3:] = 0. *)
  Definition no_shear (d : list mat) : list mat := map (map (fun v => firstn 3 v ++ map (fun _ => 0) (skipn 3 v))) d.
  (** FirstLevelData._decompose_stresses_thick, strucdata.py:404-405; [n] points *)
  Definition decompose_thick (n : nat) (d : list mat) : mat :=
    transp n (dot2 n x_decomp_thick (transp 10 (map (@concat F) (roll1 n d)))).
  (** FirstLevelData._decompose_stresses_thin, strucdata.py:407-408 *)
  Definition decompose_thin (n : nat) (d : list mat) : mat :=
    transp n (dot2 n x_decomp_thin (transp 6 (map (@concat F) d))).

  (** An array made of rows of [n] entries, of matrices of m rows of [n] entries *)
  Definition arr2 (n : nat) (m : mat) : nd F := mkNd [length m; n] (concat m).
  Definition arr3 (m n : nat) (d : list mat) : nd F := mkNd [length d; m; n] (concat (map (@concat F) d)).

  (** FirstLevelData._process_eltyp15, strucdata.py:342-346 *)
  Definition process_15 (d : list F) : Res (nd F) :=
    dor m <- shape2 3 6 d;
    dor r <- rows_at [0; 2]%nat m;
    Ok (arr2 6 r).
  (** _process_eltyp23, strucdata.py:348-353 *)
  Definition process_23 (pos : string) (d : list F) : Res (nd F) :=
    dor m <- shape2 2 6 d;
    if String.eqb pos "nodes" then Ok (arr2 6 (dot2 6 xbm3 m)) else Ok (arr2 6 m).
  (** _process_eltyp24, strucdata.py:355-360 *)
  Definition process_24 (restype : string) (d : list F) : Res (nd F) :=
    dor m <- shape2 10 3 d;
    dor r <- rows_at idxquad m;
    let d := chunks 2 r in
    if String.eqb restype "decomposedstress" then Ok (arr2 6 (decompose_thin 4 d)) else Ok (arr3 2 3 d).
  (** _process_eltyp25, strucdata.py:362-367 *)
  Definition process_25 (restype : string) (d : list F) : Res (nd F) :=
    dor m <- shape2 8 3 d;
    dor r <- rows_at idxtri m;
    let d := chunks 2 r in
    if String.eqb restype "decomposedstress" then Ok (arr2 6 (decompose_thin 3 d)) else Ok (arr3 2 3 d).
  (** _process_eltyp26, _process_eltyp28, strucdata.py:369-395, with [n] result
      points and the matrix [x].  For any other [pos] they return None; what
      np.concatenate makes of that is a ValueError, raised here at once. *)
  Definition process_thick (n : nat) (x : mat) (restype pos : string) (d : list F) : Res (nd F) :=
    dor d <- shape3 2 n 5 d;
    if String.eqb pos "respts" then Ok (arr3 2 5 (roll1 n d))
    else if String.eqb pos "nodes" then
      let d := to_surfaces d in
      if String.eqb restype "generalstress" then Ok (arr3 2 5 (dot3 5 x (no_shear d)))
      else if String.eqb restype "decomposedstress" then Ok (arr2 8 (dot2 8 x (decompose_thick n d)))
      else Ok (arr3 2 5 (dot3 5 x d))
    else Err ValueError.
  (** FirstLevelData._process_element_results, strucdata.py:329-340: a dict of
      the element types. *)
  Definition process (eltyp : Z) (restype pos : string) (d : list F) : Res (nd F) :=
    if eltyp =? 15 then process_15 d
    else if eltyp =? 23 then process_23 pos d
    else if eltyp =? 24 then process_24 restype d
    else if eltyp =? 25 then process_25 restype d
    else if eltyp =? 26 then process_thick 3 xtri restype pos d
    else if eltyp =? 28 then process_thick 4 xquad restype pos d
    else Err KeyError.

  (** np.concatenate along the first axis: ValueError without arrays and unless
      the other dimensions agree. *)
  Definition nat_list_eqb (a b : list nat) : bool := if list_eq_dec Nat.eq_dec a b then true else false.
  Definition concat_nd (l : list (nd F)) : Res (nd F) :=
    match l with
    | [] => Err ValueError
    | a :: _ => if forallb (fun b => nat_list_eqb (tl (n_shape a)) (tl (n_shape b))) l
                then Ok (mkNd (fold_right Nat.add 0%nat (map (fun b => hd 0%nat (n_shape b)) l) :: tl (n_shape a)) (flat_map n_flat l))
                else Err ValueError
    end.
  (** data.shape = (k, -1, ...): the entry -1 is what makes the size fit *)
  Definition split_first (k : nat) (rest : list nat) (a : nd F) : Res (nd F) :=
    let n := (k * size rest)%nat in
    if Nat.eqb n 0%nat then Err ValueError
    else if Nat.eqb (length (n_flat a) mod n) 0%nat then Ok (mkNd (k :: (length (n_flat a) / n)%nat :: rest) (n_flat a))
    else Err ValueError.

  (** FirstLevelData.get_elementresults, strucdata.py:762-807; [proc] processes the
      numbers of one record *)
  Definition restype_kind (restype : string) : Res (string * string * string) :=
    if String.eqb restype "beamforce" then Ok ("RVFORCES", "force", "beam")
    else if String.eqb restype "generalstress" || String.eqb restype "decomposedstress" then Ok ("RVSTRESS", "stress", "shell")
    else Err ValueError.
  Definition get_elementresults_with (proc : Z -> string -> string -> list F -> Res (nd F))
      (h : h5) (d : sdata) (restype pos : string) (run : Z) (rescases : cases) (sets : list name) : Res (nd F) :=
    dor (rk, kind) <- restype_kind restype;
    let (rn, cn) := rk in
    dor (rvres, res) <- record1 h d rn;
    dor (rdresref, resrefs) <- get_resrefs h d run rescases;
    dor flags <- rmap (ifield rdresref "icompl") resrefs;
    dor complexflag <- check_complex_and_get_flag flags;
    dor elemnumbs <- get_elementnumbers h d sets kind "internal";
    dor ires <- rmap (ifield rdresref "ires") resrefs;
    dor rows <- rfilter (fun r => dor i <- ifield rvres "ires" r;
                                  dor n <- ifield rvres "iielno" r;
                                  Ok (zmem i ires && zmem n elemnumbs)) (t_rows rvres);
    dor parts <- rmap (fun r => dor eltyp <- ifield rvres "ir" r;
                                dor a <- ifield rvres (cn ++ "_start") r;
                                dor b <- ifield rvres (cn ++ "_stop") r;
                                dor v <- (if complexflag =? 0 then Ok (slice a b res) else to_complex (slice a b res));
                                proc eltyp restype pos (map num v)) rows;
    dor data <- concat_nd parts;
    let nres := length (unique ires) in
    if Nat.ltb 1 nres then
      if String.eqb restype "generalstress" then
        match nth_error (n_shape data) 2 with
        | Some ncomps => split_first nres [2%nat; ncomps] data
        | None => Err IndexError
        end
      else
        match nth_error (n_shape data) 1 with
        | Some ncomps => split_first nres [ncomps] data
        | None => Err IndexError
        end
    else Ok data.
  Definition get_elementresults := get_elementresults_with process.
End Numbers.
