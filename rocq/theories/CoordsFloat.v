(** * CoordsFloat: coordinates with a transformation, every operation rounded.

    The coordinates are single precision, as stored, with a column of ones.  A
    transformation record is single precision too, and so is the product; a matrix
    given may be of double precision, then the product is, and is rounded to single
    when it is assigned to the array of the coordinates.  [rs]: rounding to single;
    [dot i j]: what np.dot makes of row [i] and column [j], in single precision or in
    double ([dotd]).  With a top level object (never the case, see Files.v) the matrix
    of the hierarchy is taken as exact. *)
From Coq Require Import Reals.
From Verif Require Import Base Flt H5 Data Struc Trans ElemFloat.
Open Scope string_scope.
Open Scope Z_scope.
Open Scope list_scope.

Section Rounded.
  Variables (rs : R -> R) (dot dotd : nat -> nat -> list R -> list R -> R).
  (** np.dot(coords, trans), strucdata.py:480 *)
  Definition times_fl (d : nat -> nat -> list R -> list R -> R) (a m : list (list R)) : list (list R) :=
    mapi (fun i r => map (fun j => d i j r (column 0%R m j)) [0; 1; 2; 3]%nat) a.
  (** FirstLevelData.get_nodes, strucdata.py:411-483; [wide]: the matrix given is of
      double precision *)
  Definition get_nodes_fl (wide : bool) (num : cell -> R) (h : h5) (d : sdata) (tops : path -> sdata) (sets : list name) (kind : string) (disconnected : bool)
    (tr : option (@trans R)) (index : Z) : Res (list (list R)) :=
    let times := match tr with
                 | Some (TArr _) => if wide then (fun a m => map (map rs) (times_fl dotd a m)) else times_fl dot
                 | _ => times_fl dot
                 end in
    get_nodes_with 0%R 1%R Rplus Rmult num times h d tops sets kind disconnected tr index.
  (** TopLevelData.get_transformation, strucdata.py:221-256; the matrices of the
      records and their products are of single precision *)
  Definition get_transformation_fl (num : cell -> R) (h : h5) (d : sdata) (seltyp index : Z) (lv : level) : Res (list (list R)) :=
    get_transformation_with 0%R 1%R num (times_fl dot) h d seltyp index lv.
End Rounded.
