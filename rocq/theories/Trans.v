(** * Trans: transformations of superelements (data/strucdata.py).

    Arithmetic is left open: [A] with addition and multiplication stands for
    the numbers of NumPy arrays, [num] for reading a stored number.  Products
    of matrices are written out in terms of these, so what is said about the
    result holds for single precision as for exact arithmetic. *)
From Verif Require Import Base Flt H5 Schema Data Struc.
Open Scope string_scope.
Open Scope Z_scope.
Open Scope list_scope.
Open Scope monad_scope.

Inductive level : Set := Top | Level (z : Z).

Section Numbers.
  Context {A : Type}.
  Variables (zero one : A) (add mul : A -> A -> A) (num : cell -> A).

  Definition mat := list (list A).
  (** np.dot of a row with a column, of a row with a matrix, of matrices *)
  Fixpoint dots (x y : list A) : A :=
    match x, y with
    | a :: x', b :: y' => add (mul a b) (dots x' y')
    | _, _ => zero
    end.
  Definition column (m : mat) (j : nat) : list A := map (fun r => nth j r zero) m.
  Definition rowdot (v : list A) (m : mat) : list A := map (fun j => dots v (column m j)) [0; 1; 2; 3]%nat.
  Definition dot (m n : mat) : mat := map (fun r => rowdot r n) m.
  (** np.diag(np.ones(4)) *)
  Definition identity : mat :=
    [[one; zero; zero; zero]; [zero; one; zero; zero]; [zero; zero; one; zero]; [zero; zero; zero; one]].
  (** row['t']: a 4x4 array *)
  Definition matrix (c : cell) : Res mat :=
    match c with
    | CV rows => rmap (fun r => match r with CV l => Ok (map num l) | _ => Err TypeError end) rows
    | _ => Err TypeError
    end.

  Definition trans_no (hsuptran : table) (itref : Z) : Res mat :=
    dor r <- getrow hsuptran (int_is hsuptran "itref" itref);
    dor c <- field hsuptran "t" r;
    matrix c.
  Definition hier_no (hierarch : table) (ihref : Z) : Res (list cell) :=
    getrow hierarch (int_is hierarch "ihref" ihref).
  (** The loop of TopLevelData.get_transformation, strucdata.py:244-256;
      [times]: np.dot of two matrices. *)
  Fixpoint climb (times : mat -> mat -> mat) (fuel : nat) (hierarch hsuptran : table) (lev : Z) (rp : list cell) (t : mat) : Res mat :=
    match fuel with
    | O => Err OutOfFuel
    | S fuel' =>
        dor l <- ifield hierarch "islevl" rp;
        if l <? lev then
          dor i <- ifield hierarch "itref" rp;
          dor t2 <- trans_no hsuptran i;
          let t' := times t t2 in
          dor ih <- ifield hierarch "ihpref" rp;
          if ih =? 0 then climb times fuel' hierarch hsuptran lev rp t'
          else
            dor rp' <- hier_no hierarch ih;
            dor l' <- ifield hierarch "islevl" rp';
            if lev <? l' then Err HierarchyError else climb times fuel' hierarch hsuptran lev rp' t'
        else Ok t
    end.
  (** TopLevelData.get_transformation, strucdata.py:221-256.  The fuel is
      enough when levels rise towards the top. *)
  Definition get_transformation_with (times : mat -> mat -> mat) (h : h5) (d : sdata) (seltyp index : Z) (lv : level) : Res mat :=
    dor (hierarch, _) <- record1 h d "HIERARCH";
    dor hsuptran <- record0 h d "HSUPTRAN";
    dor r0 <- pyget (t_rows hierarch) 0;
    dor toplevel <- ifield hierarch "islevl" r0;
    let go (lev : Z) :=
      dor r <- getrow hierarch (both (int_is hierarch "iselty" seltyp) (int_is hierarch "indsel" index));
      dor i <- ifield hierarch "itref" r;
      dor t <- trans_no hsuptran i;
      dor ih <- ifield hierarch "ihpref" r;
      dor rp <- hier_no hierarch ih;
      dor l <- ifield hierarch "islevl" rp;
      if lev <? l then Err HierarchyError
      else climb times (S (Z.to_nat (lev - l))) hierarch hsuptran lev rp t in
    match lv with
    | Top => go toplevel
    | Level z => if z =? 1 then Ok identity
                 else if toplevel <? z then Err HierarchyError
                 else if z <? 1 then Err HierarchyError
                 else go z
    end.
  Definition get_transformation := get_transformation_with dot.

  (** The argument trans of get_nodes: an array (shape 4x4 or not), a whole
      number or a text. *)
  Inductive trans : Type := TArr (m : mat) | TInt (z : Z) | TText (s : string).
  Definition is44 (m : mat) : bool :=
    Nat.eqb (length m) 4 && forallb (fun r => Nat.eqb (length r) 4) m.
  (** FirstLevelData.get_nodes, strucdata.py:411-483, with the
      transformation; [tops]: the top level data object at a group.  A type or
      index that is None (never with a top level object, see Files.v) would make
      a condition that is not valid; simplified to a TypeError for every level.
      [times]: the product of the coordinates with the transformation. *)
  Definition get_nodes_with (times : mat -> mat -> mat) (h : h5) (d : sdata) (tops : path -> sdata) (sets : list name) (kind : string) (disconnected : bool)
    (tr : option trans) (index : Z) : Res mat :=
    dor pts <- get_coords h d sets kind disconnected;
    let coords := map (fun p => map num p ++ [one]) pts in
    dor out <-
      match tr with
      | None => Ok coords
      | Some t =>
          let index' := if String.eqb (d_filetype d) "R" then d_index d else Some index in
          dor m <- match t, d_top d with
                   | TArr m, _ => if is44 m then Ok m else Err ValueError
                   | TText s, Some p =>
                       if String.eqb s "top" then
                         match d_seltyp d, index' with
                         | Some st, Some i => get_transformation h (tops p) st i Top
                         | _, _ => Err TypeError
                         end
                       else Err ValueError
                   | TInt z, Some p =>
                       match d_seltyp d, index' with
                       | Some st, Some i => get_transformation h (tops p) st i (Level z)
                       | _, _ => Err TypeError
                       end
                   | TText s, None =>
                       if has_record_name d "RSUPTRAN" && String.eqb s "top" then
                         dor t <- record0 h d "RSUPTRAN";
                         dor r <- pyget (t_rows t) 0;
                         dor c <- field t "t" r;
                         matrix c
                       else Err HierarchyError
                   | TInt _, None => Err HierarchyError
                   end;
          Ok (times coords m)
      end;
    Ok (map (firstn 3) out).
  Definition get_nodes := get_nodes_with dot.
End Numbers.
