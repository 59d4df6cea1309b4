(** * ElemExport: element results at the nodes, written with VtuWriter

    The script of Export.v with get_elementresults (strucdata.py:707-895) for the data:
    every element has its points to itself (disconnected=True), the numbers of an
    element at a node are those of one point.  VtuWriter takes arrays of one or two
    axes (writers.py:163-169): general stresses, which have an axis for the two
    surfaces, are given as res[:, i].

    The numbers are those of [Elem], in any arithmetic; [dtype] says what they are
    called and how they are stored.  Which of NumPy's types an array gets depends on
    the element types it is put together from and is left open. *)
From Verif Require Import Base Flt H5 Schema Data Struc Nd Elem Vtu Export.
Open Scope string_scope.
Open Scope Z_scope.
Open Scope list_scope.
Open Scope monad_scope.

Section Script.
  Context {F : Type}.
  Record dtype : Type := mkDt { dt_name : string; dt_size : nat; dt_item : F -> bytes }.
  (** An array as VtuWriter takes it. *)
  Definition elem_arr (t : dtype) (a : nd F) : arr :=
    match n_shape a with
    | [] => mkA (dt_name t) (dt_size t) [] [] (* no array has no axis *)
    | _ :: tail => mkA (dt_name t) (dt_size t) tail (map (map (dt_item t)) (chunks (prod tail) (n_flat a)))
    end.
  (** res[:, i], [i] counted from the start *)
  Definition surface (i : nat) (a : nd F) : Res (nd F) :=
    match n_shape a with
    | n :: k :: tail =>
        if (i <? k)%nat then Ok (mkNd (n :: tail) (flat_map (fun r => firstn (prod tail) (skipn (i * prod tail) r)) (chunks (k * prod tail) (n_flat a))))
        else Err IndexError
    | _ => Err IndexError
    end.

  Variables (zero one : F) (add mul sub : F -> F -> F) (opp : F -> F) (div : F -> F -> F) (s3 : F) (num : cell -> F).
  (** Type of results, run, result cases, surface, name; the type of its numbers *)
  Record efld : Type := mkEfld { ef_type : string; ef_run : Z; ef_cases : cases; ef_surface : option nat; ef_name : bytes; ef_dtype : dtype }.
  Definition elem_call (h : h5) (d : sdata) (sets : list name) (f : efld) : Res call :=
    dor r <- get_elementresults zero one add mul sub opp div s3 num h d (ef_type f) "nodes" (ef_run f) (ef_cases f) sets;
    dor r' <- match ef_surface f with None => Ok r | Some i => surface i r end;
    Ok (AddData (elem_arr (ef_dtype f) r') (ef_name f) []).
  (** The script; [cw], [ow] as in Export. *)
  Definition elem_export (cw ow : width) (h : h5) (d : sdata) (sets : list name) (kind : string) (fs : list efld) : Res bytes :=
    dor pts <- get_coords h d sets kind true;
    dor cells <- get_elements h d sets kind true;
    let '(con, off, typ) := cells in
    dor adds <- rmap (elem_call h d sets) fs;
    match v_run v_init (NewPiece (points_arr pts) (of_ints (int_arr cw con)) (int_arr ow off) (int_arr W32 typ) :: StartPointdata :: adds ++ [CloseFile]) with
    | (s, Ok _) => Ok (v_out s)
    | (_, Err e) => Err e
    end.
End Script.
Arguments dtype : clear implicits.
Arguments efld : clear implicits.
