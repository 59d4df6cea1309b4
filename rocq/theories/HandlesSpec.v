(** * HandlesSpec: which files should be open. *)
From Coq Require Import Permutation.
From Verif Require Import Base Flt H5 Schema Data Files Struc Hydro Handles.
Open Scope string_scope.
Open Scope list_scope.

(** Things that can be named in a program: files and data objects that exist;
    iteration over a set meets each element once. *)
Definition exists_obj (s : state) (n i : nat) : Prop :=
  exists f o, nth_error (st_files s) n = Some f /\ nth_error (hf_objs f) i = Some o.
Definition allowed (s : state) (o : op) : Prop :=
  match o with
  | DoOpen _ => True
  | DoLook n _ | DoClose n => exists f, nth_error (st_files s) n = Some f
  | DoUse n i _ | DoCloseData n i => exists_obj s n i
  | DoCloseAll order => Permutation order (st_set s)
  end.
(** Histories, with what each operation gave, and the state they lead to. *)
Inductive runs : list (op * Res answer) -> state -> Prop :=
| runs_start : runs [] start
| runs_step tr s o : runs tr s -> allowed s o -> runs (tr ++ [(o, snd (step s o))]) (fst (step s o)).

(** Closing file n: by the file, one of its data objects, or as the first one
    met when all files are closed. *)
Definition closes (n : nat) (e : op * Res answer) : Prop :=
  fst e = DoClose n \/ (exists i, fst e = DoCloseData n i) \/ (exists r, fst e = DoCloseAll (n :: r)).
(** File n should be open: it was opened and not closed since. *)
Definition alive (tr : list (op * Res answer)) (n : nat) : Prop :=
  exists tr1 h tr2, tr = tr1 ++ (DoOpen h, Ok (RNew n)) :: tr2 /\ Forall (fun e => ~ closes n e) tr2.

(** File, tables file and data objects all open, or all closed. *)
Definition whole (f : hfile) (b : bool) : Prop :=
  hf_open f = b /\ hf_tb f = b /\ forall o, In o (hf_objs f) -> d_open (ob_data o) = b.

(** The methods a data object has. *)
Definition hydro_method (a : accessor) : Prop :=
  match a with
  | ASetnames | ATransformation _ _ _ | ANodes _ _ _ | ANodenumbers _ _ _ _ | ANoderesults _ _ _ _ _ _ | AElements _ _ _ | AElementnumbers _ _ _
  | ASections _ | AThicknesses _ | ACasenames _ => False
  | _ => True
  end.
(** Structural data: of the top level, between, and of a single superelement.
    get_nodes of the first two is empty and not counted. *)
Definition struc_has (k : kind) (a : accessor) : Prop :=
  match k with
  | KTop => match a with ASetnames | ATransformation _ _ _ => True | _ => False end
  | KInter => a = ASetnames
  | KFirst => match a with ATransformation _ _ _ => False | _ => ~ hydro_method a end
  | KHydro => False
  end.
Definition has_method (o : hobj) (a : accessor) : Prop :=
  match ob_hydro o with Some _ => hydro_method a | None => struc_has (ob_kind o) a end.
Definition empty_method (o : hobj) (a : accessor) : Prop :=
  ob_hydro o = None /\ (ob_kind o = KTop \/ ob_kind o = KInter) /\ match a with ANodes _ _ _ => True | _ => False end.
(** The first argument of get_noderesults is checked before anything else. *)
Definition proper_args (a : accessor) : Prop :=
  match a with ANoderesults t _ _ _ _ _ => In t ["displacement"; "velocity"; "acceleration"] | _ => True end.
