(** * ConvertSpec: what a conversion should do with the files present *)
From Verif Require Import Base Flt H5 Schema Convert.
Open Scope string_scope.
Open Scope Z_scope.
Open Scope list_scope.

(** ** Appending (C24) *)

(** Every node of [h] is in [h'] as it was, but for the attributes of the groups [ws]. *)
Definition kept_but (ws : list path) (h h' : h5) : Prop := forall q n, h5_find q h = Some n ->
  h5_find q h' = Some n \/ (In q ws /\ exists l l', n = Group l /\ h5_find q h' = Some (Group l')).
(** Names of the records read from a file: one IDENT, and no HIERARCH after it. *)
Definition regular (names : list string) : Prop :=
  exists a b, names = a ++ "IDENT" :: b /\ ~ In "IDENT" (a ++ b) /\ ~ In "HIERARCH" b.

(** ** Files of a hierarchy (C23) *)

(** A file that is there is read. *)
Definition seen (d : dir) (n : string) : event := match file_in d n with Some _ => Read n | None => Missing n end.

(** A place in the hierarchy: its number, type of superelement, repetition and level. *)
Record place : Set := mkPlace { pl_ref : Z; pl_type : Z; pl_rep : Z; pl_level : Z }.
(** rows of the hierarchy table, places in order *)
Definition places (rows : list (list cell)) (ps : list place) : Prop :=
  Forall2 (fun r p => nth_error r 1 = Some (CI (pl_ref p)) /\ nth_error r 2 = Some (CI (pl_type p)) /\
                      nth_error r 3 = Some (CI (pl_rep p)) /\ nth_error r 4 = Some (CI (pl_level p))) rows ps.
(** decimal number *)
Definition dec (z : Z) : string := str_of_Z z.
(** the results of a place, the model of a superelement *)
Definition results_name (pre ext : string) (p : place) : string := (pre ++ "R" ++ dec (pl_type p) ++ "H" ++ dec (pl_ref p) ++ "." ++ ext)%string.
Definition model_name (pre ext : string) (t : Z) : string := (pre ++ "T" ++ dec t ++ "." ++ ext)%string.
(** The files that belong to the hierarchy below the top, the first place. *)
Definition lower_results (pre ext : string) (ps : list place) (n : string) : Prop :=
  exists p, In p (tl ps) /\ pl_level p = 1 /\ n = results_name pre ext p.
Definition lower_models (pre ext : string) (ps : list place) (n : string) : Prop :=
  exists p, In p (tl ps) /\ n = model_name pre ext (pl_type p).
(** Below the top, the repetitions of a superelement are numbered from one. *)
Definition numbered (ps : list place) : Prop :=
  (forall p, In p (tl ps) -> exists q, In q (tl ps) /\ pl_type q = pl_type p /\ pl_rep q = 1) /\
  (forall i j p q, nth_error (tl ps) i = Some p -> nth_error (tl ps) j = Some q -> pl_type p = pl_type q -> pl_rep p = pl_rep q -> i = j).
(** no place has the number of another *)
Definition distinct_refs (ps : list place) : Prop := NoDup (map pl_ref (tl ps)).
