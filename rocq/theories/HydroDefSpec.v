(** * HydroDefSpec: sections, points, bodies and panels, in a store and on a file. *)
From Coq Require Import Sorted.
From Verif Require Import Base Flt SeqFile H5 Schema Files SeqSpec StoreSpec ParserSpec LayoutSpec FileSpec DataSpec StrucSpec HydroSpec SaysSpec HydroSays.
Open Scope string_scope.
Open Scope Z_scope.
Open Scope list_scope.

(** A section: the user's number, its type and three points. *)
Record wsect : Set := mkWS { s_usr : Z; s_type : Z; s_p1 : cell; s_p2 : cell; s_p3 : cell }.
Definition wsections_in (h : h5) (w : path) (ss : list wsect) : Prop :=
  exists rows, holds h w "WSECTION" (mkC rows []) /\
    Forall2 (fun s row => exists a b c, row = [CI a; CI b; CI c; CI (s_type s); CI (s_usr s); s_p1 s; s_p2 s; s_p3 s]) ss rows.
Definition wsect_says (_ : nat) (e : StoreSpec.entry) (s : wsect) : Prop :=
  int_at e 3 (s_type s) /\ int_at e 4 (s_usr s) /\ cell_at e 5 (TV 3 TF) (s_p1 s) /\ cell_at e 6 (TV 3 TF) (s_p2 s) /\ cell_at e 7 (TV 3 TF) (s_p3 s).
Definition wsections_on (segs : list seg) (ss : list wsect) : Prop := listed "WSECTION" segs wsect_says ss.
(** A point: its coordinates *)
Definition points_in (h : h5) (w : path) (ps : list (list cell)) : Prop :=
  exists rows, holds h w "WFKPOINT" (mkC rows []) /\
    Forall2 (fun p row => length p = 3%nat /\ Forall plain p /\ exists a b, row = [CI a; CI b; CV p]) ps rows.
Definition point_says (_ : nat) (e : StoreSpec.entry) (p : list cell) : Prop := cell_at e 2 (TV 3 TF) (CV p).
Definition points_on (segs : list seg) (ps : list (list cell)) : Prop := listed "WFKPOINT" segs point_says ps.
(** A body: its condition and what is known of it *)
Definition prop_names := ["clenb"; "bmass"; "wsarea"; "wparea"; "vol"; "xcg"; "ycg"; "zcg"; "xcb"; "ycb"; "zcb"; "xrb"; "yrb"; "zrb"; "t"].
Definition wbodies_in (h : h5) (w : path) (bs : list (Z * list cell)) : Prop :=
  exists rows, holds h w "WBODY" (mkC rows []) /\ Forall2 (fun b row => length (snd b) = 15%nat /\ exists a, row = CI a :: CI (fst b) :: snd b) bs rows.
Definition wbody_says (_ : nat) (e : StoreSpec.entry) (b : Z * list cell) : Prop :=
  int_at e 1 (fst b) /\ exists rs t, snd b = rs ++ [t] /\ length rs = 14%nat /\ (forall k c, nth_error rs k = Some c -> real_at e (2 + k) c) /\ cell_at e 16 (TV 4 (TV 4 TF)) t.
Definition wbodies_on (segs : list seg) (bs : list (Z * list cell)) : Prop := listed "WBODY" segs wbody_says bs.
(** Pairs of panel and symmetry part, in order of the part and then the panel *)
Definition before (a b : Z * Z) : Prop := snd a < snd b \/ snd a = snd b /\ fst a < fst b.
Definition ids_of (ps : list panel) (ids : list (Z * Z)) : Prop :=
  StronglySorted before ids /\ forall pan symm, In (pan, symm) ids <-> In pan (map p_pan ps) /\ In symm (map p_symm ps).
