(** * VtfSample: models for the examples and the witnesses of VTF *)
From Verif Require Import Base Flt Write Vtf.
Open Scope string_scope.
Open Scope Z_scope.
Open Scope list_scope.
Open Scope monad_scope.

(** Values with eight decimals *)
Definition sh (f : flt) : text := dropwhile is_space_s (format_e8 f).
Definition zf (n : Z) : flt := f_of_Z n.
Definition four_nodes : list (list flt) := [[zf 0; zf 0; zf 0]; [zf 1; zf 0; zf 0]; [zf 1; fmk false 3 (-2); zf 0]; [zf 0; zf 1; zf (-42)]].
(** One quadrilateral (10), one beam (11), one triangle (12), of nodes 1, 5, 7, 9 *)
Definition plate (v : vtf) : Res vtf :=
  dor v <- add_nodes true four_nodes (Some [1; 5; 7; 9]) (Some 1) v;
  add_elements true (s2l "the plate") [0; 1; 2; 3; 0; 1; 0; 1; 2] [4; 6; 9] [24; 15; 25] (Some [10; 11; 12]) (s2l "all elements") (Some 1) None v.
Definition beam_res : string * list (list flt) := ("%BEAMS", [[zf 1; zf 2]]).
Definition quad_res : string * list (list flt) := ("%QUADS", [[zf 3; zf 4; zf 5; fmk true 3 (-5)]]).
Definition with_results (d : list (string * list (list flt))) (v : vtf) : Res vtf := add_results true "PER_ELEMENT_NODE" d None None None v.
Definition one_scalar (name : string) (v : vtf) : Res vtf := dor (k, v) <- add_scalar true (s2l name) [] None v; Ok v.
Definition fresh : Res vtf := vtf_init true (s2l "Model") [] [].

(** Results of the beam and the quadrilateral *)
Definition m1 : Res vtf := dor v <- fresh; dor v <- plate v; dor v <- one_scalar "stress" v; with_results [beam_res; quad_res] v.
(** Results in another order than the elements *)
Definition m2 : Res vtf := dor v <- fresh; dor v <- plate v; dor v <- one_scalar "stress" v; with_results [quad_res; beam_res] v.
(** Two scalars, one result each *)
Definition m3 : Res vtf := dor v <- fresh; dor v <- plate v; dor v <- one_scalar "stress" v; dor v <- with_results [beam_res] v; dor v <- one_scalar "force" v; with_results [beam_res] v.
(** Nodes without a number for the block *)
Definition m4 : Res vtf := dor v <- fresh; dor v <- plate v; add_nodes true four_nodes None None v.
(** A coordinate of six digits *)
Definition m5 : Res vtf := dor v <- fresh; dor v <- plate v; add_nodes true [[zf 1; zf (-100000); zf (-100000)]] None (Some 2) v.
(** A model without scalars, as read from a file *)
Definition m6 : Res vtf := dor v <- m1; Ok (set_scalars v []).

Definition written (m : Res vtf) : Res text := dor v <- m; vtf_write true sh v.
Definition read_back (m : Res vtf) : Res vtf := dor t <- written m; dor v <- fresh; vtf_read true t v.
