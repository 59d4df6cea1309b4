(** * ElemValuesSpec: element results at the nodes, from the numbers of a record.

    Nothing here refers to the matrices of the code: the numbers of a record are
    those of a field at the result points, the results are those of the same
    field at the nodes. *)
From Verif Require Import Base Nd ElemSpec.
Open Scope string_scope.
Open Scope list_scope.

Section Values.
  Context {F : Type}.
  Variables (zero one : F) (add mul sub : F -> F -> F) (opp : F -> F) (div : F -> F -> F) (s3 : F).
  (** Three stresses at lower and upper surface; those at mid-thickness, and what is
      added up to the upper surface. *)
  Definition both_surfaces (f : bool -> nat -> F) : list F := flat_map (fun u => map (f u) (seq 0 3)) [false; true].
  Definition mean_and_rest (f : bool -> nat -> F) : list F :=
    map (fun c => div (add (f false c) (f true c)) (int2 one add)) (seq 0 3) ++ map (fun c => div (sub (f true c) (f false c)) (int2 one add)) (seq 0 3).
  (** At a place of a thick shell: lower and upper surface, the transverse shears
      being zero there. *)
  Definition thick_surfaces {P} (f : nat -> P -> F -> F) (p : P) : list F :=
    flat_map (fun z => [f 0%nat p z; f 1%nat p z; f 2%nat p z; zero; zero]) [opp one; one].
  Definition beam_record (points : list F) (f : nat -> F -> F) : list F := flat_map (fun p => map (fun c => f c p) (seq 0 6)) points.

  (** Element type, kind of result, numbers of the record, numbers at the nodes. *)
  Inductive node_values : Z -> string -> list F -> list F -> Prop :=
  | nv_beam2 a b c : length a = 6%nat -> length b = 6%nat -> length c = 6%nat -> node_values 15 "beamforce" (a ++ b ++ c) (a ++ c)
  | nv_beam3 f : (forall c, (c < 6)%nat -> linear1 add mul (f c)) ->
      node_values 23 "beamforce" (beam_record (beam_points one opp div s3) f) (beam_record (beam_nodes zero one opp) f)
  | nv_quad4 f : node_values 24 "generalstress" (thin_record quad_place f) (flat_map (fun n => both_surfaces (f (Some n))) [0; 1; 2; 3]%nat)
  | nv_quad4d f : node_values 24 "decomposedstress" (thin_record quad_place f) (flat_map (fun n => mean_and_rest (f (Some n))) [0; 1; 2; 3]%nat)
  | nv_tri3 f : node_values 25 "generalstress" (thin_record tri_place f) (flat_map (fun n => both_surfaces (f (Some n))) [0; 1; 2]%nat)
  | nv_tri3d f : node_values 25 "decomposedstress" (thin_record tri_place f) (flat_map (fun n => mean_and_rest (f (Some n))) [0; 1; 2]%nat)
  | nv_tri6 f : (forall c, (c < 5)%nat -> through add mul (linear3 add mul) (f c)) ->
      node_values 26 "generalstress" (thick_record one opp div s3 (tri_points one add mul div) f) (flat_map (thick_surfaces f) (tri_nodes zero one add div))
  | nv_tri6d f : (forall c, (c < 5)%nat -> through add mul (linear3 add mul) (f c)) ->
      node_values 26 "decomposedstress" (thick_record one opp div s3 (tri_points one add mul div) f)
        (flat_map (decomposed zero one add mul sub opp div s3 f) (tri_nodes zero one add div))
  | nv_quad8 f : (forall c, (c < 5)%nat -> through add mul (bilinear add mul) (f c)) ->
      node_values 28 "generalstress" (thick_record one opp div s3 (quad_points one opp div s3) f) (flat_map (thick_surfaces f) (quad_nodes zero one opp))
  | nv_quad8d f : (forall c, (c < 5)%nat -> through add mul (bilinear add mul) (f c)) ->
      node_values 28 "decomposedstress" (thick_record one opp div s3 (quad_points one opp div s3) f)
        (flat_map (decomposed zero one add mul sub opp div s3 f) (quad_nodes zero one opp)).
End Values.
