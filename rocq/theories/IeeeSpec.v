(** * IeeeSpec: binary floating-point numbers and rounding to nearest (IEEE 754). *)
From Coq Require Import Reals ZArith.
Open Scope R_scope.

(** Digits, exponents of the last place of the smallest and first place beyond the
    largest numbers. *)
Record format : Set := mkFormat { f_prec : Z; f_low : Z; f_high : Z }.
Definition single : format := mkFormat 24 (-149) 128.
Definition double : format := mkFormat 53 (-1074) 1024.
Definition representable (f : format) (y : R) : Prop :=
  exists m e, (Z.abs m < 2 ^ f_prec f)%Z /\ (f_low f <= e <= f_high f - f_prec f)%Z /\ y = IZR m * powerRZ 2 e.
Definition nearest (f : format) (x y : R) : Prop :=
  representable f y /\ forall z, representable f z -> Rabs (y - x) <= Rabs (z - x).
(** A rounding: any choice between two equally near, well below overflow. *)
Definition rounds (f : format) (rnd : R -> R) : Prop := forall x, Rabs x < powerRZ 2 (f_high f - 1) -> nearest f x (rnd x).
(** Half of a unit in the last place, relatively. *)
Definition unit_of (f : format) : R := powerRZ 2 (- f_prec f).
(** Numbers whose squares neither overflow nor underflow. *)
Definition moderate (f : format) (x : R) : Prop :=
  representable f x /\ (x = 0 \/ exists a b, (f = single /\ a = -39 /\ b = 60 \/ f = double /\ a = -450 /\ b = 500)%Z /\ powerRZ 2 a <= Rabs x <= powerRZ 2 b).
