(** Specification vocabulary for plane geometry: written on coordinates, not using the model's
    operations. *)
From Coq Require Import Reals.
From Verif Require Import ModelVector.
Local Open Scope R_scope.

(** Euclidean length and distance. *)
Definition len (a : vec) : R := sqrt (vx a * vx a + vy a * vy a).
Definition dist (a b : vec) : R :=
  sqrt ((vx a - vx b) * (vx a - vx b) + (vy a - vy b) * (vy a - vy b)).

Definition null (a : vec) : Prop := vx a = 0 /\ vy a = 0.

(** [b] is [a] turned by [t] radians counter clockwise about the origin. *)
Definition turned (t : R) (a b : vec) : Prop :=
  vx b = cos t * vx a - sin t * vy a /\ vy b = sin t * vx a + cos t * vy a.

(** The two vectors are linearly dependent. *)
Definition collinear (a b : vec) : Prop :=
  exists k l, (k <> 0 \/ l <> 0) /\ k * vx a = l * vx b /\ k * vy a = l * vy b.

(** Angle in degrees. *)
Definition rad (d : R) : R := d / 180 * PI.
