(** Homogeneous coordinates: (x, y, w) stands for the point (x / w, y / w), or for a direction when w is null. *)
From Coq Require Import Reals.
From Verif Require Import ModelVector.
Local Open Scope R_scope.

Definition stands_for (x y w : R) (q : vec) : Prop := w <> 0 /\ vx q = x / w /\ vy q = y / w.
(** A map of the plane and its linear part. *)
Definition linear_part (f : vec -> vec) (d : vec) : vec :=
  V (vx (f d) - vx (f (V 0 0))) (vy (f d) - vy (f (V 0 0))).
