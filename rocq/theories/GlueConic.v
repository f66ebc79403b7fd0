(** Words used in the statements on circles and ellipses. *)
From Coq Require Import Reals List.
From Verif Require Import Base ModelVector ModelTransformation ModelConic SpecVector SpecConic.
Import ListNotations.
Local Open Scope R_scope.

(** The points of an answer. *)
Definition met (m : meets) (q : vec) : Prop :=
  match m with MNone => False | MOne p => q = p | MTwo p p' => q = p \/ q = p' end.

(** [x] is a point of [A] at the smallest distance from [y]. *)
Definition nearest (A : vec -> Prop) (y x : vec) : Prop := A x /\ forall z, A z -> dist y x <= dist y z.

(** The bound on the error of the bisection, for the point (y0, y1) in the frame of the ellipse. *)
Definition tolerance (e0 e1 y0 y1 : R) : R :=
  ((e0 / e1) ^ 2 * y0 + y1) * (1 + (e0 / e1) ^ 2 * (y0 / e0)) / (y1 / e1) ^ 2 / 2 ^ 1074.

(** The derivative of the point with respect to the angle. *)
Definition arc_tangent (e : ellipse) (a : R) : vec := ellipse_tangent (e_rx e) (e_ry e) (e_angle e) a.

(** The bounds of the angles of the whole shape. *)
Definition angles (e : ellipse) (s t : R) : Prop :=
  match e_domain e with None => s = 0 /\ t = 360 | Some d => s = d_start d /\ t = d_stop d end.

(** Less than 0.028 % away from the ellipse, outwards. *)
Definition near_ellipse (e : ellipse) (q : vec) : Prop := exists u v,
  frame (e_center e) (e_angle e) q (e_rx e * u) (e_ry e * v) /\ 1 <= u ^ 2 + v ^ 2 <= 1 + 55 / 100000.

(** The value of the quadratic form at a point. *)
Definition conic_value (m : mat3) (q : vec) : R :=
  m00 m * vx q ^ 2 + 2 * m01 m * vx q * vy q + m11 m * vy q ^ 2 + 2 * m02 m * vx q + 2 * m12 m * vy q + m22 m.

