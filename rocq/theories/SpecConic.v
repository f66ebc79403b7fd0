(** Circles, arcs and ellipses as sets of points; turning angles. *)
From Coq Require Import Reals ZArith.
From Verif Require Import ModelVector SpecVector.
Local Open Scope R_scope.

(** The angle [a] (degrees) is passed when turning counterclockwise from [s] to [e], with one more
    turn when [e] is below [s]. *)
Definition swept (s e a : R) : Prop :=
  (s <= e /\ exists k : Z, s <= a + 360 * IZR k <= e) \/
  (e < s /\ exists k : Z, s <= a + 360 * IZR k <= e + 360).

(** The point at angle [a] (degrees) of a circle. *)
Definition polar (c : vec) (r a : R) (q : vec) : Prop :=
  vx q = vx c + r * cos (rad a) /\ vy q = vy c + r * sin (rad a).

Definition on_circle (c : vec) (r : R) (q : vec) : Prop := dist c q = r.

Definition on_arc (c : vec) (r s e : R) (q : vec) : Prop := exists a, s <= a <= e /\ polar c r a q.

(** The point of the line through [a] and [b]. *)
Definition aligned (a b q : vec) : Prop :=
  exists t, vx q = vx a + t * (vx b - vx a) /\ vy q = vy a + t * (vy b - vy a).

(** Coordinates in the frame of axes turned by [phi] (degrees) about [c]. *)
Definition frame (c : vec) (phi : R) (q : vec) (u v : R) : Prop :=
  vx q = vx c + u * cos (rad phi) - v * sin (rad phi) /\
  vy q = vy c + u * sin (rad phi) + v * cos (rad phi).

Definition on_ellipse (c : vec) (rx ry phi : R) (q : vec) : Prop :=
  exists u v, frame c phi q u v /\ (u / rx) ^ 2 + (v / ry) ^ 2 = 1.

(** The point of eccentric angle [a]. *)
Definition ellipse_polar (c : vec) (rx ry phi a : R) (q : vec) : Prop :=
  frame c phi q (rx * cos (rad a)) (ry * sin (rad a)).

(** Derivative of the point of eccentric angle [a] with respect to the angle. *)
Definition ellipse_tangent (rx ry phi a : R) : vec :=
  let u := - rx * sin (rad a) in
  let v := ry * cos (rad a) in
  V (u * cos (rad phi) - v * sin (rad phi)) (u * sin (rad phi) + v * cos (rad phi)).
