(** Specification vocabulary for arrow heads, on coordinates. *)
From Coq Require Import Reals List.
From Verif Require Import ModelVector SpecVector.
Local Open Scope R_scope.

(** Coordinates of a point in the frame with the origin [p] and the axis [d], times the length of [d]:
    along the axis, and to its left. *)
Definition along (p d x : vec) : R := vx d * (vx x - vx p) + vy d * (vy x - vy p).
Definition aside (p d x : vec) : R := vx d * (vy x - vy p) - vy d * (vx x - vx p).

(** The arrow head with its tip at [p], which points in the direction [d]: the left and right ends of
    its base. *)
Record pointer (p d : vec) (length width : R) (t l r : vec) : Prop := Pointer {
  pointer_tip : t = p;
  pointer_left : along p d l = - length * len d /\ aside p d l = width * len d;
  pointer_right : along p d r = - length * len d /\ aside p d r = - width * len d }.

(** [y] is the mirror image of [x] in the axis. *)
Definition mirror (p d x y : vec) : Prop := along p d y = along p d x /\ aside p d y = - aside p d x.

(** [c] is at the distance [k] times the length of the side [a b] from its middle, at a right angle,
    on the right hand of who goes from [a] to [b]. *)
Definition bent (a b : vec) (k : R) (c : vec) : Prop := exists m,
  2 * vx m = vx a + vx b /\ 2 * vy m = vy a + vy b /\
  vx c = vx m + k * (vy b - vy a) /\ vy c = vy m - k * (vx b - vx a).

(** A direct isometry: a rotation by [t] radians and a translation. *)
Definition moved (t : R) (q x y : vec) : Prop := exists z, turned t x z /\ vx y = vx q + vx z /\ vy y = vy q + vy z.
