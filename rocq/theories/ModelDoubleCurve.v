(** Model of point_at_t of Patro/GeometryEngine/Bezier.py in double precision at any parameter.  The
    function pow of the C library which computes the powers of t is a parameter; in ModelDouble.v the
    powers are products. *)
From Coq Require Import List ZArith.
From Verif Require Import Base ModelColor ModelDouble.
Import ListNotations.

(** Bezier.py 263-267: QuadraticBezier2D.point_at_t *)
Definition d_quadratic_by (pow : float -> nat -> float) (a b c : dvec) (t : float) : dvec :=
  let u := dbl_sub one t in
  d_add (d_add (d_scale a (pow u 2)) (d_scale (d_scale (d_scale b two) t) u)) (d_scale c (pow t 2)).
(** Bezier.py 462-468: CubicBezier2D.point_at_t *)
Definition d_cubic_by (pow : float -> nat -> float) (a b c d : dvec) (t : float) : dvec :=
  d_add (d_add (d_add a (d_scale (d_cubic1 a b c d) t)) (d_scale (d_cubic2 a b c d) (pow t 2)))
        (d_scale (d_cubic3 a b c d) (pow t 3)).
(** The products of ModelDouble.v *)
Definition products (x : float) (n : nat) : float := match n with 2 => dbl_square x | 3 => dbl_cube x | _ => x end.
