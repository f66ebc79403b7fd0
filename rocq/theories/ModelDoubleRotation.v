(** Model in double precision of the functions of angles of Patro/GeometryEngine: Vector.py and
    Transformation.py.  The functions cos and sin of the C library are parameters. *)
From Coq Require Import List ZArith Bool.
From Flocq Require Import BinarySingleNaN.
From Verif Require Import Base ModelColor ModelDouble.
Import ListNotations.

(** math.pi, which is 0x1.921fb54442d18p+1 *)
Definition d_pi : float := binary_normalize 53 1024 prec_ok emax_ok mode_NE 884279719003555 (-48) false.
(** math.radians (Vector.py 318, 488, 503, Transformation.py 288), which multiplies by the quotient of
    pi by 180 *)
Definition d_degree : float := fdiv d_pi (of_int 180).
Definition d_radians (angle : float) : float := fmul angle d_degree.

(** Vector.py 312-328: rotate *)
Definition d_rotate (dcos dsin : float -> float) (v : dvec) (angle : float) (counter_clockwise : bool) : dvec :=
  let radians := d_radians angle in
  let radians := if counter_clockwise then radians else dbl_neg radians in
  let c := dcos radians in
  let s := dsin radians in
  D (dbl_sub (fmul c (d_x v)) (fmul s (d_y v))) (dbl_add (fmul s (d_x v)) (fmul c (d_y v))).
(** Vector.py 485-489: from_angle; the constructor copies two floats *)
Definition d_from_angle (dcos dsin : float -> float) (angle : float) : dvec :=
  let rad := d_radians angle in D (dcos rad) (dsin rad).
(** Vector.py 493-496: from_polar, and 517-519 for the product *)
Definition d_from_polar (dcos dsin : float -> float) (radius angle : float) : dvec :=
  d_scale (d_from_angle dcos dsin angle) radius.
(** Vector.py 500-506: from_ellipse *)
Definition d_from_ellipse (dcos dsin : float -> float) (radius_x radius_y angle : float) : dvec :=
  let angle := d_radians angle in D (fmul radius_x (dcos angle)) (fmul radius_y (dsin angle)).
(** Transformation.py 285-297 and 377-383: the matrix of Rotation *)
Definition d_rotation (dcos dsin : float -> float) (angle : float) : dmat :=
  let angle := d_radians angle in
  let c := dcos angle in
  let s := dsin angle in
  DM c (dbl_neg s) zero s c zero.
