(** Model in double precision of the functions of directions of Patro/GeometryEngine/Vector.py and of the
    distance to a line of Line.py.  The function acos of the C library is a parameter.  Divisions by
    the length of a null vector, which raise ZeroDivisionError, are not modelled. *)
From Coq Require Import List ZArith Bool.
From Flocq Require Import BinarySingleNaN.
From Verif Require Import Base ModelColor ModelDouble ModelDecide ModelDoubleRotation.
Import ListNotations.

(** Vector.py 390-392: dot; the dot product of the linear algebra library of numpy may round once ([fused]) or twice
    the sum of a product *)
Definition d_dot (fused : bool) (a b : dvec) : float :=
  if fused then dbl_fma (d_y a) (d_y b) (fmul (d_x a) (d_x b))
  else dbl_add (fmul (d_x a) (d_x b)) (fmul (d_y a) (d_y b)).
(** Patro/Common/Math/Functions.py 59-66: trignometric_clamp *)
Definition d_clamp (x : float) : float :=
  if dbl_lt one x then one else if dbl_lt x (dbl_neg one) then dbl_neg one else x.
(** Vector.py 430-433: cos_with *)
Definition d_cos_with (fused : bool) (v direction : dvec) : float :=
  d_clamp (fdiv (d_dot fused direction v) (fmul (d_magnitude fused direction) (d_magnitude fused v))).
(** Vector.py 437-439: projection_on *)
Definition d_projection_on (fused : bool) (v direction : dvec) : float :=
  fdiv (d_dot fused direction v) (d_magnitude fused direction).
(** Vector.py 443-447: sin_with *)
Definition d_sin_with (fused : bool) (v direction : dvec) : float :=
  d_clamp (fdiv (d_cross direction v) (fmul (d_magnitude fused direction) (d_magnitude fused v))).
(** Vector.py 451-453: deviation_with *)
Definition d_deviation_with (fused : bool) (v direction : dvec) : float :=
  fdiv (d_cross direction v) (d_magnitude fused direction).
(** Vector.py 572-574: to_normalised *)
Definition d_normalised (fused : bool) (v : dvec) : dvec :=
  D (fdiv (d_x v) (d_magnitude fused v)) (fdiv (d_y v) (d_magnitude fused v)).
(** math.degrees, which multiplies by the quotient of 180 by pi, and Functions.py 47-50: sign *)
Definition d_degrees (x : float) : float := fmul x (fdiv (of_int 180) d_pi).
Definition d_sign (x : float) : float := if Bsign x then dbl_neg one else one.
(** Vector.py 457-461: angle_with *)
Definition d_angle_with (dacos : float -> float) (fused : bool) (v direction : dvec) : float :=
  let angle := dacos (d_cos_with fused v direction) in
  let angle_sign := d_sign (d_sin_with fused v direction) in
  fmul angle_sign (d_degrees angle).
(** Line.py 224-246: distance_to_line of the line through p along v *)
Definition d_distance_to_line (fused : bool) (p v point : dvec) : float := d_deviation_with fused (d_sub point p) v.
