(** Model in double precision of the distance of a point to a segment, of
    Patro/GeometryEngine/Segment.py and Line.py. *)
From Coq Require Import List ZArith Bool.
From Flocq Require Import BinarySingleNaN.
From Verif Require Import Base ModelColor ModelDouble ModelDecide ModelDoubleArea ModelDoubleDirection.
Import ListNotations.

(** Line.py 250-258: distance_and_abscissa_to_line of the line through p along v *)
Definition d_distance_and_abscissa (fused : bool) (p v point : dvec) : float * float :=
  let delta := d_sub point p in
  if dbl_eq (d_dot fused delta delta) zero then (zero, zero)
  else (d_deviation_with fused delta v, d_projection_on fused delta v).
(** Segment.py 65-74: vector, length; 94-96: to_line; 192-207: distance_to_point *)
Definition d_distance_to_point (fused : bool) (p0 p1 point : dvec) : float :=
  let v := d_sub p1 p0 in
  if dbl_eq (d_dot fused v v) zero then d_magnitude fused (d_sub p0 point)
  else
    let '(d, s) := d_distance_and_abscissa fused p0 v point in
    if dbl_le zero s && dbl_le s (d_magnitude fused v) then dbl_abs d
    else if dbl_lt s zero then d_magnitude fused (d_sub p0 point)
    else d_magnitude fused (d_sub p1 point).
