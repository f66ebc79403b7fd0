(** Model in double precision of the intersections of lines and segments of Patro/GeometryEngine/Line.py
    and Segment.py. *)
From Coq Require Import List ZArith Bool Reals.
From Flocq Require Import Core BinarySingleNaN.
From Verif Require Import Base ModelColor ModelDouble ModelDecide.
Import ListNotations.

(** A line is a point and a vector: Line.py 55-58 *)
Record dline := DL { dl_p : dvec; dl_v : dvec }.
(** round(x, 7) == 0 (Vector.py 416).  The function round of python rounds the exact value of x to the
    nearest decimal number with seven digits; 5/10^8 is no double, so that there is no tie. *)
Definition d_rounds_to_zero (x : float) : bool := Rlt_bool (Rabs (B2R x)) (5 / 10 ^ 8).
(** Line.py 131-133 and Vector.py 412-420: is_parallel with its cross product;
    Line.py 173-190: intersection_abscissae *)
Definition d_intersection_abscissae (l1 l2 : dline) : option (float * float) :=
  let cross := d_cross (dl_v l1) (dl_v l2) in
  if d_rounds_to_zero cross then None
  else
    let denominator := fdiv one cross in
    let delta := d_sub (dl_p l2) (dl_p l1) in
    Some (fmul (d_cross delta (dl_v l2)) denominator, fmul (d_cross delta (dl_v l1)) denominator).
(** Line.py 88-90: interpolate *)
Definition d_line_interpolate (l : dline) (s : float) : dvec := d_add (dl_p l) (d_scale (dl_v l) s).
(** Line.py 194-200: intersection *)
Definition d_intersection (l1 l2 : dline) : option dvec :=
  match d_intersection_abscissae l1 l2 with
  | None => None
  | Some (s1, _) => Some (d_line_interpolate l1 s1)
  end.
(** Line.py 49-51: from_two_points; Segment.py 94-96: to_line *)
Definition d_to_line (p0 p1 : dvec) : dline := DL p0 (d_sub p1 p0).
(** Segment.py 126-139: intersection, with Primitive2P.interpolate (Primitive.py 489-491) *)
Definition d_segment_intersection (p0 p1 q0 q1 : dvec) : option (dvec * bool) :=
  match d_intersection_abscissae (d_to_line p0 p1) (d_to_line q0 q1) with
  | None => None
  | Some (s1, s2) => Some (d_interpolate p0 p1 s1, (dbl_le zero s1 && dbl_le s1 one) && (dbl_le zero s2 && dbl_le s2 one))
  end.
