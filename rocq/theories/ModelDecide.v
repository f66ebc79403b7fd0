(** Model of the decisions of the geometry engine with double precision numbers: sides, orientations, crossings. *)
From Coq Require Import List Bool ZArith.
From Flocq Require Import Core BinarySingleNaN.
From Verif Require Import Base ModelColor ModelDouble.

Definition dbl_lt (x y : float) : bool := Bltb x y.
Definition dbl_le (x y : float) : bool := Bleb x y.

(** Segment.py 163-188: side_of, left_of, right_of, is_collinear, of the segment from [a] to [b] *)
Definition d_side_of (a b p : dvec) : float := d_cross (d_sub b a) (d_sub p a).
Definition d_left_of (a b p : dvec) : bool := dbl_lt zero (d_side_of a b p).
Definition d_right_of (a b p : dvec) : bool := dbl_lt (d_side_of a b p) zero.
Definition d_is_collinear (a b p : dvec) : bool := dbl_eq (d_side_of a b p) zero.

(** Triangle.py 38-64: triangle_orientation *)
Definition d_triangle_orientation (p0 p1 p2 : dvec) : Z :=
  let dx1 := dbl_sub (d_x p1) (d_x p0) in
  let dy1 := dbl_sub (d_y p1) (d_y p0) in
  let dx2 := dbl_sub (d_x p2) (d_x p0) in
  let dy2 := dbl_sub (d_y p2) (d_y p0) in
  if dbl_lt (fmul dx2 dy1) (fmul dx1 dy2) then 1%Z
  else if dbl_lt (fmul dx1 dy2) (fmul dx2 dy1) then (-1)%Z
  else if dbl_lt (fmul dx1 dx2) zero || dbl_lt (fmul dy1 dy2) zero then (-1)%Z
  else if dbl_le (dbl_add (fmul dx2 dx2) (fmul dy2 dy2)) (dbl_add (fmul dx1 dx1) (fmul dy1 dy1)) then 0%Z
  else 1%Z.
(** Triangle.py 68-77: same_side; 282-291: is_point_inside *)
Definition d_same_side (p1 p2 a b : dvec) : bool :=
  let v := d_sub b a in
  dbl_le zero (fmul (d_cross v (d_sub p1 a)) (d_cross v (d_sub p2 a))).
Definition d_inside (t0 t1 t2 p : dvec) : bool :=
  d_same_side p t0 t1 t2 && (d_same_side p t1 t0 t2 && d_same_side p t2 t0 t1).

(** Segment.py 104-122: intersect_with *)
Definition d_intersect_with (a b c d : dvec) : bool :=
  let ccw11 := d_triangle_orientation a b c in
  let ccw12 := d_triangle_orientation a b d in
  let ccw21 := d_triangle_orientation c d a in
  let ccw22 := d_triangle_orientation c d b in
  ((ccw11 * ccw12 <? 0) && (ccw21 * ccw22 <? 0) || (ccw11 * ccw12 * ccw21 * ccw22 =? 0))%Z.

(** Polygon.py 727-743: ccw, is_three_point_ccw, is_three_point_cw, is_three_point_collinear *)
Definition d_ccw (p1 p2 p3 : dvec) : float :=
  dbl_sub (fmul (dbl_sub (d_x p2) (d_x p1)) (dbl_sub (d_y p3) (d_y p1)))
          (fmul (dbl_sub (d_y p2) (d_y p1)) (dbl_sub (d_x p3) (d_x p1))).
Definition d_is_ccw (p1 p2 p3 : dvec) : bool := dbl_lt zero (d_ccw p1 p2 p3).
Definition d_is_cw (p1 p2 p3 : dvec) : bool := dbl_lt (d_ccw p1 p2 p3) zero.
Definition d_is_aligned (p1 p2 p3 : dvec) : bool := dbl_eq (d_ccw p1 p2 p3) zero.
