(** Model of the area of a triangle, of the sign of the area of a polygon and of the perimeter of a
    polygon with double precision numbers. *)
From Coq Require Import List Bool ZArith.
From Flocq Require Import Core BinarySingleNaN.
From Verif Require Import Base ModelColor ModelDouble ModelDoublePolygon.
Import ListNotations.

(** math.fabs *)
Definition dbl_abs (x : float) : float := Babs x.
(** Patro/GeometryEngine/Triangle.py 179-191: area *)
Definition d_triangle_area (p0 p1 p2 : dvec) : float := fmul half (dbl_abs (d_cross (d_sub p1 p0) (d_sub p2 p0))).

(** Patro/Common/Math/Functions.py 47-50: sign, by copysign; Polygon.py 260-270: the area, its absolute
    value and its sign, which is computed when the area is not null *)
Definition d_sign (x : float) : Z := if Bsign x then (-1)%Z else 1%Z.
Definition d_polygon_area (sum : float) : float := dbl_abs (d_signed_area sum).
Definition d_area_sign (sum : float) : option Z := let area := d_signed_area sum in if dbl_eq area zero then None else Some (d_sign area).

(** Primitive.py closed_pairwise_points, Polygon.py 129-134: the edges; Segment.py 68-74: their length *)
Fixpoint d_edges_to (first : dvec) (points : list dvec) : list (dvec * dvec) :=
  match points with
  | [] => []
  | [p] => [(p, first)]
  | p :: ((q :: _) as l) => (p, q) :: d_edges_to first l
  end.
Definition d_edges (points : list dvec) : list (dvec * dvec) :=
  match points with [] => [] | first :: _ => d_edges_to first points end.
Definition d_length (fused : bool) (e : dvec * dvec) : float := d_magnitude fused (d_sub (snd e) (fst e)).
(** Polygon.py 217-218: perimeter; `total` is the sum of python, from left to right until python 3.11
    and compensated since python 3.12 *)
Definition d_perimeter (total : list float -> float) (fused : bool) (points : list dvec) : float := total (map (d_length fused) (d_edges points)).
(** The sum from left to right *)
Definition plain_sum (l : list float) : float := fold_left dbl_add l zero.
