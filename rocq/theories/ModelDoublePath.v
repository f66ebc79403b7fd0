(** Model in double precision of the points of a path of Patro/GeometryEngine/Path.py which is made of
    segments.  The radius of bulges, which does not move the stop points, is left out. *)
From Coq Require Import List ZArith Bool.
From Verif Require Import Base ModelColor ModelDouble ModelDoubleRotation.
Import ListNotations.

(** The parts given by line_to, absolute_horizontal_to, absolute_vertical_to and the directional ones:
    Path.py 1004-1060 *)
Inductive d_part :=
| DRelative (v : dvec)
| DAbsolute (p : dvec)
| DHorizontal (x : float)
| DVertical (y : float)
| DDirection (length angle : float).
(** Path.py 104-111: start_point, the stop point of the previous part or the one of the path;
    121-126 and 157-158: to_absolute_point and stop_point of a PathSegment; 528-530 and 566-568: stop_point of
    AbsoluteHorizontalSegment and AbsoluteVerticalSegment; 604-612: offset and stop_point of DirectionalSegment *)
Definition d_stop (dcos dsin : float -> float) (start : dvec) (part : d_part) : dvec :=
  match part with
  | DRelative v => d_add v start
  | DAbsolute p => p
  | DHorizontal x => D x (d_y start)
  | DVertical y => D (d_x start) y
  | DDirection l angle => d_add start (d_from_polar dcos dsin l angle)
  end.
(** The stop point of the last part of a path which starts from p0. *)
Definition d_path_stop (dcos dsin : float -> float) (p0 : dvec) (parts : list d_part) : dvec := fold_left (d_stop dcos dsin) parts p0.
(** Path.py 634-662: the angles of the directional segments *)
Definition d_compass : list (float) := map of_int [0; 90; 90; -90; 0; 180; 45; 135; -45; -135]%Z.
