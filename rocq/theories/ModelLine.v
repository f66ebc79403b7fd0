(** Model of Patro/GeometryEngine/Line.py, Segment.py, Triangle.py, Polyline.py and Rectangle.py
    over the real numbers.  Caches are not modelled (see ModelPolygon for stale caches). *)
From Coq Require Import Reals List ZArith.
From Verif Require Import Base ModelVector ModelRoot.
Import ListNotations.
Local Open Scope R_scope.
Local Open Scope result_scope.

(** ** Line.py *)

(** Line.py 55-58 *)
Record line := Ln { l_p : vec; l_v : vec }.

(** Line.py 48-51: from_two_points *)
Definition line_from_two_points (p0 p1 : vec) : line := Ln p0 (vsub p1 p0).

(** Line.py 88-93: interpolate *)
Definition line_interpolate (l : line) (s : R) : vec := vadd (l_p l) (vscale (l_v l) s).

(** Line.py 97-98: point_at_distance (with the point given) *)
Definition point_at_distance (l : line) (distance : R) (point : vec) : result vec :=
  vn <- to_normalised (l_v l) ;; Ok (vadd point (vscale vn distance)).

(** Line.py 102-104: compute_distance_between_abscissae calls the float [magnitude]. *)
Definition compute_distance_between_abscissae (l : line) (s0 s1 : R) : result R := Raise TypeError.

(** Line.py 117-125: get_y_from_x, get_x_from_y *)
Definition get_y_from_x (l : line) (x : R) : result R :=
  t <- vtan (l_v l) ;; Ok (t * (x - vx (l_p l)) + vy (l_p l)).
Definition get_x_from_y (l : line) (y : R) : result R :=
  t <- vinverse_tan (l_v l) ;; Ok (t * (y - vy (l_p l)) + vx (l_p l)).

(** Line.py 143-169: parallel_line_at, shifted_parallel_line, orthogonal_line_at,
    orthogonal_line_at_abscissa *)
Definition parallel_line_at (l : line) (point : vec) : line := Ln point (l_v l).
Definition shifted_parallel_line (l : line) (shift : R) : result line :=
  n <- normalise (normal (l_v l)) ;;
  Ok (Ln (vadd (l_p l) (vscale n shift)) (l_v l)).
Definition orthogonal_line_at (l : line) (point : vec) : line := Ln point (normal (l_v l)).
Definition orthogonal_line_at_abscissa (l : line) (s : R) : line :=
  Ln (line_interpolate l s) (normal (l_v l)).

(** Line.py 173-190: intersection_abscissae; None for parallel lines.  The division [1. / cross] is
    between python floats. *)
Definition intersection_abscissae (l1 l2 : line) : result (option (R * R)) :=
  let '(test, c) := is_parallel_cross (l_v l1) (l_v l2) in
  if test then Ok None
  else
    denominator <- fdiv 1 c ;;
    let delta := vsub (l_p l2) (l_p l1) in
    Ok (Some (cross delta (l_v l2) * denominator, cross delta (l_v l1) * denominator)).

(** Line.py 194-200: intersection *)
Definition line_intersection (l1 l2 : line) : result (option vec) :=
  r <- intersection_abscissae l1 l2 ;;
  match r with
  | None => Ok None
  | Some (s1, _) => Ok (Some (line_interpolate l1 s1))
  end.

(** Line.py 204-213: projected_abscissa, projected_point *)
Definition projected_abscissa (l : line) (point : vec) : result R :=
  projection_on (vsub point (l_p l)) (l_v l).
Definition projected_point (l : line) (point : vec) : result vec :=
  s <- projected_abscissa l point ;; Ok (line_interpolate l s).

(** Line.py 215-220: triangle_projected_point *)
Definition triangle_projected_point (l : line) (point : vec) (distance : R) (reverse : bool)
  : result vec :=
  p <- projected_point l point ;;
  d <- fsqrt (distance ^ 2 - magnitude_square (vsub p point)) ;;
  let d := if reverse then - d else d in
  point_at_distance l d p.

(** Line.py 224-246: distance_to_line *)
Definition distance_to_line (l : line) (point : vec) : result R :=
  deviation_with (vsub point (l_p l)) (l_v l).

(** Line.py 250-258: distance_and_abscissa_to_line *)
Definition distance_and_abscissa_to_line (l : line) (point : vec) : result (R * R) :=
  let delta := vsub point (l_p l) in
  if Reqb (magnitude_square delta) 0 then Ok (0, 0)
  else
    d <- deviation_with delta (l_v l) ;;
    s <- projection_on delta (l_v l) ;;
    Ok (d, s).

(** ** Triangle.py *)

(** Triangle.py 38-64: triangle_orientation *)
Definition triangle_orientation (p0 p1 p2 : vec) : Z :=
  let dx1 := vx p1 - vx p0 in
  let dy1 := vy p1 - vy p0 in
  let dx2 := vx p2 - vx p0 in
  let dy2 := vy p2 - vy p0 in
  if Rltb (dx2 * dy1) (dx1 * dy2) then 1%Z
  else if Rltb (dx1 * dy2) (dx2 * dy1) then (-1)%Z
  else if orb (Rltb (dx1 * dx2) 0) (Rltb (dy1 * dy2) 0) then (-1)%Z
  else if Rleb (dx2 * dx2 + dy2 * dy2) (dx1 * dx1 + dy1 * dy1) then 0%Z
  else 1%Z.

(** Triangle.py 68-77: same_side *)
Definition same_side (p1 p2 a b : vec) : bool :=
  let v := vsub b a in
  Rleb 0 (cross v (vsub p1 a) * cross v (vsub p2 a)).

(** Triangle.py 87-92: the constructor *)
Record triangle := Tri { tri0 : vec; tri1 : vec; tri2 : vec }.
Definition new_triangle (p0 p1 p2 : vec) : result triangle :=
  if is_parallel (vsub p1 p0) (vsub p2 p0) then Raise ValueError else Ok (Tri p0 p1 p2).

(** Triangle.py 179-191: area *)
Definition triangle_area (t : triangle) : R :=
  / 2 * Rabs (cross (vsub (tri1 t) (tri0 t)) (vsub (tri2 t) (tri0 t))).

(** Triangle.py 125-134: bisector_vector0 *)
Definition bisector_vector0 (t : triangle) : vec :=
  vadd (vsub (tri1 t) (tri0 t)) (vsub (tri2 t) (tri0 t)).

(** Triangle.py 152-174: perimeter: the attribute given to [hasattr] does not exist. *)
Definition triangle_perimeter (t : triangle) : result R := Raise AttributeError.

(** Triangle.py 282-291: is_point_inside *)
Definition triangle_is_point_inside (t : triangle) (p : vec) : bool :=
  andb (same_side p (tri0 t) (tri1 t) (tri2 t))
    (andb (same_side p (tri1 t) (tri0 t) (tri2 t)) (same_side p (tri2 t) (tri0 t) (tri1 t))).

(** ** Segment.py *)

Record segment := Seg { s_p0 : vec; s_p1 : vec }.

(** Segment.py 65-79: vector, length, center *)
Definition s_vector (s : segment) : vec := vsub (s_p1 s) (s_p0 s).
Definition s_length (s : segment) : R := magnitude (s_vector s).
Definition s_center (s : segment) : result vec := vdiv (vadd (s_p0 s) (s_p1 s)) 2.

(** Segment.py 94-96: to_line *)
Definition to_line (s : segment) : line := line_from_two_points (s_p0 s) (s_p1 s).

(** Segment.py 100 and Primitive.py 489-491: point_at_t, interpolate *)
Definition s_interpolate (s : segment) (t : R) : vec := interpolate_two_points (s_p0 s) (s_p1 s) t.

(** Segment.py 104-122: intersect_with *)
Definition intersect_with (s1 s2 : segment) : bool :=
  let ccw11 := triangle_orientation (s_p0 s1) (s_p1 s1) (s_p0 s2) in
  let ccw12 := triangle_orientation (s_p0 s1) (s_p1 s1) (s_p1 s2) in
  let ccw21 := triangle_orientation (s_p0 s2) (s_p1 s2) (s_p0 s1) in
  let ccw22 := triangle_orientation (s_p0 s2) (s_p1 s2) (s_p1 s1) in
  orb (andb (ccw11 * ccw12 <? 0)%Z (ccw21 * ccw22 <? 0)%Z)
      (ccw11 * ccw12 * ccw21 * ccw22 =? 0)%Z.

(** Segment.py 126-139: intersection *)
Definition segment_intersection (s1 s2 : segment) : result (option (vec * bool)) :=
  r <- intersection_abscissae (to_line s1) (to_line s2) ;;
  match r with
  | None => Ok None
  | Some (a, b) =>
      let intersect := andb (andb (Rleb 0 a) (Rleb a 1)) (andb (Rleb 0 b) (Rleb b 1)) in
      Ok (Some (s_interpolate s1 a, intersect))
  end.

(** Segment.py 143-159: share_vertex_with *)
Definition share_vertex_with (s1 s2 : segment) : option vec :=
  if orb (veqb (s_p0 s1) (s_p0 s2)) (veqb (s_p0 s1) (s_p1 s2)) then Some (s_p0 s1)
  else if orb (veqb (s_p1 s1) (s_p0 s2)) (veqb (s_p1 s1) (s_p1 s2)) then Some (s_p1 s1)
  else None.

(** Segment.py 163-188: side_of, left_of, right_of, is_collinear *)
Definition side_of (s : segment) (p : vec) : R := cross (s_vector s) (vsub p (s_p0 s)).
Definition left_of (s : segment) (p : vec) : bool := Rltb 0 (side_of s p).
Definition right_of (s : segment) (p : vec) : bool := Rltb (side_of s p) 0.
Definition is_collinear (s : segment) (p : vec) : bool := Reqb (side_of s p) 0.

(** Segment.py 192-207: distance_to_point *)
Definition segment_distance_to_point (s : segment) (point : vec) : result R :=
  let line := to_line s in
  if Reqb (magnitude_square (l_v line)) 0 then Ok (magnitude (vsub (s_p0 s) point))
  else
    ds <- distance_and_abscissa_to_line line point ;;
    let '(d, a) := ds in
    if andb (Rleb 0 a) (Rleb a (s_length s)) then Ok (Rabs d)
    else
      let p := if Rltb a 0 then s_p0 s else s_p1 s in
      Ok (magnitude (vsub p point)).

(** Segment.py 211-220: contain_point *)
Definition contain_point (s : segment) (point : vec) : result bool :=
  ds <- distance_and_abscissa_to_line (to_line s) point ;;
  let '(d, a) := ds in
  Ok (andb (Rleb 0 a) (Rleb a 1)).

(** ** Polyline.py *)

(** Polyline.py 43-49: the constructor *)
Definition new_polyline (points : list vec) : result (list vec) :=
  if Nat.ltb (length points) 2 then Raise ValueError else Ok points.

(** Polyline.py 53-60: edges, for [i] in [range(n - 1)] the segment of the points [i] and [i+1] *)
Fixpoint polyline_edges (points : list vec) : list segment :=
  match points with
  | a :: ((b :: _) as rest) => Seg a b :: polyline_edges rest
  | _ => []
  end.

(** Polyline.py 70-77: distance_to_point, the loop with the current minimum *)
Fixpoint polyline_distance_loop (edges : list segment) (point : vec) (distance : option R)
  : result (option R) :=
  match edges with
  | [] => Ok distance
  | e :: edges =>
      d <- segment_distance_to_point e point ;;
      let distance :=
        match distance with
        | None => Some d
        | Some m => if Rltb d m then Some d else Some m
        end in
      polyline_distance_loop edges point distance
  end.
Definition polyline_distance_to_point (points : list vec) (point : vec) : result (option R) :=
  polyline_distance_loop (polyline_edges points) point None.

(** Polyline.py 64-66: length uses [edge.magnitude], which a Segment2D has not. *)
Definition polyline_length (points : list vec) : result R :=
  match polyline_edges points with [] => Ok 0 | _ => Raise AttributeError end.

(** ** Rectangle.py *)

Record rectangle := Rec { r_p0 : vec; r_p1 : vec }.

(** Rectangle.py 70-91: p01, p10, edges *)
Definition r_p01 (r : rectangle) : vec := V (vx (r_p0 r)) (vy (r_p1 r)).
Definition r_p10 (r : rectangle) : vec := V (vx (r_p1 r)) (vy (r_p0 r)).
Definition rectangle_edges (r : rectangle) : list segment :=
  [Seg (r_p0 r) (r_p01 r); Seg (r_p01 r) (r_p1 r); Seg (r_p1 r) (r_p10 r); Seg (r_p10 r) (r_p0 r)].

(** Rectangle.py 95-111: diagonal, perimeter, area *)
Definition rectangle_perimeter (r : rectangle) : R :=
  let d := vsub (r_p1 r) (r_p0 r) in 2 * (Rabs (vx d) + Rabs (vy d)).
Definition rectangle_area (r : rectangle) : R :=
  let d := vsub (r_p1 r) (r_p0 r) in Rabs (vx d * vy d).

(** Closed intervals of the library IntervalArithmetic: [|] is the hull, [in] the membership. *)
Record interval := Itv { inf : R; sup : R }.
Definition iunion (a b : interval) : interval := Itv (Rmin (inf a) (inf b)) (Rmax (sup a) (sup b)).
Definition imem (x : R) (a : interval) : bool := andb (Rleb (inf a) x) (Rleb x (sup a)).
Record box := Box { bx : interval; by_ : interval }.

(** Vector.py 248-251: bounding_box of a point *)
Definition vbox (p : vec) : box := Box (Itv (vx p) (vx p)) (Itv (vy p) (vy p)).
Definition bunion (a b : box) : box := Box (iunion (bx a) (bx b)) (iunion (by_ a) (by_ b)).

(** BoundingBox.py 33-43: bounding_box_from_points; None for no point *)
Fixpoint bbox_loop (points : list vec) (acc : option box) : option box :=
  match points with
  | [] => acc
  | p :: points =>
      bbox_loop points (Some (match acc with None => vbox p | Some b => bunion b (vbox p) end))
  end.
Definition bounding_box_from_points (points : list vec) : option box := bbox_loop points None.

(** Rectangle.py 115-119: is_point_inside *)
Definition rectangle_is_point_inside (r : rectangle) (p : vec) : result bool :=
  match bounding_box_from_points [r_p0 r; r_p1 r] with
  | None => Raise AttributeError
  | Some b => Ok (andb (imem (vx p) (bx b)) (imem (vy p) (by_ b)))
  end.
