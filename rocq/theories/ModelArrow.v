(** Model of Patro/GeometryEngine/Shape/ArrowHead.py over the real numbers. *)
From Coq Require Import Reals List Bool.
From Verif Require Import Base ModelVector ModelTransformation ModelPolygon ModelPath.
Import ListNotations.
Local Open Scope R_scope.
Local Open Scope result_scope.

(** 52-55, 86-103: the attributes.  When a side is off, line 100 returns (an exception which nobody
    raises) before the attribute [_back_tip_point] is set: [h_ready] tells whether it is there.  The
    value cached in this attribute is not modelled, since nothing changes the point, the direction
    and the length. *)
Record head := Head {
  h_point : vec; h_direction : vec; h_length : R; h_width : R; h_offset : R;
  h_left : bool; h_right : bool; h_ready : bool }.
Definition new_head (point direction : vec) (length width offset : R) (left right : bool) : result head :=
  d <- normalise direction ;;
  Ok (Head point d length width offset left right (negb (negb (left && right)))).

(** 121-143: has_axial_offset, both_side, only_left *)
Definition has_axial_offset (h : head) : bool := negb (Reqb (h_offset h) 0).
Definition both_side (h : head) : bool := h_right h && h_left h.
Definition only_left (h : head) : bool := negb (h_right h) && h_left h.
Definition only_right (h : head) : bool := h_right h && negb (h_left h).

(** 147-149: angle *)
Definition head_angle (h : head) : result R :=
  o <- orientation (V (h_length h) (h_width h)) ;; Ok (2 * o).

(** 151-159: tip_point, back_tip_point *)
Definition tip_point (h : head) : vec := h_point h.
Definition back_tip_point (h : head) : result vec :=
  if h_ready h then Ok (vsub (tip_point h) (vscale (h_direction h) (h_length h))) else Raise AttributeError.

(** 161-163: offseted_back_tip_point reads [self._self] *)
Definition offseted_back_tip_point (h : head) : result vec := b <- back_tip_point h ;; Raise AttributeError.

(** 165-177: left_point, right_point *)
Definition left_point (h : head) : result (option vec) :=
  if h_left h then (b <- back_tip_point h ;; Ok (Some (vadd b (vscale (normal (h_direction h)) (h_width h)))))
  else Ok None.
Definition right_point (h : head) : result (option vec) :=
  if h_right h then (b <- back_tip_point h ;; Ok (Some (vsub b (vscale (normal (h_direction h)) (h_width h)))))
  else Ok None.

(** 203-227: _make_points *)
Definition make_points (h : head) : result (list (option vec)) :=
  l <- (if has_axial_offset h then
          if both_side h then
            a <- left_point h ;; b <- offseted_back_tip_point h ;; c <- right_point h ;; Ok [a; Some b; c]
          else if only_left h then a <- left_point h ;; b <- offseted_back_tip_point h ;; Ok [a; Some b]
          else a <- right_point h ;; b <- offseted_back_tip_point h ;; Ok [a; Some b]
        else
          if both_side h then a <- left_point h ;; b <- right_point h ;; Ok [a; b]
          else if only_left h then a <- left_point h ;; b <- back_tip_point h ;; Ok [a; Some b]
          else a <- right_point h ;; b <- back_tip_point h ;; Ok [a; Some b]) ;;
  Ok (Some (tip_point h) :: l).

(** 183-199: TriangularHead, an arrow head and a polygon.  A vector made of None is refused
    (Vector.py 88-101). *)
Definition some_point (v : option vec) : result vec :=
  match v with Some v => Ok v | None => Raise ValueError end.
Definition triangular_head (point direction : vec) (length width offset : R) (left right : bool)
  : result (head * polygon) :=
  h <- new_head point direction length width offset left right ;;
  l <- make_points h ;;
  l <- traverse some_point l ;;
  p <- new_polygon l ;;
  Ok (h, p).

(** Primitive.py 276-284: apply_transformation of the polygon; the attributes of the arrow head stay *)
Definition transform_head (t : transformation) (s : head * polygon) : head * polygon :=
  (fst s, transform_points (apply t) (snd s)).

(** 262-275: left_curved_point, right_curved_point *)
Definition curved_point (h : head) (depth : R) (side : result (option vec)) : result (option vec) :=
  v <- side ;;
  match v with
  | Some v =>
      let d := vsub v (tip_point h) in
      m <- vdiv (vadd v (tip_point h)) 2 ;;
      Ok (Some (vsub m (vscale (normal d) depth)))
  | None => Ok None
  end.
Definition left_curved_point (h : head) (depth : R) : result (option vec) := curved_point h depth (left_point h).
Definition right_curved_point (h : head) (depth : R) : result (option vec) := curved_point h depth (right_point h).

(** 279-311: _make_path, the commands given to the path *)
Definition make_path (h : head) (depth : R) : result (list command) :=
  let to_quadratic c v := c <- some_point c ;; v <- some_point v ;; Ok (QuadraticTo c v true) in
  let to_line v := v <- some_point v ;; Ok (LineTo v None true) in
  r <- (if has_axial_offset h then
          if both_side h then
            c <- left_curved_point h depth ;; v <- left_point h ;;
            o <- offseted_back_tip_point h ;; r <- right_point h ;;
            c2 <- right_curved_point h depth ;; Ok (c, v, [Some o; r], c2)
          else if only_left h then
            c <- left_curved_point h depth ;; v <- left_point h ;;
            o <- offseted_back_tip_point h ;; Ok (c, v, [Some o], None)
          else
            c <- right_curved_point h depth ;; v <- right_point h ;;
            o <- offseted_back_tip_point h ;; Ok (c, v, [Some o], None)
        else
          if both_side h then
            c <- left_curved_point h depth ;; v <- left_point h ;;
            r <- right_point h ;; c2 <- right_curved_point h depth ;; Ok (c, v, [r], c2)
          else if only_left h then
            c <- left_curved_point h depth ;; v <- left_point h ;;
            o <- back_tip_point h ;; Ok (c, v, [Some o], None)
          else
            c <- right_curved_point h depth ;; v <- right_point h ;;
            o <- back_tip_point h ;; Ok (c, v, [Some o], None)) ;;
  let '(c, v, vertices, c2) := r in
  q <- to_quadratic c v ;;
  l <- traverse to_line vertices ;;
  q2 <- match c2 with Some _ => (q2 <- to_quadratic c2 (Some (tip_point h)) ;; Ok [q2]) | None => Ok [] end ;;
  Ok (q :: l ++ q2 ++ [Close None None]).

(** 235-252: TriangularCurvyHead, an arrow head and a path *)
Definition curvy_head (point direction : vec) (length width depth offset : R) (left right : bool)
  : result (head * path) :=
  h <- new_head point direction length width offset left right ;;
  l <- make_path h depth ;;
  p <- draw (new_path (h_point h)) l ;;
  Ok (h, p).
