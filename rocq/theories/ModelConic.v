(** Model of Patro/GeometryEngine/Mixin.py (AngularDomain) and Conic.py (Circle2D, Ellipse2D) over
    the real numbers.  The coordinates read with [.x] and [.y] are python floats, whose division by
    zero raises. *)
From Coq Require Import Reals List ZArith Bool.
From Verif Require Import Base ModelVector ModelTransformation ModelLine ModelBezier.
Import ListNotations.
Local Open Scope R_scope.
Local Open Scope result_scope.

(** ** AngularDomain, Mixin.py 43-146; degrees *)

Record domain := Dom { d_start : R; d_stop : R }.

(** 51-56: the constructor with degrees=False *)
Definition domain_from_radians (start stop : R) : domain := Dom (degrees start) (degrees stop).

(** 97-124: span, is_null, is_closed, is_over_closed, is_counterclockwise, is_clockwise *)
Definition d_span (d : domain) : R := Rabs (d_stop d - d_start d).
Definition d_is_null (d : domain) : bool := Reqb (d_stop d) (d_start d).
Definition d_is_closed (d : domain) : bool := Rleb 360 (d_span d).
Definition d_is_over_closed (d : domain) : bool := Rltb 360 (d_span d).
Definition d_is_counterclockwise (d : domain) : bool := Rleb (d_start d) (d_stop d).
Definition d_is_clockwise (d : domain) : bool := Rltb (d_stop d) (d_start d).

(** 128-137: length *)
Definition d_length (d : domain) : R :=
  if d_is_closed d then 2 * PI
  else
    let length := radians (d_stop d) - radians (d_start d) in
    if d_is_counterclockwise d then length else 2 * PI - length.

(** 141-146: is_inside *)
Definition d_is_inside (d : domain) (angle : R) : bool :=
  if d_is_counterclockwise d then andb (Rleb (d_start d) angle) (Rleb angle (d_stop d))
  else negb (andb (Rltb (d_stop d) angle) (Rltb angle (d_start d))).

(** ** Circle2D, Conic.py 64-335 *)

Record circle := Circ { c_center : vec; c_radius : R; c_domain : option domain }.

(** 68-71: from_two_points *)
Definition circle_from_two_points (center point : vec) : circle :=
  Circ center (magnitude (vsub point center)) None.

(** 104-134: the constructor; [start_distance] is the pair start_angle, distance when both are
    given *)
Definition new_circle (center : vec) (radius : R) (dom : option domain) (diameter : bool)
    (start_distance : option (R * R)) : result circle :=
  let radius := if diameter then radius / 2 else radius in
  match start_distance with
  | Some (start_angle, distance) =>
      if Rltb (2 * PI * radius) distance then Ok (Circ center radius None)
      else
        q <- fdiv distance radius ;;
        Ok (Circ center radius (Some (Dom start_angle (start_angle + degrees q))))
  | None => Ok (Circ center radius dom)
  end.

(** 142-146: apply_transformation *)
Definition transform_circle (t : transformation) (c : circle) : result circle :=
  r <- scalar t (c_radius c) ;; Ok (Circ (apply t (c_center c)) r (c_domain c)).

(** 173-184: perimeter, area *)
Definition circle_perimeter (c : circle) : result R :=
  match c_domain c with
  | Some _ => Ok (2 * PI * c_radius c)
  | None => Raise AttributeError
  end.
Definition circle_area (c : circle) : R := PI * c_radius c ^ 2.

(** 187-222: point_at_angle, angle_for_point, point_at_distance, tangent_at_angle *)
Definition circle_point_at_angle (c : circle) (angle : R) : vec :=
  vadd (from_polar (c_radius c) angle) (c_center c).
Definition angle_for_point (c : circle) (point : vec) : result R :=
  o <- orientation (vsub point (c_center c)) ;;
  Ok (if Rltb o 0 then 360 + o else o).
Definition circle_point_at_distance (c : circle) (distance : R) : result vec :=
  q <- fdiv distance (c_radius c) ;; Ok (circle_point_at_angle c (degrees q)).
Definition tangent_at_angle (c : circle) (angle : R) : line :=
  let point := circle_point_at_angle c angle in
  Ln point (normal (vsub point (c_center c))).

(** Mixin.py 175-193: start_point, stop_point; None for a whole circle *)
Definition circle_start_point (c : circle) : option vec :=
  option_map (fun d => circle_point_at_angle c (d_start d)) (c_domain c).
Definition circle_stop_point (c : circle) : option vec :=
  option_map (fun d => circle_point_at_angle c (d_stop d)) (c_domain c).

(** 227-228: bounding_box; the method enlarge of the library grows both intervals *)
Definition enlarge (b : interval) (dx : R) : interval := Itv (inf b - dx) (sup b + dx).
Definition circle_bounding_box (c : circle) : box :=
  let b := vbox (c_center c) in Box (enlarge (bx b) (c_radius c)) (enlarge (by_ b) (c_radius c)).

(** 232-264: signed_distance_to_point, distance_to_point, is_point_inside *)
Definition signed_distance_to_point (c : circle) (point : vec) : R :=
  magnitude (vsub point (c_center c)) - c_radius c.
Definition circle_distance_to_point (c : circle) (point : vec) : result R :=
  match c_domain c with
  | Some d =>
      angle <- angle_for_point c point ;;
      if d_is_inside d angle then Ok (Rabs (signed_distance_to_point c point))
      else
        Ok (Rmin (magnitude (vsub point (circle_point_at_angle c (d_start d))))
                 (magnitude (vsub point (circle_point_at_angle c (d_stop d)))))
  | None => Ok (Rabs (signed_distance_to_point c point))
  end.
Definition circle_is_point_inside (c : circle) (point : vec) : bool :=
  Rleb (magnitude_square (vsub point (c_center c))) (c_radius c ^ 2).

(** The return value of the intersections: None, one point or a pair of points. *)
Inductive meets := MNone | MOne (p : vec) | MTwo (p q : vec).

(** 268-308: intersect_segment; the domain is not used *)
Definition intersect_segment (c : circle) (s : segment) : result meets :=
  let dx := vx (s_vector s) in
  let dy := vy (s_vector s) in
  let dr2 := dx ^ 2 + dy ^ 2 in
  let p0 := vsub (s_p0 s) (c_center c) in
  let p1 := vsub (s_p1 s) (c_center c) in
  let D := cross p0 p1 in
  let discriminant := c_radius c ^ 2 * dr2 - D ^ 2 in
  if Rltb discriminant 0 then Ok MNone
  else if Reqb discriminant 0 then
    x <- fdiv (D * dy) dr2 ;;
    y <- fdiv (- D * dx) dr2 ;;
    Ok (MOne (vadd (V x y) (c_center c)))
  else
    let x_a := D * dy in
    let y_a := - D * dx in
    let x_b := sign dy * dx * sqrt discriminant in
    let y_b := Rabs dy * sqrt discriminant in
    x0 <- fdiv (x_a - x_b) dr2 ;;
    y0 <- fdiv (y_a - y_b) dr2 ;;
    x1 <- fdiv (x_a + x_b) dr2 ;;
    y1 <- fdiv (y_a + y_b) dr2 ;;
    Ok (MTwo (vadd (V x0 y0) (c_center c)) (vadd (V x1 y1) (c_center c))).

(** 312-330: intersect_circle; [v.normal()] calls a property. *)
Definition intersect_circle (c1 c2 : circle) : result meets :=
  let v := vsub (c_center c2) (c_center c1) in
  let d := sign (vx v) * magnitude v in
  x <- fdiv (d ^ 2 - c_radius c2 ^ 2 + c_radius c1 ^ 2) (2 * d) ;;
  let y2 := c_radius c1 ^ 2 - x ^ 2 in
  if Rltb y2 0 then Ok MNone
  else
    u <- normalise v ;;
    let p := vadd (c_center c1) (vscale u x) in
    if Reqb y2 0 then Ok (MOne p) else Raise TypeError.

(** ** Ellipse2D, Conic.py 339-812 *)

Record ellipse := Ell { e_center : vec; e_rx : R; e_ry : R; e_angle : R; e_domain : option domain }.

(** 460-464: apply_transformation *)
Definition transform_ellipse (t : transformation) (e : ellipse) : result ellipse :=
  rx <- scalar t (e_rx e) ;;
  ry <- scalar t (e_ry e) ;;
  Ok (Ell (apply t (e_center e)) rx ry (e_angle e) (e_domain e)).

(** 500-507: major_vector, minor_vector *)
Definition major_vector (e : ellipse) : vec := from_polar (e_angle e) (e_rx e).
Definition minor_vector (e : ellipse) : vec := from_polar (e_angle e + 90) (e_ry e).

(** 520-551: matrix, the coefficients A B C D E F *)
Definition ellipse_matrix (e : ellipse) : mat3 :=
  let angle := radians (e_angle e) in
  let c := cos angle in
  let s := sin angle in
  let a2 := e_rx e ^ 2 in
  let b2 := e_ry e ^ 2 in
  let xc := vx (e_center e) in
  let yc := vy (e_center e) in
  let A := a2 * s + b2 * c ^ 2 in
  let B := 2 * (b2 - a2) * c * s in
  let C := a2 * c ^ 2 * b2 * s ^ 2 in
  let D := -2 * A * xc - B * yc in
  let E := - B * xc - 2 * C * yc in
  let F := A * xc ^ 2 + B * xc * yc + C * yc ^ 2 - a2 * b2 in
  M3 A (B / 2) (D / 2)  (B / 2) C (E / 2)  (D / 2) (E / 2) F.

(** 555-559: point_in_ellipse_frame, point_from_ellipse_frame *)
Definition point_in_ellipse_frame (e : ellipse) (point : vec) : vec :=
  rotate (vsub point (e_center e)) (- e_angle e) true.
Definition point_from_ellipse_frame (e : ellipse) (point : vec) : vec :=
  vadd (e_center e) (rotate point (e_angle e) true).

(** 563-569: point_at_angle *)
Definition ellipse_point_at_angle (e : ellipse) (angle : R) : vec :=
  let point := from_ellipse (e_rx e) (e_ry e) angle in
  let point := if Reqb (e_angle e) 0 then point else rotate point (e_angle e) true in
  vadd (e_center e) point.

(** 573-595: bounding_box of a fresh ellipse.  For a null angle, [bounding_box.x.enlarge] grows the
    interval of the box in place. *)
Definition ellipse_bounding_box (e : ellipse) : option box :=
  if Reqb (e_angle e) 0 then
    let b := vbox (e_center e) in
    Some (Box (enlarge (bx b) (e_rx e)) (enlarge (by_ b) (e_ry e)))
  else
    let angle_x := e_angle e in
    let angle_y := angle_x + 90 in
    bounding_box_from_points (map (vadd (e_center e))
      [from_polar angle_x (e_rx e); from_polar angle_x (- e_rx e);
       from_polar angle_y (e_ry e); from_polar angle_y (- e_ry e)]).

(** 724-737: intersect_segment; iterating over None is a TypeError, over one point gives floats
    which have no [.x]. *)
Definition ellipse_intersect_segment (e : ellipse) (s : segment) : result (list vec) :=
  y_scale <- fdiv (e_rx e) (e_ry e) ;;
  let f := fun p => let q := point_in_ellipse_frame e p in V (vx q) (vy q * y_scale) in
  m <- intersect_segment (Circ (V 0 0) (e_rx e) None) (Seg (f (s_p0 s)) (f (s_p1 s))) ;;
  match m with
  | MNone => Raise TypeError
  | MOne _ => Raise AttributeError
  | MTwo p q =>
      ys <- traverse (fun p => y <- fdiv (vy p) y_scale ;; Ok (V (vx p) y)) [p; q] ;;
      Ok (map (point_from_ellipse_frame e) ys)
  end.

(** math.ceil *)
Definition ceil (x : R) : Z := (- Int_part (- x))%Z.

(** 789-812: _bezier_arc *)
Definition bezier_arc (e : ellipse) (start_angle stop_angle : R) : result cubic :=
  let angle1 := radians start_angle in
  let angle2 := radians stop_angle in
  let half_delta_angle := (angle2 - angle1) / 2 in
  t <- fdiv (8 / 3 * sin (half_delta_angle / 2) ^ 2) (sin half_delta_angle) ;;
  let p0 := ellipse_point_at_angle e start_angle in
  let p3 := ellipse_point_at_angle e stop_angle in
  let offset1 := V (- e_rx e * sin angle1) (e_ry e * cos angle1) in
  let offset2 := V (e_rx e * sin angle2) (- e_ry e * cos angle2) in
  let turn v := if Reqb (e_angle e) 0 then v else rotate v (e_angle e) true in
  Ok (Cub p0 (vadd p0 (vscale (turn offset1) t)) (vadd p3 (vscale (turn offset2) t)) p3).

(** 762-785: to_bezier *)
Definition ellipse_to_bezier (e : ellipse) : result (list cubic) :=
  let '(start_angle, angle_span) :=
    match e_domain e with Some d => (d_start d, d_span d) | None => (0, 360) end in
  let number_of_segments := Z.to_nat (ceil (Rabs (angle_span / (90001 / 1000)))) in
  angle_step <- fdiv angle_span (INR number_of_segments) ;;
  traverse (fun i =>
      let angle1 := start_angle + INR i * angle_step in
      bezier_arc e angle1 (angle1 + angle_step)) (seq 0 number_of_segments).

(** python [x % 360] *)
Definition mod360 (x : R) : R := x - 360 * IZR (Int_part (x / 360)).

Inductive arc_geometry := ArcSeg (s : segment) | ArcEllipse (e : ellipse).

(** 351-436: svg_arc.  387: [self] is not defined in a class method. *)
Definition svg_arc (point1 point2 : vec) (radius_x radius_y angle : R) (large_arc sweep : bool)
    : result arc_geometry :=
  if orb (Reqb radius_x 0) (Reqb radius_y 0) then Ok (ArcSeg (Seg point1 point2))
  else
    let radius_x := Rabs radius_x in
    let radius_y := Rabs radius_y in
    let radius_x2 := radius_x ^ 2 in
    let radius_y2 := radius_y ^ 2 in
    origin_prime <- vdiv (vadd point1 point2) 2 ;;
    r <- rotation2 (- angle) ;;
    point1_prime <- vdiv (apply2 r (vsub point1 point2)) 2 ;;
    a <- fdiv (vx point1_prime ^ 2) radius_x2 ;;
    b <- fdiv (vy point1_prime ^ 2) radius_y2 ;;
    if Rltb 1 (a + b) then Raise NameError
    else
      let den := radius_x2 * vy point1_prime ^ 2 + radius_y2 * vx point1_prime ^ 2 in
      let num := radius_x2 * radius_y2 - den in
      ratio <- fdiv radius_x radius_y ;;
      let sgn := if Bool.eqb large_arc sweep then -1 else 1 in
      let sgn := sgn * -1 in
      quotient <- fdiv num den ;;
      root <- (if Rltb quotient 0 then Raise ValueError else Ok (sqrt quotient)) ;;
      iratio <- fdiv 1 ratio ;;
      let center_prime := vscale (vscale2 (anti_normal point1_prime) ratio iratio) (sgn * root) in
      r <- rotation2 angle ;;
      let center := vadd (apply2 r center_prime) origin_prime in
      vector1 <- vdivide (vsub point1_prime center_prime) radius_x radius_y ;;
      vector2 <- vdivide (vadd point1_prime center_prime) radius_x radius_y ;;
      let vector2 := vneg vector2 in
      theta <- angle_with (V 1 0) vector1 ;;
      delta_theta <- angle_with vector1 vector2 ;;
      let delta_theta := mod360 delta_theta in
      let delta_theta :=
        if andb (negb sweep) (Rltb 0 delta_theta) then delta_theta - 360
        else if andb sweep (Rltb delta_theta 0) then delta_theta + 360
        else delta_theta in
      Ok (ArcEllipse (Ell center radius_x radius_y angle
                          (Some (Dom theta (theta + delta_theta))))).

(** 600-604: _robust_length *)
Definition robust_length (x y : R) : result R :=
  let '(x, y) := if Rltb x y then (y, x) else (x, y) in
  q <- fdiv y x ;; Ok (Rabs x * sqrt (1 + q ^ 2)).

(** 608-633: the loop of _distance_point_bisection; [n] rounds left, the value of [s] *)
Fixpoint bisection_loop (n : nat) (r0 n0 z1 s0 s1 s : R) : result R :=
  match n with
  | O => Ok s
  | S n =>
      let s := (s0 + s1) / 2 in
      if orb (Reqb s s0) (Reqb s s1) then Ok s
      else
        ratio0 <- fdiv n0 (s + r0) ;;
        ratio1 <- fdiv z1 (s + 1) ;;
        let g := ratio0 ^ 2 + ratio1 ^ 2 - 1 in
        if Rltb 0 g then bisection_loop n r0 n0 z1 s s1 s
        else if Rltb g 0 then bisection_loop n r0 n0 z1 s0 s s
        else Ok s
  end.
Definition distance_point_bisection (r0 z0 z1 g : R) : result R :=
  let n0 := r0 * z0 in
  let s0 := z1 - 1 in
  s1 <- (if Rltb g 0 then Ok 0 else (l <- robust_length n0 z1 ;; Ok (l - 1))) ;;
  bisection_loop 1074 r0 n0 z1 s0 s1 0.

(** 637-690: _eberly_distance *)
Definition eberly_distance (e : ellipse) (point : vec) : result (R * vec) :=
  let y0 := vx point in
  let y1 := vy point in
  let e0 := e_rx e in
  let e1 := e_ry e in
  if Rltb 0 y1 then
    if Rltb 0 y0 then
      z0 <- fdiv y0 e0 ;;
      z1 <- fdiv y1 e1 ;;
      let g := z0 ^ 2 + z1 ^ 2 - 1 in
      if negb (Reqb g 0) then
        q <- fdiv e0 e1 ;;
        let r0 := q ^ 2 in
        sbar <- distance_point_bisection r0 z0 z1 g ;;
        x0 <- fdiv (r0 * y0) (sbar + r0) ;;
        x1 <- fdiv y1 (sbar + 1) ;;
        Ok (sqrt ((x0 - y0) ^ 2 + (x1 - y1) ^ 2), V x0 x1)
      else Ok (0, V y0 y1)
    else Ok (Rabs (y1 - e1), V 0 e1)
  else
    let numer0 := e0 * y0 in
    let denom0 := e0 ^ 2 - e1 ^ 2 in
    if Rltb numer0 denom0 then
      xde0 <- fdiv numer0 denom0 ;;
      let x0 := e0 * xde0 in
      r <- (if Rltb (1 - xde0 ^ 2) 0 then Raise ValueError else Ok (sqrt (1 - xde0 ^ 2))) ;;
      let x1 := e1 * r in
      Ok (sqrt ((x0 - y0) ^ 2 + x1 ^ 2), V x0 x1)
    else Ok (Rabs (y0 - e0), V e0 0).

(** 694-715: distance_to_point with return_point, and the test of 702-708 (is_point_inside) *)
Definition ellipse_distance_to_point (e : ellipse) (point : vec) : result (R * vec) :=
  let f := point_in_ellipse_frame e point in
  dp <- eberly_distance e (V (Rabs (vx f)) (Rabs (vy f))) ;;
  let '(distance, p) := dp in
  Ok (distance, point_from_ellipse_frame e (V (sign (vx f) * vx p) (sign (vy f) * vy p))).
Definition ellipse_is_point_inside (e : ellipse) (point : vec) : result bool :=
  let f := point_in_ellipse_frame e point in
  let f := V (Rabs (vx f)) (Rabs (vy f)) in
  dp <- eberly_distance e f ;;
  let '(_, p) := dp in
  Ok (Rleb (magnitude_square (vsub f (e_center e))) (magnitude_square (vsub p (e_center e)))).
