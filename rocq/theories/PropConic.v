(** Properties C29, C30, C74-C77: circles, arcs and ellipses. *)
From Coq Require Import Reals List Lra Lia.
From Verif Require Import Base ModelVector ModelTransformation ModelLine ModelBezier ModelConic.
From Verif Require Import SpecVector SpecLine SpecConic GlueConic.
From Verif Require Import ProofVector ProofConic ProofConic2 ProofConic3 ProofEllipse ProofArc.
Import ListNotations.
Local Open Scope R_scope.

(** C29.  The answer is that of the whole line. *)
Theorem C29_line_partial : forall c s, s_p0 s <> s_p1 s -> exists m, intersect_segment c s = Ok m /\
  (forall q, met m q <-> on_circle (c_center c) (Rabs (c_radius c)) q /\ aligned (s_p0 s) (s_p1 s) q) /\
  (forall p q, m = MTwo p q -> p <> q).
Proof. exact intersect_segment_ok. Qed.
Print Assumptions C29_line_partial.

Example C29_case : s_p0 (Seg (V 0 0) (V 1 0)) <> s_p1 (Seg (V 0 0) (V 1 0)).
Proof. cbn. intro H. injection H. lra. Qed.

Theorem C29_null_segment : forall c s, s_p0 s = s_p1 s -> intersect_segment c s = Raise ZeroDivisionError.
Proof. exact intersect_segment_null. Qed.
Print Assumptions C29_null_segment.

Theorem C29_segment_refuted : let c := Circ (V 0 0) 1 None in let s := Seg (V 2 0) (V 3 0) in
  exists p q, intersect_segment c s = Ok (MTwo p q) /\ p <> q /\ ~ on_segment s p /\ ~ on_segment s q.
Proof. exact intersect_segment_refuted. Qed.
Print Assumptions C29_segment_refuted.

(** C30.  The three angles are in the same turn. *)
Theorem C30_inside_partial : forall d a w,
  w <= d_start d < w + 360 -> w <= d_stop d < w + 360 -> w <= a < w + 360 ->
  (d_is_inside d a = true <-> swept (d_start d) (d_stop d) a).
Proof. exact inside_ok. Qed.
Print Assumptions C30_inside_partial.

Example C30_case : swept 350 10 5 /\ ~ swept 10 350 5.
Proof.
  split; [right; split; [lra|exists 1%Z; lra]|]. intros [[_ [k K]]|[H _]]; [|lra].
  assert (A : (0 < k)%Z) by (apply lt_IZR; lra). assert (B : (k < 1)%Z) by (apply lt_IZR; lra). lia.
Qed.

Theorem C30_inside_refuted : d_is_inside (Dom 350 370) 5 = false /\ swept 350 370 5.
Proof. exact inside_refuted. Qed.
Print Assumptions C30_inside_refuted.

Theorem C30_length_partial : forall d, d_start d <= d_stop d -> d_length d = rad (Rmin 360 (d_stop d - d_start d)).
Proof. exact length_ok. Qed.
Print Assumptions C30_length_partial.

(** Twenty degrees counterclockwise, or three hundred and forty clockwise. *)
Theorem C30_length_refuted : d_length (Dom 350 10) = rad 700.
Proof. exact length_refuted. Qed.
Print Assumptions C30_length_refuted.

(** C74.  Circles *)
Theorem C74_point_at_angle : forall c a, polar (c_center c) (c_radius c) a (circle_point_at_angle c a).
Proof. exact circle_point_ok. Qed.
Print Assumptions C74_point_at_angle.

Theorem C74_angle_for_point : forall c q, ~ (q = c_center c) -> exists a,
  angle_for_point c q = Ok a /\ 0 <= a < 360 /\ polar (c_center c) (dist (c_center c) q) a q.
Proof. exact angle_for_point_ok. Qed.
Print Assumptions C74_angle_for_point.

Theorem C74_inverse : forall c a, 0 < c_radius c -> 0 <= a < 360 ->
  angle_for_point c (circle_point_at_angle c a) = Ok a.
Proof. exact circle_inverse_ok. Qed.
Print Assumptions C74_inverse.

Theorem C74_tangent : forall c a, let l := tangent_at_angle c a in
  l_p l = circle_point_at_angle c a /\ dot (l_v l) (vsub (l_p l) (c_center c)) = 0 /\
  len (l_v l) = Rabs (c_radius c) /\ 0 <= cross (vsub (l_p l) (c_center c)) (l_v l).
Proof. exact tangent_ok. Qed.
Print Assumptions C74_tangent.

Theorem C74_arc_of_length : forall o r s l, 0 < r -> 0 <= l <= 2 * PI * r ->
  exists e, new_circle o r None false (Some (s, l)) = Ok (Circ o r (Some (Dom s e))) /\ s <= e /\ e - s <= 360 /\
    rad (e - s) * r = l.
Proof. exact circle_distance_arc_ok. Qed.
Print Assumptions C74_arc_of_length.

Theorem C74_point_at_distance : forall c l, 0 < c_radius c -> exists q,
  circle_point_at_distance c l = Ok q /\ vx q = vx (c_center c) + c_radius c * cos (l / c_radius c) /\
  vy q = vy (c_center c) + c_radius c * sin (l / c_radius c).
Proof. exact circle_at_distance_ok. Qed.
Print Assumptions C74_point_at_distance.

Theorem C74_inside : forall c q, 0 <= c_radius c ->
  (circle_is_point_inside c q = true <-> dist (c_center c) q <= c_radius c).
Proof. exact circle_inside_ok. Qed.
Print Assumptions C74_inside.

Theorem C74_bounding_box : forall c, 0 <= c_radius c ->
  (forall q, on_circle (c_center c) (c_radius c) q -> in_box (circle_bounding_box c) q) /\
  (exists q, on_circle (c_center c) (c_radius c) q /\ vx q = inf (bx (circle_bounding_box c))) /\
  (exists q, on_circle (c_center c) (c_radius c) q /\ vx q = sup (bx (circle_bounding_box c))) /\
  (exists q, on_circle (c_center c) (c_radius c) q /\ vy q = inf (by_ (circle_bounding_box c))) /\
  (exists q, on_circle (c_center c) (c_radius c) q /\ vy q = sup (by_ (circle_bounding_box c))).
Proof. exact circle_box_ok. Qed.
Print Assumptions C74_bounding_box.

Theorem C74_arc_bounding_box_refuted : let c := Circ (V 0 0) 1 (Some (Dom 0 90)) in
  inf (bx (circle_bounding_box c)) = -1 /\ forall q, on_arc (V 0 0) 1 0 90 q -> 0 <= vx q.
Proof. exact arc_box_refuted. Qed.
Print Assumptions C74_arc_bounding_box_refuted.

Theorem C74_distance : forall c p, c_domain c = None -> 0 <= c_radius c ->
  exists d, circle_distance_to_point c p = Ok d /\ min_distance (on_circle (c_center c) (c_radius c)) p d.
Proof. exact circle_distance_ok. Qed.
Print Assumptions C74_distance.

Theorem C74_arc_distance_partial : forall c s e p,
  c_domain c = Some (Dom s e) -> 0 <= c_radius c -> 0 <= s <= e -> e <= 360 ->
  exists d, circle_distance_to_point c p = Ok d /\ min_distance (on_arc (c_center c) (c_radius c) s e) p d.
Proof. exact arc_distance_ok. Qed.
Print Assumptions C74_arc_distance_partial.

Theorem C74_arc_distance_refuted : let c := Circ (V 0 0) 1 (Some (Dom (-90) 90)) in
  exists d, circle_distance_to_point c (V 2 (-1)) = Ok d /\ d = 2 /\
    exists q, on_arc (V 0 0) 1 (-90) 90 q /\ dist (V 2 (-1)) q < d.
Proof. exact arc_negative_refuted. Qed.
Print Assumptions C74_arc_distance_refuted.

Theorem C74_perimeter_refuted : circle_perimeter (Circ (V 0 0) 1 None) = Raise AttributeError /\
  circle_perimeter (Circ (V 0 0) 1 (Some (Dom 0 90))) = Ok (rad 360 * 1).
Proof. exact perimeter_refuted. Qed.
Print Assumptions C74_perimeter_refuted.

(** Two circles: right when they do not meet, and when they touch and the second one is not to the left. *)
Theorem C74_two_circles_partial : forall c1 c2, c_center c1 <> c_center c2 ->
  let common q := on_circle (c_center c1) (Rabs (c_radius c1)) q /\ on_circle (c_center c2) (Rabs (c_radius c2)) q in
  (intersect_circle c1 c2 = Ok MNone /\ forall q, ~ common q) \/
  (exists p q, intersect_circle c1 c2 = Ok (MOne p) /\ (forall q', common q' <-> q' = q) /\
     (vx (c_center c1) <= vx (c_center c2) -> p = q) /\
     (vx (c_center c2) < vx (c_center c1) -> p = vadd (c_center c1) (vneg (vsub q (c_center c1))))) \/
  (intersect_circle c1 c2 = Raise TypeError /\ exists p q, p <> q /\ common p /\ common q).
Proof. exact intersect_circle_ok. Qed.
Print Assumptions C74_two_circles_partial.

Theorem C74_touching_circles_refuted : let c1 := Circ (V 0 0) 1 None in let c2 := Circ (V (-2) 0) 1 None in
  intersect_circle c1 c2 = Ok (MOne (V 1 0)) /\ on_circle (V (-2) 0) 1 (V (-1) 0) /\ on_circle (V 0 0) 1 (V (-1) 0) /\
  ~ on_circle (V (-2) 0) 1 (V 1 0).
Proof. exact touching_refuted. Qed.
Print Assumptions C74_touching_circles_refuted.

Theorem C74_crossing_circles_refuted : let c1 := Circ (V 0 0) 5 None in let c2 := Circ (V 6 0) 5 None in
  intersect_circle c1 c2 = Raise TypeError /\
  (on_circle (V 0 0) 5 (V 3 4) /\ on_circle (V 6 0) 5 (V 3 4)) /\
  (on_circle (V 0 0) 5 (V 3 (-4)) /\ on_circle (V 6 0) 5 (V 3 (-4))).
Proof. exact crossing_refuted. Qed.
Print Assumptions C74_crossing_circles_refuted.

Theorem C74_rotated_arc_refuted : let c := Circ (V 0 0) 1 (Some (Dom 0 90)) in
  transform_circle (rotation 90) c = Ok c /\ circle_start_point c = Some (V 1 0) /\ apply (rotation 90) (V 1 0) = V 0 1.
Proof. exact rotate_arc_refuted. Qed.
Print Assumptions C74_rotated_arc_refuted.

(** C75.  Ellipses *)
Theorem C75_point_at_angle : forall e a,
  ellipse_polar (e_center e) (e_rx e) (e_ry e) (e_angle e) a (ellipse_point_at_angle e a).
Proof. exact ellipse_point_ok. Qed.
Print Assumptions C75_point_at_angle.

Theorem C75_every_point : forall c rx ry phi q, rx <> 0 -> ry <> 0 ->
  on_ellipse c rx ry phi q -> exists a, -180 < a <= 180 /\ ellipse_polar c rx ry phi a q.
Proof. exact on_ellipse_polar. Qed.
Print Assumptions C75_every_point.

Theorem C75_on_ellipse : forall c rx ry phi a q, rx <> 0 -> ry <> 0 -> ellipse_polar c rx ry phi a q -> on_ellipse c rx ry phi q.
Proof. exact ellipse_polar_on. Qed.
Print Assumptions C75_on_ellipse.

Theorem C75_frame_in : forall e q,
  frame (e_center e) (e_angle e) q (vx (point_in_ellipse_frame e q)) (vy (point_in_ellipse_frame e q)).
Proof. exact frame_in. Qed.
Print Assumptions C75_frame_in.

Theorem C75_frames_inverse : forall e q,
  point_from_ellipse_frame e (point_in_ellipse_frame e q) = q /\ point_in_ellipse_frame e (point_from_ellipse_frame e q) = q.
Proof. exact frames_inverse. Qed.
Print Assumptions C75_frames_inverse.

(** Right when the line crosses the ellipse; a tangent, or no common point, is an exception. *)
Theorem C75_intersect_segment_partial : forall e s, e_rx e <> 0 -> e_ry e <> 0 -> s_p0 s <> s_p1 s ->
  let common q := on_ellipse (e_center e) (e_rx e) (e_ry e) (e_angle e) q /\ aligned (s_p0 s) (s_p1 s) q in
  (exists p q, ellipse_intersect_segment e s = Ok [p; q] /\ p <> q /\ forall x, common x <-> x = p \/ x = q) \/
  (ellipse_intersect_segment e s = Raise AttributeError /\ exists p, forall x, common x <-> x = p) \/
  (ellipse_intersect_segment e s = Raise TypeError /\ forall x, ~ common x).
Proof. exact ellipse_intersect_ok. Qed.
Print Assumptions C75_intersect_segment_partial.

(** The distance is that of the point returned, which is within [tolerance] of a nearest point of the ellipse and
    is a nearest point when the point asked for is on an axis or on the ellipse. *)
Theorem C75_distance_partial : forall e y, 0 < e_ry e -> e_ry e <= e_rx e ->
  let w := point_in_ellipse_frame e y in
  exists d p x, ellipse_distance_to_point e y = Ok (d, p) /\ dist y p = d /\
    nearest (on_ellipse (e_center e) (e_rx e) (e_ry e) (e_angle e)) y x /\
    (vx w = 0 \/ vy w = 0 \/ on_ellipse (e_center e) (e_rx e) (e_ry e) (e_angle e) y -> p = x) /\
    (vy w <> 0 -> dist p x <= tolerance (e_rx e) (e_ry e) (Rabs (vx w)) (Rabs (vy w))).
Proof. exact ellipse_distance_ok. Qed.
Print Assumptions C75_distance_partial.

Example C75_case : 0 < e_ry (Ell (V 1 2) 2 1 30 None) /\ e_ry (Ell (V 1 2) 2 1 30 None) <= e_rx (Ell (V 1 2) 2 1 30 None).
Proof. cbn. lra. Qed.

Theorem C75_tall_ellipse_refuted : let e := Ell (V 0 0) 1 2 0 None in
  exists d p, ellipse_distance_to_point e (V 0 (1/2)) = Ok (d, p) /\ d = 3 / 2 /\
    exists z, on_ellipse (V 0 0) 1 2 0 z /\ dist (V 0 (1/2)) z < d.
Proof. exact tall_refuted. Qed.
Print Assumptions C75_tall_ellipse_refuted.

Theorem C75_inside_refuted : let e := Ell (V 10 0) 2 1 0 None in
  ellipse_is_point_inside e (V 20 0) = Ok true /\ (forall z, on_ellipse (V 10 0) 2 1 0 z -> vx z <= 12).
Proof. exact inside_far_refuted. Qed.
Print Assumptions C75_inside_refuted.

Theorem C75_translation : forall v e, exists e', transform_ellipse (translation v) e = Ok e' /\ e_domain e' = e_domain e /\
  forall a, ellipse_point_at_angle e' a = apply (translation v) (ellipse_point_at_angle e a).
Proof. exact translate_ellipse_ok. Qed.
Print Assumptions C75_translation.

Theorem C75_scale : forall k e, 0 < k -> exists e', transform_ellipse (scale k k) e = Ok e' /\ e_domain e' = e_domain e /\
  forall a, ellipse_point_at_angle e' a = apply (scale k k) (ellipse_point_at_angle e a).
Proof. exact scale_ellipse_ok. Qed.
Print Assumptions C75_scale.

Theorem C75_rotation_refuted : let e := Ell (V 0 0) 2 1 0 None in
  transform_ellipse (rotation 90) e = Ok e /\ on_ellipse (V 0 0) 2 1 0 (V 2 0) /\
  apply (rotation 90) (V 2 0) = V 0 2 /\ ~ on_ellipse (V 0 0) 2 1 0 (V 0 2).
Proof. exact rotate_ellipse_refuted. Qed.
Print Assumptions C75_rotation_refuted.

(** The length of the major axis vector is the angle. *)
Theorem C75_major_vector_refuted : forall e, 0 <= e_angle e -> len (major_vector e) = e_angle e.
Proof. exact major_vector_refuted. Qed.
Print Assumptions C75_major_vector_refuted.

Theorem C75_matrix_refuted : let e := Ell (V 0 0) 2 1 0 None in
  ellipse_point_at_angle e 90 = V 0 1 /\ conic_value (ellipse_matrix e) (V 0 1) = -4.
Proof. exact matrix_refuted. Qed.
Print Assumptions C75_matrix_refuted.

Theorem C75_bounding_box_partial : forall e, e_angle e = 0 -> 0 < e_rx e -> 0 < e_ry e ->
  exists b, ellipse_bounding_box e = Some b /\
  (forall q, on_ellipse (e_center e) (e_rx e) (e_ry e) 0 q -> in_box b q) /\
  ellipse_point_at_angle e 0 = V (sup (bx b)) (vy (e_center e)) /\ ellipse_point_at_angle e 180 = V (inf (bx b)) (vy (e_center e)) /\
  ellipse_point_at_angle e 90 = V (vx (e_center e)) (sup (by_ b)) /\ ellipse_point_at_angle e (-90) = V (vx (e_center e)) (inf (by_ b)).
Proof. exact ellipse_box_ok. Qed.
Print Assumptions C75_bounding_box_partial.

Theorem C75_bounding_box_refuted : let e := Ell (V 0 0) 180 90 1 None in exists b, ellipse_bounding_box e = Some b /\
  0 < vx (ellipse_point_at_angle e 0) /\ ~ in_box b (ellipse_point_at_angle e 0).
Proof. exact ellipse_box_refuted. Qed.
Print Assumptions C75_bounding_box_refuted.

(** C76.  Ellipses as Bezier curves *)
Theorem C76_to_bezier_partial : forall e s t, angles e s t -> s < t -> exists l,
  ellipse_to_bezier e = Ok l /\ l <> [] /\ (t - s) / INR (length l) <= 90001 / 1000 /\
  forall i c, nth_error l i = Some c ->
    let at_ a := ellipse_point_at_angle e a in
    let step := (t - s) / INR (length l) in
    let a := s + INR i * step in
    let b := s + INR (i + 1) * step in
    c0 c = at_ a /\ c3p c = at_ b /\ cubic_point_at_t c (1 / 2) = at_ ((a + b) / 2) /\
    (exists k, 0 < k /\ vsub (c1 c) (c0 c) = vscale (arc_tangent e a) k /\
               vsub (c3p c) (c2 c) = vscale (arc_tangent e b) k) /\
    forall x, 0 <= x <= 1 -> near_ellipse e (cubic_point_at_t c x).
Proof. exact to_bezier_ok. Qed.
Print Assumptions C76_to_bezier_partial.

Theorem C76_chain_partial : forall e s t l, angles e s t -> s < t -> ellipse_to_bezier e = Ok l ->
  (forall c, hd_error l = Some c -> c0 c = ellipse_point_at_angle e s) /\
  (forall i c, nth_error l i = Some c -> i = (length l - 1)%nat -> c3p c = ellipse_point_at_angle e t) /\
  (forall i c c', nth_error l i = Some c -> nth_error l (i + 1) = Some c' -> c3p c = c0 c').
Proof. exact to_bezier_chain. Qed.
Print Assumptions C76_chain_partial.

Example C76_case : angles (Ell (V 1 2) 2 1 30 None) 0 360 /\ angles (Ell (V 1 2) 2 1 30 (Some (Dom 10 350))) 10 350.
Proof. cbn. auto. Qed.

(** From 90 degrees down to 0: the curve goes up to 180. *)
Theorem C76_clockwise_refuted : let e := Ell (V 0 0) 1 1 0 (Some (Dom 90 0)) in exists c,
  ellipse_to_bezier e = Ok [c] /\ c0 c = V 0 1 /\ c3p c = V (-1) 0 /\ ellipse_point_at_angle e 0 = V 1 0.
Proof. exact to_bezier_clockwise_refuted. Qed.
Print Assumptions C76_clockwise_refuted.

Theorem C76_null_span : forall c rx ry phi a, ellipse_to_bezier (Ell c rx ry phi (Some (Dom a a))) = Raise ZeroDivisionError.
Proof. exact to_bezier_null_refuted. Qed.
Print Assumptions C76_null_span.

(** C77.  The ellipse passes through both points; they are at the opposite of the angles of the domain. *)
Theorem C77_through_points_partial : forall p1 p2 rx ry phi large sweep, rx <> 0 -> ry <> 0 -> p1 <> p2 ->
  (exists c, on_ellipse c rx ry phi p1 /\ on_ellipse c rx ry phi p2) ->
  exists e s t, svg_arc p1 p2 rx ry phi large sweep = Ok (ArcEllipse e) /\
    e_rx e = Rabs rx /\ e_ry e = Rabs ry /\ e_angle e = phi /\ e_domain e = Some (Dom s t) /\
    (sweep = true -> s <= t < s + 360) /\ (sweep = false -> s - 360 < t <= s) /\
    ellipse_polar (e_center e) (e_rx e) (e_ry e) phi (- s) p1 /\
    ellipse_polar (e_center e) (e_rx e) (e_ry e) phi (- t) p2.
Proof. exact svg_arc_ok. Qed.
Print Assumptions C77_through_points_partial.

Theorem C77_null_radius : forall p1 p2 ry phi large sweep, svg_arc p1 p2 0 ry phi large sweep = Ok (ArcSeg (Seg p1 p2)).
Proof. exact svg_arc_segment. Qed.
Print Assumptions C77_null_radius.

Theorem C77_start_refuted : exists e s t, svg_arc (V 1 0) (V 0 1) 1 1 0 false true = Ok (ArcEllipse e) /\
  e_domain e = Some (Dom s t) /\ e_center e = V 1 1 /\ ellipse_point_at_angle e s = V 1 2.
Proof. exact svg_arc_refuted. Qed.
Print Assumptions C77_start_refuted.

Theorem C77_small_radius_refuted : forall large sweep, svg_arc (V 0 0) (V 4 0) 1 1 0 large sweep = Raise NameError.
Proof. exact svg_arc_small_refuted. Qed.
Print Assumptions C77_small_radius_refuted.
