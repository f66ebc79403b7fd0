(** Properties C21 to C25, C58, C59: lines, segments, polylines, triangles, rectangles. *)
From Coq Require Import Reals List ZArith Lra Lia.
From Verif Require Import Base ModelVector SpecVector ProofVector ModelLine SpecLine ProofLine
  ProofSegment.
Import ListNotations.
Local Open Scope R_scope.

(** C21: the statement "two lines that are not parallel have their intersection point computed"
    fails for short direction vectors: the parallelism test compares the cross product with an
    absolute tolerance of 5e-8. *)
Theorem C21_line_intersection_refuted :
  ~ (forall l1 l2, ~ collinear (l_v l1) (l_v l2) ->
       exists q, line_intersection l1 l2 = Ok (Some q)).
Proof. exact line_intersection_refuted. Qed.
Print Assumptions C21_line_intersection_refuted.

(** Above the tolerance the returned point is the one and only common point. *)
Theorem C21_line_intersection_partial : forall l1 l2,
  5 / 10 ^ 8 < Rabs (crossv (l_v l1) (l_v l2)) ->
  exists q, line_intersection l1 l2 = Ok (Some q) /\
    forall p, (on_line l1 p /\ on_line l2 p) <-> p = q.
Proof. exact line_intersection_ok. Qed.
Print Assumptions C21_line_intersection_partial.

Theorem C21_parallel_lines : forall l1 l2, collinear (l_v l1) (l_v l2) ->
  line_intersection l1 l2 = Ok None.
Proof. exact line_intersection_parallel. Qed.
Print Assumptions C21_parallel_lines.

Theorem C21_segment_intersection_partial : forall s1 s2,
  5 / 10 ^ 8 < Rabs (crossv (s_vector s1) (s_vector s2)) ->
  exists q b, segment_intersection s1 s2 = Ok (Some (q, b)) /\
    (b = true -> on_segment s1 q /\ on_segment s2 q) /\
    (forall p, on_segment s1 p -> on_segment s2 p -> b = true /\ p = q).
Proof. exact segment_intersection_ok. Qed.
Print Assumptions C21_segment_intersection_partial.

Example C21_example : 5 / 10 ^ 8 < Rabs (crossv (V 1 2) (V 3 (-1))).
Proof. unfold crossv; simpl. rewrite Rabs_left; lra. Qed.

(** C22 *)
Theorem C22_projected_point_refuted :
  ~ (forall l p, ~ null (l_v l) -> exists q, projected_point l p = Ok q /\
       perpendicular (V (vx p - vx q) (vy p - vy q)) (l_v l)).
Proof. exact projected_point_refuted. Qed.
Print Assumptions C22_projected_point_refuted.

(** The abscissa is a length while [interpolate] takes a multiple of the direction: right only for
    a unit direction. *)
Theorem C22_projected_point_partial : forall l p, len (l_v l) = 1 ->
  exists q, projected_point l p = Ok q /\ on_line l q /\
    perpendicular (V (vx p - vx q) (vy p - vy q)) (l_v l) /\
    min_distance (on_line l) p (dist p q).
Proof. exact projected_point_unit. Qed.
Print Assumptions C22_projected_point_partial.

Theorem C22_distance_to_line : forall l p, ~ null (l_v l) ->
  exists d, distance_to_line l p = Ok d /\ min_distance (on_line l) p (Rabs d).
Proof. exact line_distance_ok. Qed.
Print Assumptions C22_distance_to_line.

Theorem C22_shifted_parallel_line : forall l k, ~ null (l_v l) ->
  exists l', shifted_parallel_line l k = Ok l' /\ l_v l' = l_v l /\
    forall q, on_line l' q -> distance_to_line l q = Ok k.
Proof. exact shifted_parallel_ok. Qed.
Print Assumptions C22_shifted_parallel_line.

Theorem C22_y_from_x : forall l x, vx (l_v l) <> 0 ->
  exists y, get_y_from_x l x = Ok y /\ on_line l (V x y).
Proof. exact get_y_from_x_ok. Qed.
Print Assumptions C22_y_from_x.

Theorem C22_x_from_y : forall l y, vy (l_v l) <> 0 ->
  exists x, get_x_from_y l y = Ok x /\ on_line l (V x y).
Proof. exact get_x_from_y_ok. Qed.
Print Assumptions C22_x_from_y.

(** The third vertex of a triangle: on the line, at the wanted distance, whenever the line has a
    point that close. *)
Theorem C22_triangle_projected_point_partial : forall l p d r, len (l_v l) = 1 ->
  (exists q, on_line l q /\ dist p q <= d) ->
  exists q, triangle_projected_point l p d r = Ok q /\ on_line l q /\ dist p q = d.
Proof. exact triangle_projected_ok. Qed.
Print Assumptions C22_triangle_projected_point_partial.

Example C22_unit_example : len (V (3/5) (4/5)) = 1.
Proof.
  unfold len; simpl. replace (3 / 5 * (3 / 5) + 4 / 5 * (4 / 5)) with (1 * 1) by field.
  apply sqrt_square; lra.
Qed.

(** C23: exact, including collinear, overlapping and degenerate segments. *)
Theorem C23_intersect_with : forall s1 s2,
  intersect_with s1 s2 = true <-> exists q, on_segment s1 q /\ on_segment s2 q.
Proof. exact intersect_with_exact. Qed.
Print Assumptions C23_intersect_with.

Example C23_touching : intersect_with (Seg (V 0 0) (V 2 0)) (Seg (V 2 0) (V 3 5)) = true.
Proof.
  apply intersect_with_exact. exists (V 2 0).
  split; [exists 1|exists 0]; simpl; repeat split; lra.
Qed.
Example C23_disjoint : intersect_with (Seg (V 0 0) (V 1 0)) (Seg (V 2 0) (V 3 0)) = false.
Proof.
  destruct (intersect_with _ _) eqn:E; [|reflexivity].
  apply intersect_with_exact in E as (q & (a & Ha & Ax & _) & (b & Hb & Bx & _)). simpl in *. lra.
Qed.

(** C24: for every segment, even reduced to a point, and every polyline that can be built. *)
Theorem C24_segment_distance : forall s p,
  exists m, segment_distance_to_point s p = Ok m /\ min_distance (on_segment s) p m.
Proof. exact segment_distance_ok. Qed.
Print Assumptions C24_segment_distance.

Theorem C24_polyline_distance : forall points l p, new_polyline points = Ok l ->
  exists m, polyline_distance_to_point l p = Ok (Some m) /\ min_distance (on_chain points) p m.
Proof.
  intros points l p H. unfold new_polyline in H.
  destruct (Nat.ltb_spec (length points) 2); [discriminate|]. injection H as <-.
  exact (polyline_distance_ok points p H0).
Qed.
Print Assumptions C24_polyline_distance.

Example C24_example : new_polyline [V 0 0; V 1 0; V 1 1] = Ok [V 0 0; V 1 0; V 1 1].
Proof. reflexivity. Qed.

(** C25: contain_point accepts points off the segment and refuses points of it. *)
Theorem C25_contain_point_refuted :
  ~ (forall s p, ~ null (s_vector s) -> on_segment s p -> contain_point s p = Ok true) /\
  ~ (forall s p, ~ null (s_vector s) -> contain_point s p = Ok true -> on_segment s p).
Proof. exact contain_point_refuted. Qed.
Print Assumptions C25_contain_point_refuted.

(** What is left: a segment of length one and a point of its line. *)
Theorem C25_contain_point_partial : forall s p, len (s_vector s) = 1 -> on_line (to_line s) p ->
  exists b, contain_point s p = Ok b /\ (b = true <-> on_segment s p).
Proof. exact contain_point_unit. Qed.
Print Assumptions C25_contain_point_partial.

Theorem C25_left_of : forall s p,
  left_of s p = true <-> 0 < crossv (s_vector s) (vsub p (s_p0 s)).
Proof. exact left_of_ok. Qed.
Print Assumptions C25_left_of.

Theorem C25_is_collinear : forall s p, ~ null (s_vector s) ->
  (is_collinear s p = true <-> on_line (to_line s) p).
Proof. exact is_collinear_ok. Qed.
Print Assumptions C25_is_collinear.

(** C58 *)
Theorem C58_point_in_triangle : forall p0 p1 p2 t q, new_triangle p0 p1 p2 = Ok t ->
  (triangle_is_point_inside t q = true <-> in_triangle p0 p1 p2 q).
Proof. exact triangle_inside_ok. Qed.
Print Assumptions C58_point_in_triangle.

Theorem C58_triangle_area : forall p0 p1 p2 t, new_triangle p0 p1 p2 = Ok t ->
  exists h, min_distance (on_line (line_from_two_points p0 p1)) p2 h /\
    triangle_area t = dist p0 p1 * h / 2.
Proof.
  intros p0 p1 p2 t H. destruct (triangle_area_ok p0 p1 p2 t H) as (h & E & A).
  assert (N : ~ null (l_v (line_from_two_points p0 p1))).
  { intros N. apply projection_null with (u := vsub p2 p0) in N as [_ N].
    unfold distance_to_line in E. simpl in E. simpl in N. rewrite N in E. discriminate. }
  destruct (line_distance_ok _ p2 N) as (h' & E' & M). rewrite E in E'. injection E' as <-.
  exists (Rabs h). auto.
Qed.
Print Assumptions C58_triangle_area.

Theorem C58_flat_triangle_rejected : forall p0 p1 p2, on_line (line_from_two_points p0 p1) p2 ->
  new_triangle p0 p1 p2 = Raise ValueError.
Proof. exact flat_triangle_rejected. Qed.
Print Assumptions C58_flat_triangle_rejected.

(** The perimeter of a triangle always raises. *)
Theorem C58_perimeter_refuted : forall t, triangle_perimeter t = Raise AttributeError.
Proof. reflexivity. Qed.
Print Assumptions C58_perimeter_refuted.

Example C58_example : exists t, new_triangle (V 0 0) (V 1 0) (V 0 1) = Ok t.
Proof.
  unfold new_triangle. destruct (is_parallel _ _) eqn:E; [|eauto].
  apply is_parallel_true in E. unfold vsub in E; simpl in E. rewrite Rabs_right in E; lra.
Qed.

(** C59 *)
Theorem C59_point_in_rectangle : forall r q, exists b, rectangle_is_point_inside r q = Ok b /\
  (b = true <-> in_rectangle (r_p0 r) (r_p1 r) q).
Proof. exact rectangle_inside_ok. Qed.
Print Assumptions C59_point_in_rectangle.

Theorem C59_rectangle_perimeter : forall r,
  rectangle_perimeter r = sumR (map (fun e => dist (s_p0 e) (s_p1 e)) (rectangle_edges r)).
Proof. exact rectangle_perimeter_ok. Qed.
Print Assumptions C59_rectangle_perimeter.

Theorem C59_rectangle_area : forall r e1 e2,
  nth_error (rectangle_edges r) 0 = Some e1 -> nth_error (rectangle_edges r) 1 = Some e2 ->
  rectangle_area r = dist (s_p0 e1) (s_p1 e1) * dist (s_p0 e2) (s_p1 e2).
Proof. exact rectangle_area_ok. Qed.
Print Assumptions C59_rectangle_area.

Theorem C59_rectangle_edges : forall r i e f, nth_error (rectangle_edges r) i = Some e ->
  nth_error (rectangle_edges r) (Nat.modulo (S i) 4) = Some f ->
  s_p1 e = s_p0 f /\ perpendicular (s_vector e) (s_vector f).
Proof. exact rectangle_edges_right. Qed.
Print Assumptions C59_rectangle_edges.

(** The corners handed to the constructor are two opposite corners of the edges. *)
Theorem C59_rectangle_corners : forall r,
  map s_p0 (rectangle_edges r) =
  [r_p0 r; V (vx (r_p0 r)) (vy (r_p1 r)); r_p1 r; V (vx (r_p1 r)) (vy (r_p0 r))].
Proof. reflexivity. Qed.
Print Assumptions C59_rectangle_corners.

Theorem C59_bounding_box : forall points, points <> [] ->
  exists b, bounding_box_from_points points = Some b /\
  (forall q, In q points -> in_box b q) /\
  (forall c, (forall q, In q points -> in_box c q) ->
     inf (bx c) <= inf (bx b) /\ sup (bx b) <= sup (bx c) /\
     inf (by_ c) <= inf (by_ b) /\ sup (by_ b) <= sup (by_ c)).
Proof. exact bounding_box_ok. Qed.
Print Assumptions C59_bounding_box.
