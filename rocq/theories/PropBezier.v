(** Properties C16, C17, C60 to C65: Bezier curves. *)
From Coq Require Import Reals List Lra.
From Coquelicot Require Import Coquelicot.
From Verif Require Import Base ModelVector SpecVector ProofVector ModelRoot ProofRoot ModelLine
  SpecLine ModelBezier SpecBezier ProofBezier.
Import ListNotations.
Local Open Scope R_scope.

(** C16 *)
Theorem C16_cubic_split : forall c t s,
  cubic_point_at_t (fst (cubic_split_at_t c t)) s = cubic_point_at_t c (t * s) /\
  cubic_point_at_t (snd (cubic_split_at_t c t)) s = cubic_point_at_t c (t + (1 - t) * s).
Proof. exact cubic_split_ok. Qed.
Print Assumptions C16_cubic_split.

Theorem C16_quadratic_split : forall c t, 0 < t < 1 ->
  exists l r, quad_split_at_t c t = (Some l, Some r) /\
  forall s, quad_point_at_t l s = quad_point_at_t c (t * s) /\
            quad_point_at_t r s = quad_point_at_t c (t + (1 - t) * s).
Proof. exact quad_split_ok. Qed.
Print Assumptions C16_quadratic_split.

Theorem C16_quadratic_split_outside : forall c t,
  (t <= 0 -> quad_split_at_t c t = (None, Some c)) /\
  (1 <= t -> quad_split_at_t c t = (Some c, None)).
Proof. exact quad_split_out. Qed.
Print Assumptions C16_quadratic_split_outside.

(** Any two distinct parameters, in any order. *)
Theorem C16_cubic_split_at_two : forall c t1 t2, t1 <> t2 -> Rmax t1 t2 <= 1 ->
  exists d, cubic_split_at_two_t c t1 t2 = Ok (PCurve d) /\
  forall s, cubic_point_at_t d s =
    cubic_point_at_t c (Rmin t1 t2 + (Rmax t1 t2 - Rmin t1 t2) * s).
Proof. exact cubic_split_two_ok. Qed.
Print Assumptions C16_cubic_split_at_two.

Theorem C16_quadratic_split_at_two : forall c t1 t2, t1 <> t2 -> 0 <= Rmin t1 t2 ->
  Rmax t1 t2 <= 1 ->
  exists d, quad_split_at_two_t c t1 t2 = Ok (PCurve d) /\
  forall s, quad_point_at_t d s =
    quad_point_at_t c (Rmin t1 t2 + (Rmax t1 t2 - Rmin t1 t2) * s).
Proof. exact quad_split_two_ok. Qed.
Print Assumptions C16_quadratic_split_at_two.

Example C16_example : (3/4) <> (1/4) /\ 0 <= Rmin (3/4) (1/4) /\ Rmax (3/4) (1/4) <= 1.
Proof. rewrite Rmin_right, Rmax_left by lra. lra. Qed.

(** C17 *)
Theorem C17_quadratic_casteljau : forall c t,
  quad_point_at_t c t = bezier [q0 c; q1 c; q2 c] t.
Proof. exact quad_eval. Qed.
Print Assumptions C17_quadratic_casteljau.

Theorem C17_cubic_casteljau : forall c t,
  cubic_point_at_t c t = bezier [c0 c; c1 c; c2 c; c3p c] t.
Proof. exact cubic_eval. Qed.
Print Assumptions C17_cubic_casteljau.

Theorem C17_quadratic_bernstein : forall c t, quad_point_at_t c t =
  V (bernstein_sum (map vx [q0 c; q1 c; q2 c]) t) (bernstein_sum (map vy [q0 c; q1 c; q2 c]) t).
Proof. exact quad_bernstein. Qed.
Print Assumptions C17_quadratic_bernstein.

Theorem C17_cubic_bernstein : forall c t, cubic_point_at_t c t =
  V (bernstein_sum (map vx [c0 c; c1 c; c2 c; c3p c]) t)
    (bernstein_sum (map vy [c0 c; c1 c; c2 c; c3p c]) t).
Proof. exact cubic_bernstein. Qed.
Print Assumptions C17_cubic_bernstein.

Theorem C17_quadratic_tangent : forall c t,
  velocity (quad_point_at_t c) t (vscale (quad_tangent_at c t) 2).
Proof. exact quad_velocity. Qed.
Print Assumptions C17_quadratic_tangent.

Theorem C17_cubic_tangent : forall c t,
  velocity (cubic_point_at_t c) t (vscale (cubic_tangent_at c t) 3).
Proof. exact cubic_velocity. Qed.
Print Assumptions C17_cubic_tangent.

Theorem C17_quadratic_tangent0 : forall c, q0 c <> q1 c ->
  exists w, quad_tangent0 c = Ok w /\ len w = 1 /\
  exists k, 0 < k /\ velocity (quad_point_at_t c) 0 (vscale w k).
Proof. exact quad_tangent0_ok. Qed.
Print Assumptions C17_quadratic_tangent0.

Theorem C17_cubic_tangent1 : forall c, c2 c <> c3p c ->
  exists w, cubic_tangent1 c = Ok w /\ len w = 1 /\
  exists k, 0 < k /\ velocity (cubic_point_at_t c) 1 (vscale w k).
Proof. exact cubic_tangent1_ok. Qed.
Print Assumptions C17_cubic_tangent1.

(** The end tangent of a quadratic curve never returns. *)
Theorem C17_quadratic_tangent1_refuted : forall c, quad_tangent1 c = Raise RecursionError.
Proof. reflexivity. Qed.
Print Assumptions C17_quadratic_tangent1_refuted.

Theorem C17_to_cubic : forall c, exists d, to_cubic c = Ok d /\
  forall t, cubic_point_at_t d t = quad_point_at_t c t.
Proof. exact to_cubic_ok. Qed.
Print Assumptions C17_to_cubic.

Theorem C17_quadratic_ends : forall c, quad_point_at_t c 0 = q0 c /\ quad_point_at_t c 1 = q2 c.
Proof. exact quad_ends. Qed.
Print Assumptions C17_quadratic_ends.

Theorem C17_cubic_ends : forall c, cubic_point_at_t c 0 = c0 c /\ cubic_point_at_t c 1 = c3p c.
Proof. exact cubic_ends. Qed.
Print Assumptions C17_cubic_ends.

Theorem C17_control_box : forall c d t lo hi, 0 <= t <= 1 ->
  ((forall q, In q [q0 c; q1 c; q2 c] -> vx lo <= vx q <= vx hi /\ vy lo <= vy q <= vy hi) ->
   vx lo <= vx (quad_point_at_t c t) <= vx hi /\ vy lo <= vy (quad_point_at_t c t) <= vy hi) /\
  ((forall q, In q [c0 d; c1 d; c2 d; c3p d] -> vx lo <= vx q <= vx hi /\ vy lo <= vy q <= vy hi) ->
   vx lo <= vx (cubic_point_at_t d t) <= vx hi /\ vy lo <= vy (cubic_point_at_t d t) <= vy hi).
Proof. exact control_box. Qed.
Print Assumptions C17_control_box.

Example C17_example : cubic_point_at_t (Cub (V 0 0) (V 0 1) (V 1 1) (V 1 0)) (1/2) = V (1/2) (3/4).
Proof. apply vec_eq; cbn; field. Qed.

(** C60: flatness and fat line *)
Theorem C60_flat_enough : forall c f, is_flat_enough c f = true -> forall t, 0 <= t <= 1 ->
  dist (cubic_point_at_t c t) (interpolate_two_points (c0 c) (c3p c) t) <= Rabs f.
Proof. exact flat_enough_ok. Qed.
Print Assumptions C60_flat_enough.

Theorem C60_fat_line : forall c, c0 c <> c3p c ->
  exists l dmin dmax, cubic_fat_line c = Ok (l, dmin, dmax) /\
  on_line l (c0 c) /\ on_line l (c3p c) /\
  forall t, 0 <= t <= 1 ->
    exists d, distance_to_line l (cubic_point_at_t c t) = Ok d /\ dmin <= d <= dmax.
Proof. exact fat_line_ok. Qed.
Print Assumptions C60_fat_line.

(** The fat line of a quadratic curve always raises. *)
Theorem C60_quadratic_fat_line_refuted : forall c, quad_fat_line c = Raise AttributeError.
Proof. reflexivity. Qed.
Print Assumptions C60_quadratic_fat_line_refuted.

Example C60_example : is_flat_enough (Cub (V 0 0) (V 1 (1/8)) (V 2 (1/8)) (V 3 0)) (1/8) = true.
Proof.
  unfold is_flat_enough; cbn -[pow]. apply Rleb_true.
  rewrite !Rmax_left by lra. lra.
Qed.

(** C61: the closed formula is the arc length, unless the control points are aligned and the
    motion starts against the acceleration: then the logarithm of zero raises. *)
Theorem C61_quadratic_length_partial : forall c, ~ brakes c ->
  exists l, quad_length c = Ok l /\ arc_length (quad_point_at_t c) l.
Proof. exact quad_length_ok. Qed.
Print Assumptions C61_quadratic_length_partial.

Theorem C61_quadratic_length_braking_refuted : forall c, brakes c ->
  quad_length c = Raise ValueError.
Proof. exact quad_length_brakes. Qed.
Print Assumptions C61_quadratic_length_braking_refuted.

Theorem C61_quadratic_length_refuted : ~ (forall c, exists l, quad_length c = Ok l).
Proof. exact quad_length_refuted. Qed.
Print Assumptions C61_quadratic_length_refuted.

Theorem C61_interpolated_length : forall f dt, 0 < dt ->
  exists n l, interpolated_length n f dt = Ok l /\ dist (f 0) (f 1) <= l.
Proof. exact interpolated_length_ok. Qed.
Print Assumptions C61_interpolated_length.

(** A null or negative step never ends. *)
Theorem C61_interpolated_length_refuted : forall f dt, dt <= 0 ->
  forall n, interpolated_length n f dt = Raise OutOfFuel.
Proof. exact interpolated_length_stuck. Qed.
Print Assumptions C61_interpolated_length_refuted.

Example C61_example : ~ brakes (Quad (V 0 0) (V 1 1) (V 2 0)).
Proof. unfold brakes, crossv, a0, a1; cbn. lra. Qed.

(** C62: the length of a cubic curve *)
Theorem C62_adaptive_pieces_partial : forall c, ~ null (third c) -> exists n l,
  (forall m, (n <= m)%nat -> adaptive_segments m c [] = Ok l) /\ pieces (cubic_point_at_t c) 0 l.
Proof. exact adaptive_terminates. Qed.
Print Assumptions C62_adaptive_pieces_partial.

(** Every curve raised from a quadratic one has no length. *)
Theorem C62_cubic_length_refuted : forall c fuel, exists d, to_cubic c = Ok d /\
  cubic_length (S fuel) d = Raise ZeroDivisionError.
Proof. exact cubic_length_refuted. Qed.
Print Assumptions C62_cubic_length_refuted.

Theorem C62_mid_point_approximation : forall c,
  exists q, mid_point_quadratic_approximation c = Ok q /\
  quad_point_at_t q 0 = cubic_point_at_t c 0 /\
  quad_point_at_t q (1/2) = cubic_point_at_t c (1/2) /\
  quad_point_at_t q 1 = cubic_point_at_t c 1.
Proof. exact mid_point_ok. Qed.
Print Assumptions C62_mid_point_approximation.

(** The parameter at a given length is only found at both ends; anything strictly between raises,
    and a length beyond the end is not refused. *)
Theorem C62_t_at_length_partial : forall l x e r, 0 <= e -> t_at_length (Ok l) x e = Ok r ->
  (x = 0 /\ r = 0) \/ (l - e <= x /\ r = 1).
Proof. exact t_at_length_ok. Qed.
Print Assumptions C62_t_at_length_partial.

Theorem C62_t_at_length_refuted : forall l x e, 0 < x -> x < l - e -> 0 <= e ->
  t_at_length (Ok l) x e = Raise AttributeError.
Proof. exact t_at_length_refuted. Qed.
Print Assumptions C62_t_at_length_refuted.

Theorem C62_t_beyond_length_refuted : forall l x e, 0 <= e -> 0 < x -> l < x ->
  t_at_length (Ok l) x e = Ok 1.
Proof. exact t_at_length_beyond. Qed.
Print Assumptions C62_t_beyond_length_refuted.

Example C62_example : ~ null (third (Cub (V 0 0) (V 0 1) (V 1 1) (V 1 0))).
Proof. intros [H _]. cbn in H. lra. Qed.

(** C63: the area is the one swept from the origin, not the one up to the chord. *)
Theorem C63_area_refuted :
  ~ (forall c a, closed_by_chord (cubic_point_at_t c) a -> cubic_area c = a).
Proof. exact cubic_area_refuted. Qed.
Print Assumptions C63_area_refuted.

Theorem C63_area_partial : forall c a, on_line (line_from_two_points (c0 c) (c3p c)) (V 0 0) ->
  closed_by_chord (cubic_point_at_t c) a -> cubic_area c = a.
Proof. exact cubic_area_chord. Qed.
Print Assumptions C63_area_partial.

Theorem C63_area_from_origin : forall c, swept (cubic_point_at_t c) (cubic_area c).
Proof. exact cubic_swept. Qed.
Print Assumptions C63_area_from_origin.

(** C64: closest point *)
Theorem C64_closest_point_refuted : exists c p roots q,
  (forall t, In t roots <->
     dot (vsub p (cubic_point_at_t c t)) (cubic_tangent_at c t) = 0) /\ NoDup roots /\
  cubic_closest_point (fun _ => roots) c p = Some q /\
  (forall t, 0 <= t <= 1 -> dist p (cubic_point_at_t c t) <= dist p q) /\
  dist p (cubic_point_at_t c 0) < dist p q.
Proof. exact closest_point_wrong. Qed.
Print Assumptions C64_closest_point_refuted.

(** What is left: the returned point is a point of the curve seen at a right angle. *)
Theorem C64_closest_point_partial : forall f c p q, right_roots f ->
  (exists t, cubic_point_at_t c t <> c0 c) -> cubic_closest_point f c p = Some q ->
  exists t, 0 <= t <= 1 /\ q = cubic_point_at_t c t /\
    perpendicular (vsub p q) (cubic_tangent_at c t).
Proof. exact closest_point_critical. Qed.
Print Assumptions C64_closest_point_partial.

(** On a quadratic curve no point is ever returned. *)
Theorem C64_quadratic_closest_point_refuted : forall f c p q,
  quad_closest_point f c p <> Ok (Some q).
Proof. exact quad_closest_never. Qed.
Print Assumptions C64_quadratic_closest_point_refuted.

(** C65: intersections with a line *)
Theorem C65_intersect_line_refuted : forall c d l,
  quad_intersect_line c l = Raise AttributeError /\ cubic_intersect_line d l = Raise AttributeError.
Proof. split; reflexivity. Qed.
Print Assumptions C65_intersect_line_refuted.

(** Once the line is the x axis. *)
Theorem C65_quadratic_axis_partial : forall c,
  ~ (forall t, vy (quad_point_at_t c t) = vy (q0 c)) ->
  exists r, quad_intersect_axis c = Ok r /\
    forall t, In t (rv r) <-> vy (quad_point_at_t c t) = 0.
Proof. exact quad_axis_ok. Qed.
Print Assumptions C65_quadratic_axis_partial.

Theorem C65_cubic_axis_partial : forall f c,
  (forall a b c d x, a <> 0 ->
     (In x (f a b c d) <-> a * x * x * x + b * x * x + c * x + d = 0)) ->
  ~ (forall t, vy (cubic_point_at_t c t) = vy (c0 c)) ->
  exists r, cubic_intersect_axis f c = Ok r /\
    forall t, In t (rv r) <-> vy (cubic_point_at_t c t) = 0.
Proof. exact cubic_axis_ok. Qed.
Print Assumptions C65_cubic_axis_partial.
