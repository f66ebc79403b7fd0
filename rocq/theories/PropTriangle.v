(** Properties C135 to C138: bisectors and kinds of triangles, lines in a box, rounding. *)
From Coq Require Import Reals List ZArith Lra Lia.
From Verif Require Import Base ModelVector ModelRoot ModelLine ModelTriangle SpecVector SpecLine SpecTriangle.
From Verif Require Import ProofVector ProofSegment ProofTriangle.
Import ListNotations.
Local Open Scope R_scope.

(** C135.  The lines called bisectors are the medians. *)
Theorem C135_medians : forall t,
  on_line (bisector_line0 t) (tri0 t) /\ on_line (bisector_line0 t) (half_way (tri1 t) (tri2 t)) /\
  on_line (bisector_line1 t) (tri1 t) /\ on_line (bisector_line1 t) (half_way (tri2 t) (tri0 t)) /\
  on_line (bisector_line2 t) (tri2 t) /\ on_line (bisector_line2 t) (half_way (tri0 t) (tri1 t)) /\
  on_line (bisector_line0 t) (gravity (tri0 t) (tri1 t) (tri2 t)) /\
  on_line (bisector_line1 t) (gravity (tri0 t) (tri1 t) (tri2 t)) /\
  on_line (bisector_line2 t) (gravity (tri0 t) (tri1 t) (tri2 t)).
Proof. exact medians. Qed.
Print Assumptions C135_medians.

(** They bisect the angles between equal sides only. *)
Theorem C135_bisectors_partial : forall p0 p1 p2 t, new_triangle p0 p1 p2 = Ok t ->
  (bisects (bisector_vector0 t) (side p0 p1) (side p0 p2) <-> dist p0 p1 = dist p0 p2) /\
  (bisects (bisector_vector1 t) (side p1 p2) (side p1 p0) <-> dist p1 p2 = dist p1 p0) /\
  (bisects (bisector_vector2 t) (side p2 p0) (side p2 p1) <-> dist p2 p0 = dist p2 p1).
Proof. exact bisector_iff. Qed.
Print Assumptions C135_bisectors_partial.

Lemma C135_built : new_triangle (V 0 0) (V 2 0) (V 0 1) = Ok (Tri (V 0 0) (V 2 0) (V 0 1)).
Proof.
  unfold new_triangle, is_parallel, round7_is_zero, cross, vsub. cbn [vx vy]. rewrite Rleb_false; [reflexivity|].
  replace ((2 - 0) * (1 - 0) - (0 - 0) * (0 - 0)) with 2 by ring. rewrite Rabs_pos_eq; lra.
Qed.
Theorem C135_bisectors_refuted : exists t, new_triangle (V 0 0) (V 2 0) (V 0 1) = Ok t /\
  ~ bisects (bisector_vector0 t) (side (V 0 0) (V 2 0)) (side (V 0 0) (V 0 1)).
Proof. 
  exists (Tri (V 0 0) (V 2 0) (V 0 1)). split; [exact C135_built|]. intro B.
  apply (proj1 (C135_bisectors_partial _ _ _ _ C135_built)) in B. unfold dist in B. cbn [vx vy] in B.
  apply sqrt_inj in B; lra.
 Qed.
Print Assumptions C135_bisectors_refuted.

(** C136.  Every question raises. *)
Theorem C136_kinds_refuted : forall t,
  perimeter cache_length t = Raise AttributeError /\ is_equilateral cache_length t = Raise AttributeError /\
  is_scalene cache_length t = Raise AttributeError /\ is_isosceles cache_length t = Raise AttributeError /\
  is_right cache_angle t = Raise AttributeError /\ is_obtuse cache_angle t = Raise AttributeError /\
  is_acute cache_angle t = Raise AttributeError /\ is_oblique cache_length t = Raise AttributeError.
Proof. intro t. repeat split. Qed.
Print Assumptions C136_kinds_refuted.

(** With the test of the cache repaired the questions about the sides are right, *)
Theorem C136_repaired_partial : forall p0 p1 p2 t, new_triangle p0 p1 p2 = Ok t ->
  let a := dist p0 p1 in let b := dist p1 p2 in let c := dist p2 p0 in
  perimeter repaired_length t = Ok (a + b + c) /\
  (is_equilateral repaired_length t = Ok true <-> a = b /\ b = c) /\
  (is_scalene repaired_length t = Ok true <-> a <> b /\ b <> c /\ c <> a) /\
  (is_isosceles repaired_length t = Ok true <-> (a = b /\ b <> c) \/ (b = c /\ c <> a) \/ (c = a /\ a <> b)) /\
  is_ok (is_equilateral repaired_length t) /\ is_ok (is_scalene repaired_length t) /\ is_ok (is_isosceles repaired_length t).
Proof. exact repaired_sides. Qed.
Print Assumptions C136_repaired_partial.

Example C136_example : is_ok (new_triangle (V 0 0) (V 2 0) (V 0 1)).
Proof. eexists. exact C135_built. Qed.

(** but those about the angles use the orientations of the edges: a right triangle is obtuse, an obtuse one is acute, *)
Theorem C136_obtuse_refuted : exists t, new_triangle (V 0 0) (V 1 0) (V 0 1) = Ok t /\
  right_at (V 0 0) (V 1 0) (V 0 1) /\ ~ obtuse_triangle (V 0 0) (V 1 0) (V 0 1) /\ is_obtuse repaired_angle t = Ok true.
Proof. exact right_obtuse. Qed.
Print Assumptions C136_obtuse_refuted.

Theorem C136_acute_refuted : exists t, new_triangle (V 0 0) (V 3 (-1)) (V (-2) (-2)) = Ok t /\
  obtuse_at (V 0 0) (V 3 (-1)) (V (-2) (-2)) /\ is_acute repaired_angle t = Ok true.
Proof. exact obtuse_acute. Qed.
Print Assumptions C136_acute_refuted.

(** and oblique is said of every triangle which is not equilateral. *)
(** What the tests compute: the directions of the edges, not the angles between them. *)
Theorem C136_directions : forall t a b c,
  orientation (vsub (tri1 t) (tri0 t)) = Ok a -> orientation (vsub (tri2 t) (tri1 t)) = Ok b -> orientation (vsub (tri0 t) (tri2 t)) = Ok c ->
  (is_obtuse repaired_angle t = Ok true <-> 90 < a \/ 90 < b \/ 90 < c) /\
  (is_acute repaired_angle t = Ok true <-> a < 90 /\ b < 90 /\ c < 90).
Proof. exact directions_decide. Qed.
Print Assumptions C136_directions.

Theorem C136_oblique_refuted : forall p0 p1 p2 t, new_triangle p0 p1 p2 = Ok t ->
  (is_oblique repaired_length t = Ok true <-> ~ (dist p0 p1 = dist p1 p2 /\ dist p1 p2 = dist p2 p0)).
Proof. exact oblique_iff. Qed.
Print Assumptions C136_oblique_refuted.

(** C137 *)
Theorem C137_points_partial : forall l b p q, get_x_y_from_bounding_box l b = Ok (p, q) ->
  on_line l p /\ on_line l q /\
  ((vy p = inf (by_ b) /\ vy q = sup (by_ b)) \/ (vx p = inf (bx b) /\ vx q = sup (bx b))).
Proof. exact box_points. Qed.
Print Assumptions C137_points_partial.

(** For a line through the centre of the box the points are the ends of the part of the line in the box. *)
Theorem C137_centred_partial : forall l b, inf (bx b) < sup (bx b) -> inf (by_ b) <= sup (by_ b) -> vx (l_v l) <> 0 ->
  on_line l (box_centre b) -> exists p q, get_x_y_from_bounding_box l b = Ok (p, q) /\
    forall r, (on_line l r /\ in_box b r) <-> between p q r.
Proof. exact box_centred. Qed.
Print Assumptions C137_centred_partial.

Example C137_example : let l := Ln (V 0 0) (V 1 3) in let b := Box (Itv (-2) 2) (Itv (-1) 1) in
  inf (bx b) < sup (bx b) /\ inf (by_ b) <= sup (by_ b) /\ vx (l_v l) <> 0 /\ on_line l (box_centre b).
Proof. cbn [bx by_ inf sup l_v vx]. repeat split; try lra. exists 0. unfold box_centre. cbn [bx by_ inf sup l_v l_p vx vy]. lra. Qed.

(** For another line a point can be out of the box. *)
Theorem C137_outside_refuted : get_x_y_from_bounding_box (Ln (V 0 (3 / 4)) (V 1 1)) (Box (Itv 0 1) (Itv 0 1)) = Ok (V 0 (3 / 4), V 1 (7 / 4)) /\
  on_line (Ln (V 0 (3 / 4)) (V 1 1)) (V (/ 4) 1) /\ ~ in_box (Box (Itv 0 1) (Itv 0 1)) (V 1 (7 / 4)).
Proof. exact box_outside. Qed.
Print Assumptions C137_outside_refuted.

Theorem C137_vertical_refuted : forall l b, vx (l_v l) = 0 \/ sup (bx b) = inf (bx b) -> get_x_y_from_bounding_box l b = Raise ZeroDivisionError.
Proof. exact box_fails. Qed.
Print Assumptions C137_vertical_refuted.

(** The distances between abscissae are never found. *)
Theorem C137_distance_refuted : forall l s0 s1 s,
  compute_distance_between_abscissae l s0 s1 = Raise TypeError /\
  compute_distance l s = if (length s <? 2)%nat then Ok [] else Raise TypeError.
Proof. intros. split; [reflexivity|apply distances]. Qed.
Print Assumptions C137_distance_refuted.

(** C138 *)
Theorem C138_rint : forall x n, rint x = n <-> nearest_even n x.
Proof. exact rint_iff. Qed.
Print Assumptions C138_rint.

Theorem C138_vector_rint : forall v n m, vrint v = (n, m) <-> nearest_even n (vx v) /\ nearest_even m (vy v).
Proof. exact vrint_iff. Qed.
Print Assumptions C138_vector_rint.

Example C138_half : rint (5 / 2) = 2%Z /\ rint (7 / 2) = 4%Z.
Proof.
  split; apply C138_rint; right; split; try reflexivity; [rewrite Rabs_pos_eq; lra|rewrite Rabs_left; lra].
Qed.

Theorem C138_ceil : forall x n, ceil_int x = n <-> x <= IZR n < x + 1.
Proof. exact ceil_iff. Qed.
Print Assumptions C138_ceil.

Theorem C138_cmp : forall a b, (cmp a b = 1%Z <-> b < a) /\ (cmp a b = 0%Z <-> a = b) /\ (cmp a b = (-1)%Z <-> a < b).
Proof. exact cmp_iff. Qed.
Print Assumptions C138_cmp.

Theorem C138_middle : forall a b, middle a b - a = b - middle a b.
Proof. intros a b. unfold middle. lra. Qed.
Print Assumptions C138_middle.

Theorem C138_epsilon : forall a b e, epsilon_float a b e = true <-> - e <= a - b <= e.
Proof. exact epsilon_iff. Qed.
Print Assumptions C138_epsilon.

Theorem C138_range : forall x, is_in_trignometric_range x = true <-> -1 <= x <= 1.
Proof. exact range_iff. Qed.
Print Assumptions C138_range.

Theorem C138_clamp : forall x, let y := trignometric_clamp x in
  -1 <= y <= 1 /\ (-1 <= x <= 1 -> y = x) /\ (forall z, -1 <= z <= 1 -> Rabs (x - y) <= Rabs (x - z)) /\
  is_in_trignometric_range y = true.
Proof. exact clamp_spec. Qed.
Print Assumptions C138_clamp.

Theorem C138_close : forall v1 v2 rtol atol,
  (almost_equal v1 v2 rtol atol = true <->
   Rabs (vx v1 - vx v2) <= atol + rtol * Rabs (vx v2) /\ Rabs (vy v1 - vy v2) <= atol + rtol * Rabs (vy v2)) /\
  (0 <= rtol -> 0 <= atol -> almost_equal v1 v1 rtol atol = true).
Proof. intros. split; [apply close_iff|apply close_refl]. Qed.
Print Assumptions C138_close.

(** With the default tolerances, a vector can be almost equal to another which is not almost equal to it. *)
Theorem C138_symmetric_refuted : let rtol := / 100000 in let atol := / 100000000 in let a := V 100000 0 in let b := V (100001 + / 100000) 0 in
  almost_equal a b rtol atol = true /\ almost_equal b a rtol atol = false.
Proof. exact close_asym. Qed.
Print Assumptions C138_symmetric_refuted.

