(** Properties C12 and C13: vectors. *)
From Coq Require Import Reals Lra.
From Verif Require Import Base ModelVector SpecVector ProofVector.
Local Open Scope R_scope.

(** C12: rotate turns by the given angle in degrees, counter clockwise or clockwise. *)
Theorem C12_rotate_counter_clockwise : forall a t, turned (rad t) a (rotate a t true).
Proof. exact rotate_ccw. Qed.
Print Assumptions C12_rotate_counter_clockwise.

Theorem C12_rotate_clockwise : forall a t, turned (- rad t) a (rotate a t false).
Proof. exact rotate_cw. Qed.
Print Assumptions C12_rotate_clockwise.

Theorem C12_rotate_keeps_dot : forall a b t ccw,
  dot (rotate a t ccw) (rotate b t ccw) = vx a * vx b + vy a * vy b.
Proof. exact rotate_dot. Qed.
Print Assumptions C12_rotate_keeps_dot.

Theorem C12_rotate_keeps_cross : forall a b t ccw,
  cross (rotate a t ccw) (rotate b t ccw) = vx a * vy b - vy a * vx b.
Proof. exact rotate_cross. Qed.
Print Assumptions C12_rotate_keeps_cross.

Theorem C12_rotate_keeps_length : forall a t ccw, magnitude (rotate a t ccw) = len a.
Proof. exact rotate_magnitude. Qed.
Print Assumptions C12_rotate_keeps_length.

Theorem C12_rotate_adds_angles : forall a s t,
  rotate (rotate a s true) t true = rotate a (s + t) true.
Proof. exact rotate_add. Qed.
Print Assumptions C12_rotate_adds_angles.

Theorem C12_rotate_back : forall a t, rotate (rotate a t true) t false = a.
Proof. exact rotate_cw_ccw. Qed.
Print Assumptions C12_rotate_back.

Theorem C12_normal : forall a, rotate a 90 true = normal a.
Proof. exact rotate_normal. Qed.
Print Assumptions C12_normal.

Theorem C12_anti_normal : forall a, rotate a 90 false = anti_normal a.
Proof. exact rotate_anti_normal. Qed.
Print Assumptions C12_anti_normal.

Theorem C12_parity : forall a, rotate a 180 true = parity a.
Proof. exact rotate_parity. Qed.
Print Assumptions C12_parity.

Example C12_example : rotate (V 3 4) 90 true = V (-4) 3 /\ magnitude (V (-4) 3) = 5.
Proof.
  split. rewrite rotate_normal. reflexivity.
  unfold magnitude, magnitude_square, dot; simpl.
  replace (-4 * -4 + 3 * 3) with (5 * 5) by ring. apply sqrt_square. lra.
Qed.

(** C12: the orientation in degrees and the length are the polar coordinates of a non null
    vector; the angle lies in ]-180, 180]. *)
Theorem C12_orientation_polar : forall u, ~ null u -> exists t, orientation u = Ok t /\
  -180 < t <= 180 /\ vx u = len u * cos (rad t) /\ vy u = len u * sin (rad t).
Proof. exact orientation_ok. Qed.
Print Assumptions C12_orientation_polar.

Theorem C12_from_polar : forall r t,
  vx (from_polar r t) = r * cos (rad t) /\ vy (from_polar r t) = r * sin (rad t).
Proof. exact from_polar_ok. Qed.
Print Assumptions C12_from_polar.

(** The code means to reject the null vector (Vector.py 295), but does not. *)
Theorem C12_orientation_null_rejected_refuted :
  ~ (forall u, null u -> orientation u = Raise NameError).
Proof.
  intros H. specialize (H (V 0 0) (conj eq_refl eq_refl)).
  rewrite (orientation_null (V 0 0) (conj eq_refl eq_refl)) in H. discriminate.
Qed.
Print Assumptions C12_orientation_null_rejected_refuted.

Theorem C12_normalise : forall u, ~ null u -> exists w, normalise u = Ok w /\ len w = 1 /\
  vx u = len u * vx w /\ vy u = len u * vy w.
Proof. exact normalise_ok. Qed.
Print Assumptions C12_normalise.

Example C12_hypothesis : ~ null (V (-3) 4).
Proof. intros [H _]. simpl in H. lra. Qed.

(** C13: projection and deviation are the coordinates of the vector in the orthonormal frame of
    the direction. *)
Theorem C13_projection_deviation : forall u v, ~ null v -> exists p d,
  projection_on u v = Ok p /\ deviation_with u v = Ok d /\
  vx u = (p * vx v - d * vy v) / len v /\ vy u = (p * vy v + d * vx v) / len v /\
  p * p + d * d = len u * len u.
Proof. exact projection_deviation. Qed.
Print Assumptions C13_projection_deviation.

Theorem C13_null_direction : forall u v, null v ->
  projection_on u v = Raise ZeroDivisionError /\ deviation_with u v = Raise ZeroDivisionError.
Proof. exact projection_null. Qed.
Print Assumptions C13_null_direction.

(** C13: cos_with and sin_with are the cosinus and the sinus of the angle from the direction to
    self, and angle_with is this angle in degrees. *)
Theorem C13_cos_sin : forall u v, ~ null u -> ~ null v -> exists c s,
  cos_with u v = Ok c /\ sin_with u v = Ok s /\
  c * c + s * s = 1 /\
  c * (len v * len u) = vx v * vx u + vy v * vy u /\
  s * (len v * len u) = vx v * vy u - vy v * vx u.
Proof. exact cos_sin_with. Qed.
Print Assumptions C13_cos_sin.

Theorem C13_angle_with : forall u v, ~ null u -> ~ null v -> exists t,
  angle_with u v = Ok t /\ -180 <= t <= 180 /\
  vx u * len v = len u * (cos (rad t) * vx v - sin (rad t) * vy v) /\
  vy u * len v = len u * (sin (rad t) * vx v + cos (rad t) * vy v).
Proof. exact angle_with_ok. Qed.
Print Assumptions C13_angle_with.

(** C13: a null cross product means linear dependence. *)
Theorem C13_cross_null : forall a b, cross a b = 0 <-> collinear a b.
Proof. exact cross_collinear. Qed.
Print Assumptions C13_cross_null.

(** "Parallel vectors are exactly those with a null cross product" is false: the test rounds the
    cross product to 7 digits, so that small perpendicular vectors are reported parallel. *)
Theorem C13_is_parallel_exact_refuted :
  ~ (forall a b, is_parallel a b = true <-> collinear a b).
Proof. exact is_parallel_refuted. Qed.
Print Assumptions C13_is_parallel_exact_refuted.

(** What holds: collinear vectors are always reported; the report is the test that the cross
    product is at most 5e-8; missing: the converse below that value. *)
Theorem C13_collinear_is_parallel_partial : forall a b, collinear a b -> is_parallel a b = true.
Proof. exact collinear_is_parallel. Qed.
Print Assumptions C13_collinear_is_parallel_partial.

Theorem C13_is_parallel_tolerance_partial : forall a b,
  is_parallel a b = true <-> Rabs (vx a * vy b - vy a * vx b) <= 5 / 10 ^ 8.
Proof. exact is_parallel_true. Qed.
Print Assumptions C13_is_parallel_tolerance_partial.

Example C13_not_parallel : is_parallel (V 1 2) (V 2 3) = false.
Proof. exact is_parallel_example. Qed.
