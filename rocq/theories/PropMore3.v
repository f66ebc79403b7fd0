(** Angles of vectors given by their angle, and the decomposition along a direction (C12, C13). *)
From Coq Require Import Reals Lra List ZArith.
From Verif Require Import Base ModelVector SpecVector ProofVector.
Import ListNotations.
Local Open Scope R_scope.

Lemma same_angle_radians a b : cos a = cos b -> sin a = sin b -> -(2 * PI) < a - b < 2 * PI -> a = b.
Proof.
  intros C S B. pose proof PI_RGT_0 as P.
  assert (E : cos (a - b) = 1).
  { rewrite cos_minus, C, S. pose proof (sin2_cos2 b) as Q. unfold Rsqr in Q. lra. }
  replace (a - b) with (2 * ((a - b) / 2)) in E by field. rewrite cos_2a_sin in E.
  set (h := (a - b) / 2) in *. assert (Z : sin h = 0) by nra.
  assert (Bh : - PI < h < PI) by (unfold h; lra).
  destruct (Rtotal_order h 0) as [N|[Q|N]].
  - assert (0 < sin (- h)) by (apply sin_gt_0; lra). rewrite sin_neg in H. lra.
  - unfold h in Q. lra.
  - assert (0 < sin h) by (apply sin_gt_0; lra). lra.
Qed.

Lemma same_angle_degrees a b : cos (rad a) = cos (rad b) -> sin (rad a) = sin (rad b) ->
  -360 < a - b < 360 -> a = b.
Proof.
  intros C S B. pose proof PI_RGT_0 as P.
  assert (E : rad a = rad b).
  { apply same_angle_radians; auto. unfold rad. nra. }
  unfold rad in E. assert ((a - b) / 180 * PI = 0) by lra.
  apply Rmult_integral in H. destruct H as [H|H]; lra.
Qed.

Lemma from_angle_polar t : from_angle t = V (cos (rad t)) (sin (rad t)).
Proof. unfold from_angle. rewrite !radians_rad. reflexivity. Qed.

Lemma len_polar r t : 0 <= r -> len (V (r * cos (rad t)) (r * sin (rad t))) = r.
Proof.
  intros H. unfold len. cbn [vx vy]. pose proof (sin2_cos2 (rad t)) as Q. unfold Rsqr in Q.
  replace (_ + _) with (r * r * (sin (rad t) * sin (rad t) + cos (rad t) * cos (rad t))) by ring.
  rewrite Q, Rmult_1_r. apply sqrt_square; auto.
Qed.

Lemma polar_not_null r t : 0 < r -> ~ null (V (r * cos (rad t)) (r * sin (rad t))).
Proof.
  intros H [A B]. cbn [vx vy] in *. pose proof (sin2_cos2 (rad t)) as Q. unfold Rsqr in Q.
  assert (cos (rad t) = 0) by (apply Rmult_integral in A; destruct A; lra).
  assert (sin (rad t) = 0) by (apply Rmult_integral in B; destruct B; lra).
  rewrite H0, H1 in Q. lra.
Qed.

(** The orientation of a vector given by a length and an angle is this angle, between -180 (excluded)
    and 180 degrees. *)
Theorem C12_orientation_of_polar : forall r t, 0 < r -> -180 < t <= 180 ->
  orientation (from_polar r t) = Ok t /\ len (from_polar r t) = r.
Proof.
  intros r t Hr Ht. unfold from_polar. rewrite from_angle_polar. unfold vscale. cbn [vx vy].
  split; [|apply len_polar; lra].
  destruct (orientation_ok _ (polar_not_null r t Hr)) as (s & E & B & X & Y). rewrite E. f_equal.
  rewrite len_polar in X, Y by lra. cbn [vx vy] in X, Y.
  apply Rmult_eq_reg_l in X; [|lra]. apply Rmult_eq_reg_l in Y; [|lra].
  apply same_angle_degrees; auto. lra.
Qed.
Print Assumptions C12_orientation_of_polar.

(** Beyond 180 degrees, and at -180, it is not the angle given: a full turn lies between. *)
Theorem C12_orientation_beyond : forall r t, 0 < r -> 180 < t <= 540 ->
  orientation (from_polar r t) = Ok (t - 360).
Proof.
  intros r t Hr Ht. replace (from_polar r t) with (from_polar r (t - 360)).
  - apply C12_orientation_of_polar; lra.
  - unfold from_polar. rewrite !from_angle_polar. unfold vscale. cbn [vx vy].
    replace (rad t) with (rad (t - 360) + 2 * INR 1 * PI) by (unfold rad; simpl; field).
    rewrite cos_period, sin_period. reflexivity.
Qed.
Print Assumptions C12_orientation_beyond.

(** Turning a vector adds to its orientation, up to a whole number of turns. *)
Theorem C12_rotate_orientation : forall u t, ~ null u -> exists a b,
  orientation u = Ok a /\ orientation (rotate u t true) = Ok b /\
  cos (rad b) = cos (rad (a + t)) /\ sin (rad b) = sin (rad (a + t)) /\
  (-180 < a + t <= 180 -> b = a + t).
Proof.
  intros u t N. destruct (orientation_ok u N) as (a & Ea & Ba & Xa & Ya).
  pose proof (len_pos u N) as L.
  assert (E : rotate u t true = V (len u * cos (rad (a + t))) (len u * sin (rad (a + t)))).
  { destruct (rotate_ccw u t) as [X Y]. destruct (rotate u t true) as [x y]. cbn [vx vy] in *.
    replace (rad (a + t)) with (rad a + rad t) by (unfold rad; field).
    rewrite cos_plus, sin_plus. f_equal; [rewrite X|rewrite Y]; rewrite Xa at 1; rewrite Ya at 1; ring. }
  rewrite E. destruct (orientation_ok _ (polar_not_null (len u) (a + t) L)) as (b & Eb & Bb & Xb & Yb).
  exists a, b. rewrite len_polar in Xb, Yb by lra. cbn [vx vy] in *.
  apply Rmult_eq_reg_l in Xb; [|lra]. apply Rmult_eq_reg_l in Yb; [|lra].
  repeat split; auto. intros R. apply same_angle_degrees; auto. lra.
Qed.
Print Assumptions C12_rotate_orientation.

(** The angle of a vector with another is the difference of their angles. *)
Theorem C13_angle_of_polar : forall r s a b, 0 < r -> 0 < s -> -180 < a - b < 180 ->
  angle_with (from_polar r a) (from_polar s b) = Ok (a - b).
Proof.
  intros r s a b Hr Hs B. unfold from_polar. rewrite !from_angle_polar. unfold vscale. cbn [vx vy].
  destruct (angle_with_ok _ _ (polar_not_null r a Hr) (polar_not_null s b Hs)) as (t & E & Bt & X & Y).
  rewrite E. f_equal. rewrite !len_polar in X, Y by lra. cbn [vx vy] in X, Y.
  assert (X' : cos (rad a) = cos (rad (t + b))).
  { replace (rad (t + b)) with (rad t + rad b) by (unfold rad; field). rewrite cos_plus.
    apply Rmult_eq_reg_l with (r * s); [lra|]. apply Rmult_integral_contrapositive; lra. }
  assert (Y' : sin (rad a) = sin (rad (t + b))).
  { replace (rad (t + b)) with (rad t + rad b) by (unfold rad; field). rewrite sin_plus.
    apply Rmult_eq_reg_l with (r * s); [lra|]. apply Rmult_integral_contrapositive; lra. }
  assert (a = t + b) by (apply same_angle_degrees; auto; lra). lra.
Qed.
Print Assumptions C13_angle_of_polar.

(** The projection and the deviation are the coordinates of the vector in the frame of the direction
    and of its normal. *)
Theorem C13_decomposition : forall u v, len v = 1 -> exists p d,
  projection_on u v = Ok p /\ deviation_with u v = Ok d /\
  u = vadd (vscale v p) (vscale (rotate v 90 true) d).
Proof.
  intros u v L. exists (vx v * vx u + vy v * vy u), (vx v * vy u - vy v * vx u).
  assert (M : magnitude v = 1) by exact L.
  assert (Q : vx v * vx v + vy v * vy v = 1).
  { unfold len in L. rewrite <- (sqrt_sqrt (_ + _)); [rewrite L; ring|nra]. }
  unfold projection_on, deviation_with. rewrite M. unfold fdiv. rewrite Reqb_false by lra.
  unfold Rdiv. rewrite Rinv_1, !Rmult_1_r. split; [reflexivity|]. split; [reflexivity|].
  rewrite rotate_normal. unfold vadd, vscale, normal. destruct u as [x y], v as [p q]. cbn [vx vy] in *.
  f_equal.
  - transitivity (x * (p * p + q * q)); [rewrite Q; ring|ring].
  - transitivity (y * (p * p + q * q)); [rewrite Q; ring|ring].
Qed.
Print Assumptions C13_decomposition.

Example C12_turn_case : orientation (from_polar 2 135) = Ok 135 /\ orientation (from_polar 2 200) = Ok (-160) /\
  angle_with (from_polar 3 (-160)) (from_polar 2 10) = Ok (-170).
Proof.
  split; [apply C12_orientation_of_polar; lra|]. split.
  - rewrite C12_orientation_beyond by lra. f_equal. ring.
  - rewrite C13_angle_of_polar by lra. f_equal. ring.
Qed.
