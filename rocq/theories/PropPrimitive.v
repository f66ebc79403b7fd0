(** Properties C99-C102, C06: point primitives. *)
From Coq Require Import Reals List Arith Bool Lra Lia.
From Verif Require Import Base ModelVector ModelTransformation.
From Verif Require Import ModelPrimitive SpecPrimitive ProofPrimitive ProofPrimitive2.
Import ListNotations.
Local Open Scope R_scope.

(** C99.  After any history, two primitives have no vector in common, and the points of a primitive
    are different vectors. *)
Theorem C99_separate : forall l i j p q k m a, nth_error (prims (history l)) i = Some p ->
  nth_error (prims (history l)) j = Some q -> nth_error (p_cells p) k = Some a -> nth_error (p_cells q) m = Some a ->
  i = j /\ k = m.
Proof. exact history_separate. Qed.
Print Assumptions C99_separate.

(** Whatever happens to the others, to the vectors it was made of and to its clones, a primitive
    stays as it is. *)
Theorem C99_untouched : forall l m j c pts, has_points (history l) j c pts -> never_touches (history l) m j ->
  has_points (history (l ++ m)) j c pts.
Proof. exact history_untouched. Qed.
Print Assumptions C99_untouched.

Theorem C99_constructed : forall l c args s i, let s0 := history l in
  (forall a, In a args -> (a < length (cells s0))%nat) -> construct c args s0 = Ok (s, i) ->
  i = length (prims s0) /\ has_points s i c (map (read s0) args) /\
  (forall a, In a args -> ~ owns s i a) /\ (forall j a, owns s0 j a -> ~ owns s i a).
Proof. exact constructed. Qed.
Print Assumptions C99_constructed.

(** Missing: B-splines and triangles which became flat. *)
Theorem C99_clone_partial : forall l i c pts, let s0 := history l in
  has_points s0 i c pts -> (forall d, c <> CBSpline d) -> (c = CTriangle -> ~ flat pts) ->
  exists s j, clone i s0 = Ok (s, j) /\ j <> i /\ has_points s j c pts /\ has_points s i c pts /\
    equal i j s = Ok true /\ (forall a, ~ (owns s i a /\ owns s j a)).
Proof. exact clone_exact. Qed.
Print Assumptions C99_clone_partial.

Theorem C99_equal : forall s i j c d a b, has_points s i c a -> has_points s j d b ->
  exists r, equal i j s = Ok r /\ (r = true <-> a = b).
Proof. exact equality. Qed.
Print Assumptions C99_equal.

(** No B-spline has a clone. *)
Theorem C99_spline_refuted : forall l i d pts, has_points (history l) i (CBSpline d) pts ->
  ~ is_ok (clone i (history l)).
Proof. exact clone_spline. Qed.
Print Assumptions C99_spline_refuted.

Example a_spline : has_points (history [ENewVector (V 0 0); ENewVector (V 1 0); ENewVector (V 1 1);
    EConstruct (CBSpline 2) [0; 1; 2]%nat]) 0 (CBSpline 2) [V 0 0; V 1 0; V 1 1].
Proof. eexists. split; [reflexivity|]. split; reflexivity. Qed.

Definition bent : list event :=
  [ENewVector (V 0 0); ENewVector (V 1 0); ENewVector (V 1 1); EConstruct CPolyline [0; 1; 2]%nat].

Example a_polyline : has_points (history bent) 0 CPolyline [V 0 0; V 1 0; V 1 1].
Proof. eexists. split; [reflexivity|]. split; reflexivity. Qed.

Example others_change : never_touches (history bent)
  [EClone 0; EChange 1 (V 7 7); ETransform 1 (Affine (translation (V 1 1))) false; EChange 6 (V 9 9)] 0.
Proof. simpl. unfold owns; simpl. repeat split; intros H; try tauto; try discriminate;
  destruct H as (p&E&H); injection E as <-; simpl in H; lia. Qed.

(** C100.  Every transformation maps exactly the points. *)
Theorem C100_in_place : forall l i c pts t, has_points (history l) i c pts -> honest t ->
  exists s, transform i t false (history l) = Ok (s, i) /\ has_points s i c (map (on_point t) pts).
Proof. exact transform_in_place. Qed.
Print Assumptions C100_in_place.

(** Missing: B-splines and flat triangles, which have no clone. *)
Theorem C100_clone_partial : forall l i c pts t, has_points (history l) i c pts -> honest t ->
  (forall d, c <> CBSpline d) -> (c = CTriangle -> ~ flat pts) ->
  exists s j, transform i t true (history l) = Ok (s, j) /\ j <> i /\
    has_points s j c (map (on_point t) pts) /\ has_points s i c pts.
Proof. exact transform_clone. Qed.
Print Assumptions C100_clone_partial.

Theorem C100_honest : forall e, honest (Affine (build e)).
Proof. exact honest_build. Qed.
Print Assumptions C100_honest.

Theorem C100_mirrors : forall l i,
  image_of i (fun v => V (- vx v) (- vy v)) mirror (history l) /\
  image_of i (fun v => V (- vx v) (vy v)) x_mirror (history l) /\
  image_of i (fun v => V (vx v) (- vy v)) y_mirror (history l).
Proof. exact mirrors_image. Qed.
Print Assumptions C100_mirrors.

Theorem C100_scale : forall l i x y,
  image_of i (fun v => V (x * vx v) (match y with None => x | Some y => y end * vy v)) (scale x y) (history l).
Proof. exact scale_image. Qed.
Print Assumptions C100_scale.

Theorem C100_rotate : forall l i angle,
  image_of i (fun v => V (cos (angle * PI / 180) * vx v - sin (angle * PI / 180) * vy v)
                         (sin (angle * PI / 180) * vx v + cos (angle * PI / 180) * vy v)) (rotate angle) (history l).
Proof. exact rotate_image. Qed.
Print Assumptions C100_rotate.

(** The figure of the transformed points is the image of the figure.  Missing: rectangles;
    the B-splines are in PropSplineImage. *)
Theorem C100_image_partial : forall t c l y, (forall d, c <> CBSpline d) -> c <> CRectangle ->
  (on_shape c (map (on_point t) l) y <-> exists x, on_shape c l x /\ y = on_point t x).
Proof. exact (fun t c l y => shape_image (on_point t) c l y (on_point_affine t)). Qed.
Print Assumptions C100_image_partial.

(** Rectangles: transformations which keep the axes. *)
Theorem C100_rectangle_partial : forall f l y, axes_map f ->
  (on_shape CRectangle (map f l) y <-> exists x, on_shape CRectangle l x /\ y = f x).
Proof. exact rectangle_image. Qed.
Print Assumptions C100_rectangle_partial.

(** A rotated rectangle is not the image of the rectangle. *)
Theorem C100_rectangle_refuted : exists t l x, rotation2 45 = Ok t /\ on_shape CRectangle l x /\
  ~ on_shape CRectangle (map (on_point (Linear t)) l) (on_point (Linear t) x).
Proof. exact rectangle_rotated. Qed.
Print Assumptions C100_rectangle_refuted.

Example axes_scaled : axes_map (fun v => V (-2 * vx v) (3 * vy v)).
Proof. exists (-2), 0, 3, 0. intros v. f_equal; ring. Qed.

(** C101.  reverse() changes nothing, whatever the primitive. *)
Theorem C101_reverse_refuted : forall s i c pts, has_points s i c pts -> reverse i s = Ok (s, i).
Proof. exact reverse_nothing. Qed.
Print Assumptions C101_reverse_refuted.

(** C102.  The length of a polyline, if it was never asked for before. *)
Theorem C102_length_partial : forall l i pts, has_points (history l) i CPolyline pts -> never_measured i l ->
  exists s, polyline_length i (history l) = Ok (s, total pts).
Proof. exact first_length. Qed.
Print Assumptions C102_length_partial.

(** The length does not follow the points. *)
Theorem C102_stale_refuted : exists l pts s x, has_points (history l) 0 CPolyline pts /\
  polyline_length 0 (history l) = Ok (s, x) /\ x <> total pts.
Proof. exact stale_length. Qed.
Print Assumptions C102_stale_refuted.

(** C06.  iter_on_nuplets gives the windows of the points. *)
Theorem C06_nuplets : forall s i c pts size, has_points s i c pts -> arity c = None ->
  (size <= length pts)%nat -> exists w, nuplets i size s = Ok w /\ length w = (length pts - size + 1)%nat /\
  forall k u, nth_error w k = Some u -> length u = size /\ forall m, (m < size)%nat -> nth_error u m = nth_error pts (k + m)%nat.
Proof. exact nuplets_windows. Qed.
Print Assumptions C06_nuplets.
