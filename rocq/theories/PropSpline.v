(** Properties C18, C19, C20, C66: splines. *)
From Coq Require Import Reals List Lra Lia.
From Verif Require Import Base ModelVector ProofVector ModelBezier ModelSpline SpecSpline ProofSpline.
Import ListNotations.
Local Open Scope R_scope.

(** C18 *)
Theorem C18_basis : forall pts p c s, new_bspline pts p c None = Ok s ->
  (p + 1 <= length pts)%nat /\
  length (bs_knots s) = (length pts + p + 1)%nat /\
  sorted (bs_knots s) /\
  (forall i, (i < length pts + p + 1)%nat ->
     knot (bs_knots s) i = INR (Nat.min (i - p) (length pts - p))) /\
  forall t, exists bs,
    traverse (fun i => basis_function s p i t) (seq 0 (length pts)) = Ok bs /\
    length bs = length pts /\
    (forall i, (i < length pts)%nat -> 0 <= nth i bs 0) /\
    (forall i, (i < length pts)%nat ->
       t < knot (bs_knots s) i \/ knot (bs_knots s) (i + p + 1) <= t -> nth i bs 0 = 0) /\
    (0 <= t < INR (length pts - p) -> fold_right Rplus 0 bs = 1).
Proof. exact uniform_basis. Qed.
Print Assumptions C18_basis.

(** The constructor accepts every control polygon with at least [degree + 1] points. *)
Theorem C18_constructor : forall pts p c,
  ((p + 1 <= length pts)%nat -> exists s, new_bspline pts p c None = Ok s) /\
  ((length pts < p + 1)%nat -> new_bspline pts p c None = Raise ValueError).
Proof. exact new_uniform_iff. Qed.
Print Assumptions C18_constructor.

(** "except at its very end": there all the basis functions are zero. *)
Theorem C18_end : forall pts p c s, new_bspline pts p c None = Ok s ->
  exists bs, traverse (fun i => basis_function s p i (INR (length pts - p))) (seq 0 (length pts)) = Ok bs /\
  fold_right Rplus 0 bs = 0.
Proof. exact basis_end. Qed.
Print Assumptions C18_end.

Example C18_example : exists s, new_bspline [V 0 0; V 1 1; V 2 0; V 3 1] 2 false None = Ok s.
Proof. apply new_uniform_iff. cbn. lia. Qed.

(** C19: every knot vector of the right length, every parameter from the knot number [degree] on and
    before the knot number [number of points]. *)
Theorem C19_deboor_partial : forall pts p c k s t, new_bspline pts p c k = Ok s ->
  length (bs_knots s) = (length pts + p + 1)%nat ->
  knot (bs_knots s) p <= t < knot (bs_knots s) (length pts) ->
  exists ws, traverse (fun i => basis_function s p i t) (seq 0 (length pts)) = Ok ws /\
  point_at_t s t false = Ok (weighted pts ws) /\
  weighted pts ws = spline_point (knot (bs_knots s)) p pts t.
Proof. exact evaluation_ok. Qed.
Print Assumptions C19_deboor_partial.

(** A uniform spline starts at its first point and ends at its last one. *)
Theorem C19_uniform_ends : forall pts p c s, new_bspline pts p c None = Ok s ->
  point_at_t s 0 false = Ok (hd (V 0 0) pts) /\
  point_at_t s (INR (length pts - p)) false = Ok (last pts (V 0 0)).
Proof. exact uniform_ends. Qed.
Print Assumptions C19_uniform_ends.

(** Before the knot number [degree] points of the other end are mixed in. *)
Theorem C19_unclamped_refuted : exists pts s,
  new_bspline pts 1 false (Some [0; 1; 2; 3]) = Ok s /\ length pts = 2%nat /\
  point_at_t s (1/2) false = Ok (V 1 0) /\
  spline_point (knot (bs_knots s)) 1 pts (1/2) = V 0 0.
Proof. exact unclamped_refuted. Qed.
Print Assumptions C19_unclamped_refuted.

(** A spline given by its knots cannot be evaluated at its end. *)
Theorem C19_end_refuted : forall pts p c ks s, new_bspline pts p c (Some ks) = Ok s ->
  length ks = (length pts + p + 1)%nat ->
  exists e, end_knot s = Ok e /\ point_at_t s e false = Raise TypeError.
Proof. exact given_knots_end. Qed.
Print Assumptions C19_end_refuted.

(** The naive evaluation never succeeds inside the domain. *)
Theorem C19_naive_refuted : forall pts p c k s t, new_bspline pts p c k = Ok s ->
  length (bs_knots s) = (length pts + p + 1)%nat ->
  (k = None -> t <> 0 /\ t <> INR (length pts - p)) ->
  point_at_t s t true = Raise TypeError.
Proof. exact naive_never. Qed.
Print Assumptions C19_naive_refuted.

Example C19_example : exists s,
  new_bspline [V 0 0; V 1 1; V 2 0] 1 false (Some [0; 0; 1; 3; 3]) = Ok s /\
  length (bs_knots s) = 5%nat /\ knot (bs_knots s) 1 <= 2 < knot (bs_knots s) 3.
Proof.
  unfold new_bspline, non_decreasing. rewrite !Rleb_true by lra. eexists. split; [reflexivity|].
  split; [reflexivity|]. unfold knot. cbn. lra.
Qed.

(** C20 *)
Theorem C20_insert_knot : forall pts p c k s t, new_bspline pts p c k = Ok s ->
  length (bs_knots s) = (length pts + p + 1)%nat ->
  knot (bs_knots s) p <= t < knot (bs_knots s) (length pts) ->
  exists s', insert_knot s t = Ok s' /\ length (bs_points s') = (length pts + 1)%nat /\
    (exists l, bs_knots s' = firstn (l + 1) (bs_knots s) ++ [t] ++ skipn (l + 1) (bs_knots s)
               /\ knot (bs_knots s) l <= t < knot (bs_knots s) (l + 1)) /\
    forall x, knot (bs_knots s) p <= x < knot (bs_knots s) (length pts) ->
      point_at_t s' x false = point_at_t s x false /\ exists q, point_at_t s x false = Ok q.
Proof. exact insert_same_points. Qed.
Print Assumptions C20_insert_knot.

(** At the end of the domain the old uniform spline gives its last point, the new one raises. *)
Theorem C20_end_refuted : forall pts p c s t, new_bspline pts p c None = Ok s ->
  0 <= t < INR (length pts - p) ->
  exists s' e, insert_knot s t = Ok s' /\ end_knot s' = Ok e /\
    point_at_t s e false = Ok (last pts (V 0 0)) /\ point_at_t s' e false = Raise TypeError.
Proof. exact insert_end. Qed.
Print Assumptions C20_end_refuted.

(** Every knot inserted up to the multiplicity [degree + 1]: each span is a Bezier curve. *)
Theorem C20_bezier_form : forall pts p c s, new_bspline pts p c None = Ok s ->
  exists s', to_bezier_form s = Ok s' /\
  length (bs_points s') = ((length pts - p) * (p + 1))%nat /\
  forall k x, (k < length pts - p)%nat -> INR k <= x < INR k + 1 ->
    point_at_t s x false =
    Ok (SpecBezier.bezier (firstn (p + 1) (skipn (k * (p + 1)) (bs_points s'))) (x - INR k)).
Proof. exact bezier_form_points. Qed.
Print Assumptions C20_bezier_form.

(** The list of Bezier curves of an open quadratic or cubic uniform spline. *)
Theorem C20_to_bezier : forall pts p s, p = 2%nat \/ p = 3%nat -> new_bspline pts p false None = Ok s ->
  exists curves, to_bezier s = Ok curves /\ length curves = (length pts - p)%nat /\
  forall k c x, nth_error curves k = Some c -> INR k <= x < INR k + 1 ->
    point_at_t s x false = Ok (curve_point c (x - INR k)).
Proof. exact to_bezier_points. Qed.
Print Assumptions C20_to_bezier.

(** The other uniform splines are refused, with unhelpful exceptions. *)
Theorem C20_to_bezier_refused : forall pts p c s, new_bspline pts p c None = Ok s ->
  ((p < 2)%nat -> to_bezier s = Raise UnboundLocalError) /\
  ((3 < p)%nat -> to_bezier s = Raise TypeError) /\
  ((2 <= p)%nat -> c = true -> to_bezier s = Raise TypeError).
Proof. exact to_bezier_refused. Qed.
Print Assumptions C20_to_bezier_refused.

Example C20_example : exists s, new_bspline [V 0 0; V 1 1; V 2 0; V 3 1; V 4 4] 3 false None = Ok s /\
  0 <= 1 < INR (5 - 3).
Proof.
  destruct (proj1 (new_uniform_iff [V 0 0; V 1 1; V 2 0; V 3 1; V 4 4] 3 false) ltac:(cbn; lia)) as (s & E).
  exists s. split; [exact E|]. cbn. lra.
Qed.

(** C66 *)
Theorem C66_to_spline : forall c, exists p0 p1 p2 p3, to_spline c = [p0; p1; p2; p3] /\
  forall t, cubic_spline_point_at_t p0 p1 p2 p3 t = cubic_point_at_t c t.
Proof. exact to_spline_ok. Qed.
Print Assumptions C66_to_spline.

Theorem C66_uniform_cubic : forall p0 p1 p2 p3 t, 0 <= t < 1 ->
  cubic_spline_point_at_t p0 p1 p2 p3 t =
  spline_point (knot [-3; -2; -1; 0; 1; 2; 3; 4]) 3 [p0; p1; p2; p3] t.
Proof. exact uniform_cubic_is_bspline. Qed.
Print Assumptions C66_uniform_cubic.

(** The points computed by CubicUniformSpline2D.to_bezier are right, the method then raises. *)
Theorem C66_to_bezier_partial : forall p0 p1 p2 p3, exists b0 b1 b2 b3,
  cubic_spline_bezier_points p0 p1 p2 p3 = [b0; b1; b2; b3] /\
  forall t, cubic_point_at_t (Cub b0 b1 b2 b3) t = cubic_spline_point_at_t p0 p1 p2 p3 t.
Proof. exact spline_bezier_points. Qed.
Print Assumptions C66_to_bezier_partial.

Theorem C66_to_bezier_refuted : forall p0 p1 p2 p3,
  cubic_spline_to_bezier p0 p1 p2 p3 = Raise AttributeError.
Proof. reflexivity. Qed.
Print Assumptions C66_to_bezier_refuted.

(** The quadratic uniform spline through aligned equidistant points runs from the middle of the
    first two points to the middle of the last two; its conversion does not. *)
Theorem C66_quadratic_refuted :
  spline_point (knot [-2; -1; 0; 1; 2; 3]) 2 [V 0 0; V 1 0; V 2 0] 0 = V (1/2) 0 /\
  hd (V 0 0) (quad_spline_to_bezier (V 0 0) (V 1 0) (V 2 0)) <> V (1/2) 0 /\
  forall p0 p1 p2 t, quad_spline_point_at_t p0 p1 p2 t = Raise AttributeError.
Proof. exact quad_wrong. Qed.
Print Assumptions C66_quadratic_refuted.

Example C66_example : 0 <= 1/2 < 1. Proof. lra. Qed.
