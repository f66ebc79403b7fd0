(** Property C100 for the B-splines. *)
From Coq Require Import Reals List ZArith Lra.
From Verif Require Import Base ModelVector ModelBezier ModelSpline ModelPrimitive SpecPrimitive.
From Verif Require Import ProofVector ProofPrimitive2 ProofSplineImage.
Import ListNotations.
Local Open Scope R_scope.

(** C100.  The B-spline of the transformed points, for every degree and all knots: each point of the curve is the image of the
    point of the same parameter, and the knots are inserted alike. *)
Theorem C100_spline : forall u points degree closed knots s, new_bspline points degree closed knots = Ok s ->
  exists s', new_bspline (map (on_point u) points) degree closed knots = Ok s' /\
    (forall t naive, point_at_t s' t naive = match point_at_t s t naive with Ok p => Ok (on_point u p) | Raise e => Raise e end) /\
    (forall t, insert_knot s' t = match insert_knot s t with
       | Ok r => Ok (BS (map (on_point u) (bs_points r)) (bs_degree r) (bs_closed r) (bs_knots r) (bs_uniform r)) | Raise e => Raise e end).
Proof. exact (fun u => spline_image (on_point u) (on_point_affine u)). Qed.
Print Assumptions C100_spline.

Example C100_spline_example : exists s, new_bspline [V 0 0; V 1 2; V 3 1; V 4 0] 3 false None = Ok s /\
  point_at_t s 0 false = Ok (V 0 0).
Proof.
  eexists. split; [reflexivity|]. unfold point_at_t. cbn [bs_uniform].
  destruct (Reqb_spec 0 0) as [_|N]; [reflexivity|destruct (N eq_refl)].
Qed.
