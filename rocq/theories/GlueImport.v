(** The points shown by an imported item, read through the interface of the items. *)
From Coq Require Import Reals List.
From Verif Require Import Base ModelVector ModelLine ModelConic ModelSpline ModelDxf ModelImport GlueDxf.
Local Open Scope R_scope.

Definition within (d : option domain) (a : R) : Prop :=
  0 <= a <= 360 /\ match d with Some d => d_is_inside d a = true | None => True end.
Definition visible (i : imported) (X : vec) : Prop :=
  match i with
  | OneSegment s => exists t, 0 <= t <= 1 /\ X = s_interpolate s t
  | OneCircle c => exists a, within (c_domain c) a /\ X = circle_point_at_angle c a
  | OneEllipse e => exists a, within (e_domain e) a /\ X = ellipse_point_at_angle e a
  | OneSpline s => exists t, 0 <= t <= INR (List.length (bs_points s) - bs_degree s) /\ point_at_t s t false = Ok X
  | OneList l => exists i, In i l /\ shown i X
  end.
