(** The points shown by the geometry of a polyline, read through the interface of the items. *)
From Coq Require Import Reals List.
From Verif Require Import Base ModelVector ModelLine ModelConic ModelDxf.
Local Open Scope R_scope.

Definition corners (p : polyline) : list (vec * R) :=
  map (fun v => (v_point v, v_bulge v)) (pl_vertices p).
(** A segment shows its interpolated points; an arc shows the points at the angles of its domain. *)
Definition shown (item : dxf_item) (X : vec) : Prop :=
  match item with
  | ISegment s => exists t, 0 <= t <= 1 /\ X = s_interpolate s t
  | IArc c => exists a, 0 <= a < 360 /\
      match c_domain c with Some d => d_is_inside d a = true | None => True end /\
      X = circle_point_at_angle c a
  end.
