(** What a DXF polyline draws, and what a DXF ellipse draws. *)
From Coq Require Import Reals List.
From Verif Require Import ModelVector SpecVector.
Import ListNotations.
Local Open Scope R_scope.

(** The legs of a polyline, given the list of its points and bulges: from each point to the following
    one with the bulge of the first, and back to the beginning when the polyline is closed. *)
Fixpoint legs_from (first : option vec) (l : list (vec * R)) : list (vec * vec * R) :=
  match l with
  | [] => []
  | (p, b) :: rest =>
      match rest with
      | [] => match first with Some q => [(p, q, b)] | None => [] end
      | (q, _) :: _ => (p, q, b) :: legs_from first rest
      end
  end.
Definition legs (closed : bool) (l : list (vec * R)) : list (vec * vec * R) :=
  legs_from (if closed then match l with (p, _) :: _ => Some p | [] => None end else None) l.

(** The centre of the arc of bulge [b] from [P] to [Q]: turning about it by 4 atan b radians, counter
    clockwise for a positive bulge, brings [P] on [Q]. *)
Definition bulge_center (P Q : vec) (b : R) (C : vec) : Prop :=
  turned (4 * atan b) (vsub P C) (vsub Q C).
(** The points met by [P] during this turn. *)
Definition on_bulge_arc (P Q : vec) (b : R) (X : vec) : Prop :=
  exists C s, bulge_center P Q b C /\ 0 <= s <= 1 /\ turned (s * (4 * atan b)) (vsub P C) (vsub X C).
(** The point at half of the turn. *)
Definition arc_middle (P Q : vec) (b : R) (M : vec) : Prop :=
  exists C, bulge_center P Q b C /\ turned (2 * atan b) (vsub P C) (vsub M C).

Definition on_chord (P Q X : vec) : Prop :=
  exists t, 0 <= t <= 1 /\ vx X = vx P + t * (vx Q - vx P) /\ vy X = vy P + t * (vy Q - vy P).
(** The points of a leg. *)
Definition on_leg (P Q : vec) (b : R) (X : vec) : Prop :=
  (b = 0 /\ on_chord P Q X) \/ (b <> 0 /\ on_bulge_arc P Q b X).

(** The point of parameter [t] of an ellipse of DXF: the minor axis is the major one turned by a
    quarter of turn counter clockwise and multiplied by the ratio. *)
Definition dxf_ellipse_point (center major : vec) (ratio t : R) (X : vec) : Prop :=
  vx X = vx center + cos t * vx major - sin t * (ratio * vy major) /\
  vy X = vy center + cos t * vy major + sin t * (ratio * vx major).
