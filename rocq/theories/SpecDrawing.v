(** The points of the primitives, and of the outline of a path. *)
From Coq Require Import Reals List ZArith.
From Verif Require Import Base ModelVector ModelLine ModelBezier ModelConic ModelPath ModelSpline ModelDrawing
  SpecVector SpecPath SpecPainter GluePath.
From Verif Require SpecConic.
Import ListNotations.
Local Open Scope R_scope.

Definition between (a b x : R) : Prop := a <= x <= b \/ b <= x <= a.
(** The border of the rectangle of opposite corners [p] and [q] *)
Definition on_border (p q x : vec) : Prop :=
  ((vx x = vx p \/ vx x = vx q) /\ between (vy p) (vy q) (vy x)) \/
  ((vy x = vy p \/ vy x = vy q) /\ between (vx p) (vx q) (vx x)).

(** The arc of a circle drawn from the angle [s] to the angle [e] (degrees), anticlockwise; all the circle
    when the angles differ by a turn or more *)
Definition on_circular_arc (c : vec) (r s e : R) (x : vec) : Prop :=
  if Rle_dec 360 (Rabs (e - s)) then dist c x = r
  else exists w a, 0 <= w < 360 /\ (exists k, e - s = w + 360 * IZR k) /\ s <= a <= s + w /\ SpecConic.polar c r a x.

(** The points of a primitive; None for those which have no drawing of their own *)
Definition points_of (g : primitive) (x : vec) : Prop :=
  match g with
  | Quadratic c => on_quadratic (q0 c) (q1 c) (q2 c) x
  | Cubic c => on_cubic (c0 c) (c1 c) (c2 c) (c3p c) x
  | Circle c =>
      match c_domain c with
      | None => dist (c_center c) x = c_radius c
      | Some d => on_circular_arc (c_center c) (c_radius c) (d_start d) (d_stop d) x
      end
  | Ellipse e => SpecConic.on_ellipse (e_center e) (e_rx e) (e_ry e) (e_angle e) x
  | Polygon l => exists i p q, nth_error (l ++ firstn 1 l) i = Some p /\ nth_error (l ++ firstn 1 l) (S i) = Some q /\ on_segment p q x
  | Polyline l => exists i p q, nth_error l i = Some p /\ nth_error l (S i) = Some q /\ on_segment p q x
  | Rectangle p q => on_border p q x
  | Segment s => on_segment (s_p0 s) (s_p1 s) x
  | Triangle a b c => on_segment a b x \/ on_segment b c x \/ on_segment c a x
  | Spline _ | PathOf _ | Line _ | Other => False
  end.
(** The primitives which are one item: a circle has a positive radius, an ellipse is whole, with positive radii,
    a polygon has three points, a polyline two *)
Definition plain_primitive (g : primitive) : Prop :=
  match g with
  | Quadratic _ | Cubic _ | Rectangle _ _ | Segment _ | Triangle _ _ _ => True
  | Circle c => 0 < c_radius c
  | Ellipse e => 0 < e_rx e /\ 0 < e_ry e /\ e_domain e = None
  | Polygon l => (3 <= length l)%nat
  | Polyline l => (2 <= length l)%nat
  | _ => False
  end.

(** ** The outline of a path *)

(** The point is on the circle, on the side of the corner [P] of the chord from [s] to [e]. *)
Definition on_fillet (P c s e : vec) (r : R) (x : vec) : Prop :=
  dist c x = r /\
  0 <= ((vx e - vx s) * (vy x - vy s) - (vy e - vy s) * (vx x - vx s)) *
       ((vx e - vx s) * (vy P - vy s) - (vy e - vy s) * (vx P - vx s)).
(** The corner at the start of the part [i] is rounded by the arc of radius [r] and centre [c] which begins at [s]
    and ends at [e]; [P] is the corner. *)
Definition rounds (p : path) (i : nat) (r : R) (P c s e : vec) : Prop := rounded p i r /\ exists A B d1 d2,
  start_point p (before p i) = Ok A /\ start_point p i = Ok P /\ stop_point p i = Ok B /\
  heading A P d1 /\ heading P B d2 /\ fillet P d1 d2 r c s e.
(** The part which follows *)
Definition after (p : path) (i : nat) : nat := if Nat.eqb (S i) (length (parts p)) then (if closed p then 0 else S i)%nat else S i.
(** Where the straight part [i] begins and ends: at the ends of the arcs, otherwise at the ends of the part *)
Definition begins (p : path) (i : nat) (a : vec) : Prop :=
  (exists r P c s, rounds p i r P c s a) \/ ((forall r, ~ rounded p i r) /\ start_point p i = Ok a).
Definition ends (p : path) (i : nat) (b : vec) : Prop :=
  (exists r P c e, rounds p (after p i) r P c b e) \/ ((forall r, ~ rounded p (after p i) r) /\ stop_point p i = Ok b).
Definition placed_at (absolute : bool) (s v : vec) : vec := if absolute then v else V (vx s + vx v) (vy s + vy v).
(** The points of the path: straight parts, rounded corners, curves *)
Definition outline (p : path) (x : vec) : Prop :=
  (exists i sh c a b, nth_error (parts p) i = Some (Linear sh c) /\ begins p i a /\ ends p i b /\ on_segment a b x) \/
  (exists i r P c s e, rounds p i r P c s e /\ on_fillet P c s e r x) \/
  (exists i a b f s, nth_error (parts p) i = Some (PQuad a b f) /\ start_point p i = Ok s /\
     on_quadratic s (placed_at f s a) (placed_at f s b) x) \/
  (exists i a b c f s, nth_error (parts p) i = Some (PCubic a b c f) /\ start_point p i = Ok s /\
     on_cubic s (placed_at f s a) (placed_at f s b) (placed_at f s c) x).
(** Each rounded corner is between two straight parts of different directions, which have a length. *)
Definition proper (p : path) : Prop := forall i r, rounded p i r -> 0 < r /\ exists A P B d1 d2,
  start_point p (before p i) = Ok A /\ start_point p i = Ok P /\ stop_point p i = Ok B /\
  heading A P d1 /\ heading P B d2 /\ vx d1 * vy d2 - vy d1 * vx d2 <> 0.
(** No arc, and none of the curves which are not implemented *)
Definition without_arcs (p : path) : Prop := forall i, match nth_error (parts p) i with
  Some (PArc _ _ _ _ _ _ _) | Some (PStringed _) => False | _ => True end.
(** The path is closed once at most. *)
Definition is_closing (e : event) : bool := match e with Command (Close _ _) => true | _ => false end.
Definition closed_once (l : list event) : Prop := (length (filter is_closing l) <= 1)%nat.
