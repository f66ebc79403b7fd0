(** What the methods of point primitives are expected to do. *)
From Coq Require Import Reals List.
From Verif Require Import Base ModelVector ModelTransformation.
From Verif Require Import ModelPrimitive.
Import ListNotations.
Local Open Scope R_scope.

(** The points of a primitive, as a caller sees them now. *)
Definition has_points (s : store) (i : nat) (c : pclass) (l : list vec) : Prop :=
  exists p, nth_error (prims s) i = Some p /\ p_class p = c /\
    l = map (fun a => nth a (cells s) (V 0 0)) (p_cells p).

(** The vector at [a] is a point of the primitive [i]. *)
Definition owns (s : store) (i a : nat) : Prop :=
  exists p, nth_error (prims s) i = Some p /\ In a (p_cells p).

(** The event changes the primitive [j] on purpose: a method in place on it, or a change of one of
    its points. *)
Definition touches (s : store) (e : event) (j : nat) : Prop :=
  match e with
  | EChange a _ => owns s j a
  | ETransform i _ false => i = j
  | ESetPoint i _ _ => i = j
  | _ => False
  end.

Fixpoint never_touches (s : store) (l : list event) (j : nat) : Prop :=
  match l with
  | [] => True
  | e :: l => ~ touches s e j /\ never_touches (step s e) l j
  end.

(** The point set of a primitive: segments, triangles (with their inside), Bezier curves by their
    Bernstein polynomials, uniform splines by their basis, the lines of polylines and polygons, the
    rectangles with sides along the axes. *)
Definition lin (l : list (R * vec)) : vec :=
  V (fold_right Rplus 0 (map (fun c => fst c * vx (snd c)) l))
    (fold_right Rplus 0 (map (fun c => fst c * vy (snd c)) l)).

Definition on_segment (a b x : vec) : Prop := exists t, 0 <= t <= 1 /\ x = lin [(1 - t, a); (t, b)].

Fixpoint on_lines (l : list vec) (x : vec) : Prop :=
  match l with
  | a :: ((b :: _) as r) => on_segment a b x \/ on_lines r x
  | _ => False
  end.

Definition on_shape (c : pclass) (l : list vec) (x : vec) : Prop :=
  match c, l with
  | CSegment, [a; b] => on_segment a b x
  | CRectangle, [a; b] =>
      (Rmin (vx a) (vx b) <= vx x <= Rmax (vx a) (vx b)) /\ (Rmin (vy a) (vy b) <= vy x <= Rmax (vy a) (vy b))
  | CTriangle, [a; b; d] =>
      exists u v w, 0 <= u /\ 0 <= v /\ 0 <= w /\ u + v + w = 1 /\ x = lin [(u, a); (v, b); (w, d)]
  | CQuadraticBezier, [a; b; d] =>
      exists t, 0 <= t <= 1 /\ x = lin [((1 - t) ^ 2, a); (2 * t * (1 - t), b); (t ^ 2, d)]
  | CCubicBezier, [a; b; d; e] =>
      exists t, 0 <= t <= 1 /\
        x = lin [((1 - t) ^ 3, a); (3 * t * (1 - t) ^ 2, b); (3 * t ^ 2 * (1 - t), d); (t ^ 3, e)]
  | CQuadraticSpline, [a; b; d] =>
      exists t, 0 <= t <= 1 /\
        x = lin [((1 - t) ^ 2 / 2, a); ((1 + 2 * t - 2 * t ^ 2) / 2, b); (t ^ 2 / 2, d)]
  | CCubicSpline, [a; b; d; e] =>
      exists t, 0 <= t <= 1 /\
        x = lin [((1 - t) ^ 3 / 6, a); ((4 - 6 * t ^ 2 + 3 * t ^ 3) / 6, b);
                 ((1 + 3 * t + 3 * t ^ 2 - 3 * t ^ 3) / 6, d); (t ^ 3 / 6, e)]
  | CPolyline, l => on_lines l x
  | CPolygon, a :: r => on_lines (a :: r ++ [a]) x
  | _, _ => False
  end.

(** An affine map of the plane. *)
Definition affine_map (f : vec -> vec) : Prop :=
  exists a b c d e g, forall v, f v = V (a * vx v + b * vy v + c) (d * vx v + e * vy v + g).
(** ... which keeps the directions of the axes. *)
Definition axes_map (f : vec -> vec) : Prop :=
  exists a c e g, forall v, f v = V (a * vx v + c) (e * vy v + g).

(** The transformation says of itself to be the identity only if it is. *)
Definition honest (t : transf) : Prop := is_identity t = true -> forall v, on_point t v = v.

(** The cross product of two sides is zero with seven decimals: Triangle2D refuses such points. *)
Definition flat (pts : list vec) : Prop :=
  match pts with
  | [a; b; d] => Rabs ((vx b - vx a) * (vy d - vy a) - (vy b - vy a) * (vx d - vx a)) <= 5 / 10 ^ 8
  | _ => False
  end.

(** The method [op] maps the points by [f], in place or in a clone.  (B-splines and flat triangles
    have no clone.) *)
Definition image_of (i : nat) (f : vec -> vec) (op : nat -> bool -> store -> result (store * nat)) (s0 : store) : Prop :=
  forall c pts, has_points s0 i c pts ->
  (exists s, op i false s0 = Ok (s, i) /\ has_points s i c (map f pts)) /\
  ((forall d, c <> CBSpline d) -> (c = CTriangle -> ~ flat pts) ->
   exists s j, op i true s0 = Ok (s, j) /\ j <> i /\ has_points s j c (map f pts) /\ has_points s i c pts).

(** The length of the broken line through the points. *)
Definition total (pts : list vec) : R :=
  fold_right Rplus 0 (map (fun k => sqrt ((vx (nth (S k) pts (V 0 0)) - vx (nth k pts (V 0 0))) ^ 2 +
                                         (vy (nth (S k) pts (V 0 0)) - vy (nth k pts (V 0 0))) ^ 2))
                          (seq 0 (length pts - 1))).

(** Nobody asked for the length of the primitive [i] before. *)
Fixpoint never_measured (i : nat) (l : list event) : Prop :=
  match l with
  | [] => True
  | ELength j :: l => i <> j /\ never_measured i l
  | _ :: l => never_measured i l
  end.

