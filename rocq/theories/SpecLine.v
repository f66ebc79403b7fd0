(** Lines, segments, triangles as sets of points, on coordinates. *)
From Coq Require Import Reals List.
Import ListNotations.
From Verif Require Import ModelVector SpecVector ModelLine.
Local Open Scope R_scope.

Definition on_line (l : line) (q : vec) : Prop :=
  exists s, vx q = vx (l_p l) + s * vx (l_v l) /\ vy q = vy (l_p l) + s * vy (l_v l).

Definition between (a b q : vec) : Prop :=
  exists t, 0 <= t <= 1 /\ vx q = vx a + t * (vx b - vx a) /\ vy q = vy a + t * (vy b - vy a).

Definition on_segment (s : segment) (q : vec) : Prop := between (s_p0 s) (s_p1 s) q.

(** [m] is the smallest distance from [p] to the points of the set. *)
Definition min_distance (A : vec -> Prop) (p : vec) (m : R) : Prop :=
  (exists q, A q /\ dist p q = m) /\ (forall q, A q -> m <= dist p q).

(** Points of a chain of vertices. *)
Fixpoint on_chain (l : list vec) (q : vec) : Prop :=
  match l with
  | cons a ((cons b _) as rest) => between a b q \/ on_chain rest q
  | _ => False
  end.

(** Barycentric coordinates. *)
Definition in_triangle (a b c q : vec) : Prop :=
  exists u v w, 0 <= u /\ 0 <= v /\ 0 <= w /\ u + v + w = 1 /\
    vx q = u * vx a + v * vx b + w * vx c /\ vy q = u * vy a + v * vy b + w * vy c.

Definition perpendicular (a b : vec) : Prop := vx a * vx b + vy a * vy b = 0.

Definition crossv (a b : vec) : R := vx a * vy b - vy a * vx b.

Definition in_rectangle (a b q : vec) : Prop :=
  exists s t, 0 <= s <= 1 /\ 0 <= t <= 1 /\
    vx q = vx a + s * (vx b - vx a) /\ vy q = vy a + t * (vy b - vy a).

Definition in_box (b : box) (q : vec) : Prop :=
  inf (bx b) <= vx q <= sup (bx b) /\ inf (by_ b) <= vy q <= sup (by_ b).

Fixpoint sumR (l : list R) : R := match l with [] => 0 | x :: l => x + sumR l end.
