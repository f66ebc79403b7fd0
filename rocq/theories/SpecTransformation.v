(** What an affine transformation expression means on the points of the plane, written without
    matrices. *)
From Coq Require Import Reals.
From Verif Require Import ModelVector SpecVector ModelTransformation.
Local Open Scope R_scope.

Fixpoint meaning (e : texpr) (p : vec) : vec :=
  match e with
  | EIdentity => p
  | ETranslation v => V (vx p + vx v) (vy p + vy v)
  | ERotation a => V (cos (rad a) * vx p - sin (rad a) * vy p) (sin (rad a) * vx p + cos (rad a) * vy p)
  | EScale x y => V (x * vx p) (y * vy p)
  | EScreen h => V (vx p) (h - vy p)
  | ERotationAt c a =>
      V (vx c + (cos (rad a) * (vx p - vx c) - sin (rad a) * (vy p - vy c)))
        (vy c + (sin (rad a) * (vx p - vx c) + cos (rad a) * (vy p - vy c)))
  | EMatrix a b c d e f => V (a * vx p + b * vy p + c) (d * vx p + e * vy p + f)
  | EMul e1 e2 => meaning e1 (meaning e2 p)      (* the right one first *)
  | EIMul e1 e2 => meaning e2 (meaning e1 p)     (* the new one last *)
  end.

(** [f] multiplies all distances by [k]. *)
Definition similarity (f : vec -> vec) (k : R) : Prop :=
  0 <= k /\ forall p q, dist (f p) (f q) = k * dist p q.
Definition rigid (f : vec -> vec) : Prop := forall p q, dist (f p) (f q) = dist p q.
