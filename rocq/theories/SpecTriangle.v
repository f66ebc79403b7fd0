(** Words of the statements about triangles, lines in a box, and rounding. *)
From Coq Require Import Reals ZArith List.
From Verif Require Import ModelVector SpecVector ModelLine SpecLine.
Import ListNotations.
Local Open Scope R_scope.

Definition side (a b : vec) : vec := V (vx b - vx a) (vy b - vy a).
Definition scalar (u v : vec) : R := vx u * vx v + vy u * vy v.
Definition half_way (a b : vec) : vec := V ((vx a + vx b) / 2) ((vy a + vy b) / 2).
Definition gravity (a b c : vec) : vec := V ((vx a + vx b + vx c) / 3) ((vy a + vy b + vy c) / 3).
(** The direction [d] makes the same angle with [u] and [v]: the cosines are equal. *)
Definition bisects (d u v : vec) : Prop := scalar d u * len v = scalar d v * len u.
(** The angle at [a] of the triangle [a b c]: right, acute or obtuse *)
Definition right_at (a b c : vec) : Prop := scalar (side a b) (side a c) = 0.
Definition acute_at (a b c : vec) : Prop := 0 < scalar (side a b) (side a c).
Definition obtuse_at (a b c : vec) : Prop := scalar (side a b) (side a c) < 0.
Definition right_triangle (a b c : vec) : Prop := right_at a b c \/ right_at b c a \/ right_at c a b.
Definition acute_triangle (a b c : vec) : Prop := acute_at a b c /\ acute_at b c a /\ acute_at c a b.
Definition obtuse_triangle (a b c : vec) : Prop := obtuse_at a b c \/ obtuse_at b c a \/ obtuse_at c a b.

Definition box_centre (b : box) : vec := V ((inf (bx b) + sup (bx b)) / 2) ((inf (by_ b) + sup (by_ b)) / 2).

(** The nearest integer, the even one of two. *)
Definition nearest_even (n : Z) (x : R) : Prop :=
  Rabs (x - IZR n) < / 2 \/ (Rabs (x - IZR n) = / 2 /\ Z.even n = true).
