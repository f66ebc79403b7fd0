(** Specification of B-splines: the Cox - de Boor recursion on a knot function. *)
From Coq Require Import Reals List Arith.
From Verif Require Import ModelVector.
Import ListNotations.
Local Open Scope R_scope.

(** A quotient that is zero when the denominator is. *)
Definition quot (a b : R) : R := if Req_EM_T b 0 then 0 else a / b.

(** The normalised B-spline basis function [i] of degree [p] over the knots [K]. *)
Fixpoint basis (K : nat -> R) (p i : nat) (t : R) : R :=
  match p with
  | O => if Rle_dec (K i) t then (if Rlt_dec t (K (i + 1)%nat) then 1 else 0) else 0
  | S q => quot (t - K i) (K (i + p)%nat - K i) * basis K q i t
           + quot (K (i + p + 1)%nat - t) (K (i + p + 1)%nat - K (i + 1)%nat) * basis K q (i + 1) t
  end.

(** [f 0 + ... + f (n-1)] *)
Fixpoint sumn (n : nat) (f : nat -> R) : R :=
  match n with O => 0 | S n => sumn n f + f n end.

(** The point of parameter [t] of the spline curve of degree [p] with control points [P]. *)
Definition spline_point (K : nat -> R) (p : nat) (P : list vec) (t : R) : vec :=
  V (sumn (length P) (fun i => vx (nth i P (V 0 0)) * basis K p i t))
    (sumn (length P) (fun i => vy (nth i P (V 0 0)) * basis K p i t)).

(** A list as a function. *)
Definition knot (l : list R) (i : nat) : R := nth i l 0.

(** Non-decreasing list. *)
Definition sorted (l : list R) : Prop :=
  forall i j, (i <= j < length l)%nat -> knot l i <= knot l j.

(** The sum of the points weighted by [ws]. *)
Definition weighted (pts : list vec) (ws : list R) : vec :=
  fold_right vadd (V 0 0) (map (fun pw => vscale (fst pw) (snd pw)) (combine pts ws)).
