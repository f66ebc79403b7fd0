(** Bezier curves by repeated linear interpolation, one coordinate at a time, and by the
    Bernstein polynomials. *)
From Coq Require Import Reals List.
From Coquelicot Require Import Coquelicot.
From Verif Require Import ModelVector SpecVector.
Import ListNotations.
Local Open Scope R_scope.

(** One level of the triangle of de Casteljau. *)
Fixpoint level (t : R) (l : list R) : list R :=
  match l with
  | a :: ((b :: _) as rest) => (a + t * (b - a)) :: level t rest
  | _ => []
  end.
Fixpoint casteljau (n : nat) (t : R) (l : list R) : R :=
  match n with
  | O => hd 0 l
  | S n => casteljau n t (level t l)
  end.

(** The curve with the given control points. *)
Definition bezier (pts : list vec) (t : R) : vec :=
  V (casteljau (length pts - 1) t (map vx pts)) (casteljau (length pts - 1) t (map vy pts)).

(** The sum of the Bernstein polynomials. *)
Definition bernstein (n i : nat) (t : R) : R := Binomial.C n i * t ^ i * (1 - t) ^ (n - i).
Definition bernstein_sum (l : list R) (t : R) : R :=
  sum_f_R0 (fun i => nth i l 0 * bernstein (length l - 1) i t) (length l - 1).

(** Velocity of a plane curve. *)
Definition velocity (f : R -> vec) (t : R) (d : vec) : Prop :=
  derivable_pt_lim (fun x => vx (f x)) t (vx d) /\ derivable_pt_lim (fun x => vy (f x)) t (vy d).

(** Length of the arc of [f] over [0, 1]: the integral of the norm of the velocity. *)
Definition arc_length (f : R -> vec) (l : R) : Prop :=
  exists d, (forall t, velocity f t (d t)) /\ is_RInt (fun t => len (d t)) 0 1 l.

(** Algebraic area swept by the segment from the origin to the curve from 0 to 1 (Green). *)
Definition swept (f : R -> vec) (a : R) : Prop :=
  exists d, (forall t, velocity f t (d t)) /\
    is_RInt (fun t => / 2 * (vx (f t) * vy (d t) - vy (f t) * vx (d t))) 0 1 a.

(** Algebraic area of the region between the curve and its chord: the chord from the end back to
    the start sweeps the rest. *)
Definition closed_by_chord (f : R -> vec) (a : R) : Prop :=
  exists b, swept f b /\ a = b + / 2 * (vx (f 1) * vy (f 0) - vy (f 1) * vx (f 0)).

Definition nearest (A : vec -> Prop) (p q : vec) : Prop :=
  A q /\ forall r, A r -> dist p q <= dist p r.
