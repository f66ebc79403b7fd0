(** Drawing with a pen; rounding a corner. *)
From Coq Require Import Reals List.
From Verif Require Import ModelVector SpecVector.
Import ListNotations.
Local Open Scope R_scope.

Inductive move :=
| By (v : vec)          (* add an offset *)
| To (v : vec)          (* go to a point *)
| ToX (x : R)           (* keep the ordinate *)
| ToY (y : R)           (* keep the abscissa *)
| Home.                 (* go back to the first point and stop *)

Definition arrive (home pen : vec) (m : move) : vec :=
  match m with
  | By v => V (vx pen + vx v) (vy pen + vy v)
  | To v => v
  | ToX x => V x (vy pen)
  | ToY y => V (vx pen) y
  | Home => home
  end.

(** The strokes: where each starts and stops. *)
Fixpoint trace (home pen : vec) (l : list move) : list (vec * vec) :=
  match l with
  | [] => []
  | Home :: _ => [(pen, home)]
  | m :: l => (pen, arrive home pen m) :: trace home (arrive home pen m) l
  end.

(** The direction from a point to another. *)
Definition heading (a b d : vec) : Prop :=
  a <> b /\ vx b - vx a = dist a b * vx d /\ vy b - vy a = dist a b * vy d.

(** The arc of centre [c] and radius [r] leaves the line of direction [d1] at [s], before the corner
    [p], and joins the line of direction [d2] at [e], after the corner, tangent to both. *)
Definition fillet (p d1 d2 : vec) (r : R) (c s e : vec) : Prop :=
  exists k, 0 < k /\
    vx s = vx p - k * vx d1 /\ vy s = vy p - k * vy d1 /\
    vx e = vx p + k * vx d2 /\ vy e = vy p + k * vy d2 /\
    dist c s = r /\ dist c e = r /\
    (vx c - vx s) * vx d1 + (vy c - vy s) * vy d1 = 0 /\
    (vx c - vx e) * vx d2 + (vy c - vy e) * vy d2 = 0.
