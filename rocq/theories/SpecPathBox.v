(** The figure drawn by a part of a path. *)
From Coq Require Import Reals List.
From Verif Require Import ModelVector ModelLine ModelBezier ModelConic ModelPath SpecVector SpecLine SpecBezier SpecConic.
Import ListNotations.
Local Open Scope R_scope.

(** The points of a geometry; an arc of an ellipse is on its ellipse. *)
Definition on_piece (g : piece) (x : vec) : Prop :=
  match g with
  | GSegment s | GArc (ArcSeg s) => between (s_p0 s) (s_p1 s) x
  | GQuad c => exists t, 0 <= t <= 1 /\ x = bezier [q0 c; q1 c; q2 c] t
  | GCubic c => exists t, 0 <= t <= 1 /\ x = bezier [c0 c; c1 c; c2 c; c3p c] t
  | GArc (ArcEllipse e) => on_ellipse (e_center e) (e_rx e) (e_ry e) (e_angle e) x
  end.

(** The points which determine a geometry without arc: ends and control points. *)
Definition determines (g : piece) (x : vec) : Prop :=
  match g with
  | GSegment s | GArc (ArcSeg s) => x = s_p0 s \/ x = s_p1 s
  | GQuad c => x = q0 c \/ x = q1 c \/ x = q2 c
  | GCubic c => x = c0 c \/ x = c1 c \/ x = c2 c \/ x = c3p c
  | GArc (ArcEllipse _) => False
  end.
Definition straight (g : piece) : Prop := match g with GSegment _ | GArc (ArcSeg _) => True | _ => False end.
Definition elliptic (g : piece) : Prop := match g with GArc (ArcEllipse _) => True | _ => False end.
Definition turned (g : piece) : Prop := match g with GArc (ArcEllipse e) => e_angle e <> 0 | _ => False end.

(** [c] covers [b]. *)
Definition covers (c b : box) : Prop :=
  inf (bx c) <= inf (bx b) /\ sup (bx b) <= sup (bx c) /\ inf (by_ c) <= inf (by_ b) /\ sup (by_ b) <= sup (by_ c).
