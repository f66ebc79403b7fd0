(** What a viewport is expected to show. *)
From Coq Require Import Reals List ZArith.
From Verif Require Import Base ModelVector ModelLine.
From Verif Require Import ModelViewport.
Import ListNotations.
Local Open Scope R_scope.

(** The zooms asked for are positive, the window is never empty, and the viewport is not zoomed
    before it has a scene. *)
Definition sane (v : viewport) (e : event) : Prop :=
  match e with
  | Resize w h => 0 < w /\ 0 < h
  | SetScene s | ItemScene s =>
      forall b, sc_box s = Some b -> inf (bx b) <= sup (bx b) /\ inf (by_ b) <= sup (by_ b)
  | ZoomAt _ k => 0 < k /\ v_scene v <> None
  | ItemZoomAtCenter k | ItemZoomAt _ k => 0 < k
  | _ => True
  end.
Fixpoint sane_from (v : viewport) (l : list event) : Prop :=
  match l with
  | [] => True
  | e :: l => sane v e /\ sane_from (step v e) l
  end.

Definition distance (p q : vec) : R := sqrt ((vx q - vx p) ^ 2 + (vy q - vy p) ^ 2).

Definition in_box (b : box) (p : vec) : Prop :=
  inf (bx b) <= vx p <= sup (bx b) /\ inf (by_ b) <= vy p <= sup (by_ b).

(** The point of the window, whose origin is the upper left corner. *)
Definition in_window (w h : R) (q : vec) : Prop := 0 <= vx q <= w /\ 0 <= vy q <= h.

(** The viewport shows something. *)
Definition shown (v : viewport) (w h k : R) (c : vec) : Prop :=
  v_size v = Some (V w h) /\ v_scale v = k /\ v_center v = Some c /\ v_translation v <> None.

(** The part of the plane with this centre and this scale in a window. *)
Definition visible (w h k : R) (c : vec) (p : vec) : Prop :=
  Rabs (vx p - vx c) * k <= w / 2 /\ Rabs (vy p - vy c) * k <= h / 2.

(** A line of the grid: it crosses the area at a multiple of the step. *)
Definition grid_line (b : box) (step : Z) (p q : vec) : Prop :=
  exists i : Z,
    (inf (bx b) <= IZR (i * step) <= sup (bx b) /\
     p = V (IZR (i * step)) (inf (by_ b)) /\ q = V (IZR (i * step)) (sup (by_ b))) \/
    (inf (by_ b) <= IZR (i * step) <= sup (by_ b) /\
     p = V (inf (bx b)) (IZR (i * step)) /\ q = V (sup (bx b)) (IZR (i * step))).
