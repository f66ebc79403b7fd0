(** Words used in the statements on SVG path data. *)
From Coq Require Import String Ascii List Bool Arith Reals.
From Verif Require Import Base ModelFormula ModelVector ModelLine ModelBezier ModelConic ModelPath ModelSvgPath SpecSvgPath.
Import ListNotations.

Section Data.
Context {float : Type}.
Notation token := (token float).
Notation svg_command := (svg_command float).
(** A command whose arguments are numbers *)
Definition numbers (c : ascii * list float) : svg_command := (fst c, map Num (snd c)).
(** A word which is a number *)
Definition reads (float_parse : text -> result float) (w : text) (x : float) : Prop := float_parse w = Ok x /\ forall c, w = [c] -> is_alpha c = false.
(** A command with its number of arguments *)
Definition complete (c : ascii * list float) : Prop := arity (fst c) = Some (length (snd c)).
(** Each command takes its letter, if any, and its arguments, in order. *)
Definition chunk (c : svg_command) (ps : list token) : Prop := ps = snd c \/ ps = Letter (fst c) :: snd c.
Definition closing (c : ascii) : Prop := c = "z"%char \/ c = "Z"%char.
End Data.

Local Open Scope R_scope.
(** What a stroke is as geometry *)
Definition shown (s : stroke) : result piece :=
  match s with
  | SLine a b => Ok (GSegment (Seg a b))
  | SQuadratic a b c => Ok (GQuad (ModelBezier.Quad a b c))
  | SCubic a b c d => Ok (GCubic (Cub a b c d))
  | SArc a b rx ry angle large sweep => bind (svg_arc a b rx ry angle large sweep) (fun g => Ok (GArc g))
  end.
Definition drawn_as (p : path) (l : list stroke) : Prop :=
  length (parts p) = length l /\ forall i s, nth_error l i = Some s -> fst (geometry i p) = shown s.

(** The commands for which the claim holds *)
Definition supported (c : svg) : Prop :=
  match c with
  | Move _ _ | SmoothCubic _ _ _ | SmoothQuadratic _ _ => False
  | Vertical absolute _ => absolute = false
  | _ => True
  end.
(** z only at the end *)
Definition closes_last (l : list svg) : Prop := forall i, nth_error l i = Some ClosePath -> S i = length l.
