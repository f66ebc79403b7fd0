(** What the drawing of a sketch shows. *)
From Coq Require Import String Reals List Bool.
From Verif Require Import Base ModelVector ModelLine ModelSketch.
From Verif Require Import GlueSketch.
From Verif Require ModelFormula ModelScene ModelPainter SpecPainter ModelStyle ModelColor.
From Verif Require Import ModelDetail.
Import ModelFormula(text, lit).
Import ModelScene(position).
Import ModelPainter(shape, SText).
Import ModelStyle(to_stroke, to_color, s_stroke_style, s_stroke_color, s_line_width, s_fill_color, SolidLine, PArg).
Import SpecPainter(on_segment, on_cubic, covers, degrees_cos, degrees_sin).
Import ListNotations.
Local Open Scope R_scope.

(** The pictures *)
Inductive picture :=
| Disc (c : vec) (r : R)
| Stroke (a b : vec)
| Curve (a p q b : vec)
| Label (at_ : vec) (t : text).
Definition picture_points (p : picture) (x : vec) : Prop :=
  match p with
  | Disc c r => exists a, x = V (vx c + r * degrees_cos a) (vy c + r * degrees_sin a)
  | Stroke a b => on_segment a b x
  | Curve a p q b => on_cubic a p q b x
  | Label c _ => x = c
  end.
Definition shows (cast : position -> result vec) (sh : shape) (p : picture) : Prop :=
  (forall x, covers cast sh x <-> picture_points p x) /\
  match p with Label _ t => exists q, sh = SText q t | _ => forall q t, sh <> SText q t end.

(** The pictures of an operation: a point is a disc with its label at the offset (whose ordinate goes down), and a line
    between them; a point built on a line from another point has this line; a line and a spline are drawn between their points. *)
Inductive role := RDisc | RArrow | RLabel | RConstruction | RLine.
Definition pictures (s : sketch) (size : R) (label : vec) (o : op) (l : list (role * picture)) : Prop :=
  if is_point (o_kind o) then exists v, o_vector o = Some v /\
    let at_ := V (vx v + vx label) (vy v - vy label) in
    exists rest, l = [(RDisc, Disc v size); (RArrow, Stroke v at_); (RLabel, Label at_ (lit (o_name o)))] ++ rest /\
    match o_kind o with
    | KAlong | KNormal | KEnd => exists a, at_ref s o 0 a /\ rest = [(RConstruction, Stroke a v)]
    | _ => rest = []
    end
  else match o_kind o with
    | KLine => exists a b, at_ref s o 0 a /\ at_ref s o 1 b /\ l = [(RLine, Stroke a b)]
    | KSpline => exists a b p q, at_ref s o 0 a /\ at_ref s o 1 b /\ o_controls o = Some (p, q) /\ l = [(RLine, Curve a p q b)]
    | _ => False
    end.
(** The style of a picture: the pen of the operation for its lines, the pen and the colour of the drawing otherwise; what is not
    given is as in a new style *)
Definition dressed (db : ModelColor.database) (black : ModelColor.color) (st : detail_style) (d : decoration) (r : role) (k : look) : Prop :=
  match r, k with
  | RLabel, LFont => True
  | RLabel, LPath _ | _, LFont => False
  | RDisc, LPath p => to_color db (k_point_color st) = Ok (s_fill_color p) /\
      s_stroke_style p = SolidLine /\ s_stroke_color p = Some black /\ s_line_width p = PArg (ModelColor.AFloat (ModelColor.of_int 1))
  | RArrow, LPath p => s_line_width p = k_label_width st /\ s_stroke_style p = SolidLine /\ s_stroke_color p = Some black /\ s_fill_color p = None
  | RConstruction, LPath p => to_stroke (d_style d) = Ok (s_stroke_style p) /\ to_color db (d_color d) = Ok (s_stroke_color p) /\
      s_line_width p = k_construction_width st /\ s_fill_color p = None
  | RLine, LPath p => to_stroke (d_style d) = Ok (s_stroke_style p) /\ to_color db (d_color d) = Ok (s_stroke_color p) /\
      s_line_width p = k_line_width st /\ s_fill_color p = None
  end.
(** What the drawing of an operation needs *)
Definition drawable (db : ModelColor.database) (s : sketch) (st : detail_style) (o : op) (d : decoration) : Prop :=
  (exists label l, (is_point (o_kind o) = true -> d_label d = Some label) /\ pictures s (k_point_size st) label o l) /\
  (is_point (o_kind o) = true -> exists c, to_color db (k_point_color st) = Ok c) /\
  (match o_kind o with KAlong | KNormal | KEnd | KLine | KSpline => True | _ => False end ->
     (exists x, to_stroke (d_style d) = Ok x) /\ exists c, to_color db (d_color d) = Ok c).
(** The operations refer to points. *)
Definition on_points (s : sketch) : Prop := forall i o k j, nth_error (ops s) i = Some o -> nth_error (o_refs o) k = Some j ->
  exists q, nth_error (ops s) j = Some q /\ is_point (o_kind q) = true.

(** Two points of the sketch do not have the same name. *)
Definition named_apart (s : sketch) : Prop := forall i j o p, nth_error (ops s) i = Some o -> nth_error (ops s) j = Some p ->
  is_point (o_kind o) = true -> is_point (o_kind p) = true -> o_name o = o_name p -> i = j.

(** The points of what an operation makes *)
Definition made_of (s : sketch) (o : op) (x : vec) : Prop :=
  if is_point (o_kind o) then o_vector o = Some x
  else match o_kind o with
    | KLine => exists a b, at_ref s o 0 a /\ at_ref s o 1 b /\ on_segment a b x
    | KSpline => exists a b p q, at_ref s o 0 a /\ at_ref s o 1 b /\ o_controls o = Some (p, q) /\ on_cubic a p q b x
    | _ => False
    end.
(** Its defining points: the points themselves, the ends of the lines and of the splines, the control points *)
Definition defined_by (s : sketch) (o : op) (x : vec) : Prop :=
  if is_point (o_kind o) then o_vector o = Some x
  else match o_kind o with
    | KLine => at_ref s o 0 x \/ at_ref s o 1 x
    | KSpline => at_ref s o 0 x \/ at_ref s o 1 x \/ exists p q, o_controls o = Some (p, q) /\ (x = p \/ x = q)
    | _ => False
    end.
Definition inside (b : box) (x : vec) : Prop := inf (bx b) <= vx x <= sup (bx b) /\ inf (by_ b) <= vy x <= sup (by_ b).
Definition smaller (b c : box) : Prop := inf (bx c) <= inf (bx b) /\ sup (bx b) <= sup (bx c) /\ inf (by_ c) <= inf (by_ b) /\ sup (by_ b) <= sup (by_ c).
(** An operation which has been evaluated makes something. *)
Definition made (s : sketch) (o : op) : Prop :=
  if is_point (o_kind o) then exists v, o_vector o = Some v
  else match o_kind o with
    | KLine => (exists a, at_ref s o 0 a) /\ exists b, at_ref s o 1 b
    | KSpline => (exists a, at_ref s o 0 a) /\ (exists b, at_ref s o 1 b) /\ o_controls o <> None
    | _ => False
    end.
