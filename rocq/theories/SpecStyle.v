(** What the attributes of a style are. *)
From Coq Require Import String Ascii List Bool ZArith.
From Flocq Require Import BinarySingleNaN.
From Verif Require Import Base ModelFormula ModelMeasure ModelStyle.
From Verif Require ModelColor.
Import ModelColor(float, color, database, getitem, of_int, AColor, AFloat, AInt, AText).
Import ListNotations.

(** The style has the documented value for each attribute which is not given, and the value given for
    each attribute which is given *)
Definition given {A} (k : kwargs) (name : text) (default : A) (reads : value -> result A) (x : A) : Prop :=
  (forall v, lookup k name = Some v -> reads v = Ok x) /\ (lookup k name = None -> x = default).
Definition made_of read_float (db : database) (black : color) (k : kwargs) (s : path_style) : Prop :=
  given k (lit "stroke_style") SolidLine to_stroke (s_stroke_style s) /\
  given k (lit "line_width") (PArg (AFloat (of_int 1))) (fun v => Ok v) (s_line_width s) /\
  given k (lit "stroke_color") (Some black) (to_color db) (s_stroke_color s) /\
  given k (lit "stroke_alpha") (of_int 1) (to_number read_float) (s_stroke_alpha s) /\
  given k (lit "fill_color") None (to_color db) (s_fill_color s) /\
  given k (lit "fill_alpha") (of_int 1) (to_number read_float) (s_fill_alpha s) /\
  given k (lit "cap_style") SquareCap to_cap (s_cap_style s) /\
  given k (lit "join_style") BevelJoin to_join (s_join_style s).

(** The numbers of the members. *)
Definition stroke_number (s : stroke_style) : Z :=
  match s with NoPen => 1 | SolidLine => 2 | DashLine => 3 | DotLine => 4 | DashDotLine => 5 | DashDotDotLine => 6 end.
Definition cap_number (c : cap_style) : Z := match c with FlatCap => 1 | SquareCap => 2 | RoundCap => 3 end.
Definition join_number (j : join_style) : Z := match j with MiterJoin => 1 | BevelJoin => 2 | RoundJoin => 3 | SvgMiterJoin => 4 end.

(** The values which are false in Python. *)
Inductive falsy : value -> Prop :=
| falsy_none : falsy PNone
| falsy_false : falsy (PBool false)
| falsy_int : falsy (PArg (AInt 0))
| falsy_float : forall s, falsy (PArg (AFloat (B754_zero s)))
| falsy_text : falsy (PArg (AText [])).

(** An attribute, and the value a setter makes of its argument *)
Definition attribute_of (s : path_style) (a : attribute) : value :=
  match a with
  | SStrokeStyle => PStroke (s_stroke_style s)
  | SLineWidth => s_line_width s
  | SStrokeColor => of_color (s_stroke_color s)
  | SStrokeAlpha => PArg (AFloat (s_stroke_alpha s))
  | SFillColor => of_color (s_fill_color s)
  | SFillAlpha => PArg (AFloat (s_fill_alpha s))
  | SCapStyle => PCap (s_cap_style s)
  | SJoinStyle => PJoin (s_join_style s)
  end.
Definition converted (rf : text -> result float) (db : database) (a : attribute) (v w : value) : Prop :=
  match a with
  | SStrokeStyle => exists x, to_stroke v = Ok x /\ w = PStroke x
  | SLineWidth => w = v
  | SStrokeColor | SFillColor => exists x, to_color db v = Ok x /\ w = of_color x
  | SStrokeAlpha | SFillAlpha => exists x, to_number rf v = Ok x /\ w = PArg (AFloat x)
  | SCapStyle => exists x, to_cap v = Ok x /\ w = PCap x
  | SJoinStyle => exists x, to_join v = Ok x /\ w = PJoin x
  end.
