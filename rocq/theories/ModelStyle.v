(** Model of Patro/GraphicStyle/__init__.py and of Patro/GraphicEngine/GraphicScene/GraphicStyle.py,
    and of the TikZ options of a style, Patro/GraphicEngine/TeX/Tikz.py. *)
From Coq Require Import String Ascii List Bool Arith ZArith.
From Flocq Require Import Core BinarySingleNaN.
From Verif Require Import Base ModelFormula ModelMeasure ModelXml.
From Verif Require ModelColor.
Import ModelColor(float, color, c_name, argument, AInt, AFloat, AText, AColor, AOther, database, getitem, ensure_color, of_int).
Import ListNotations.
Local Open Scope result_scope.

(** GraphicStyle/__init__.py 43-76: the enumerations; a member has the values 1, 2, ... *)
Inductive stroke_style := NoPen | SolidLine | DashLine | DotLine | DashDotLine | DashDotDotLine.
Inductive cap_style := FlatCap | SquareCap | RoundCap.
Inductive join_style := MiterJoin | BevelJoin | RoundJoin | SvgMiterJoin.
Definition strokes : list stroke_style := [NoPen; SolidLine; DashLine; DotLine; DashDotLine; DashDotDotLine].
Definition caps : list cap_style := [FlatCap; SquareCap; RoundCap].
Definition joins : list join_style := [MiterJoin; BevelJoin; RoundJoin; SvgMiterJoin].

(** Python values: a member, None, a bool, a number, a text, a colour, something else *)
Inductive value := PNone | PBool (b : bool) | PStroke (s : stroke_style) | PCap (c : cap_style) | PJoin (j : join_style) | PArg (a : argument).

(** The call of an enumeration: a member, or the number of one.  Floats and bools equal to a number
    are not modelled. *)
Definition by_number {A} (l : list A) (z : Z) : result A :=
  if (z <=? 0)%Z then Raise ValueError else match nth_error l (Z.to_nat z - 1) with Some x => Ok x | None => Raise ValueError end.
Definition to_stroke (v : value) : result stroke_style :=
  match v with PStroke s => Ok s | PArg (AInt z) => by_number strokes z | _ => Raise ValueError end.
Definition to_cap (v : value) : result cap_style :=
  match v with PCap c => Ok c | PArg (AInt z) => by_number caps z | _ => Raise ValueError end.
Definition to_join (v : value) : result join_style :=
  match v with PJoin j => Ok j | PArg (AInt z) => by_number joins z | _ => Raise ValueError end.

Section Style.
(** float of a text *)
Variable read_float : text -> result float.
(** The data base of colours, Colors *)
Variable db : database.

(** float *)
Definition to_number (v : value) : result float :=
  match v with
  | PArg (AInt z) => let x := of_int z in match x with B754_infinity _ => Raise OverflowError | _ => Ok x end
  | PArg (AFloat x) => Ok x
  | PArg (AText s) => read_float s
  | PBool b => Ok (of_int (if b then 1 else 0))
  | _ => Raise TypeError
  end.
(** Colors.ensure_color *)
Definition to_color (v : value) : result (option color) :=
  match v with PNone => ensure_color db None | PArg a => ensure_color db (Some a) | _ => Raise ValueError end.
(** bool: members and colours are true *)
Definition to_bool (v : value) : bool :=
  match v with
  | PNone => false
  | PBool b => b
  | PArg (AInt z) => negb (z =? 0)%Z
  | PArg (AFloat (B754_zero _)) => false
  | PArg (AText []) => false
  | _ => true
  end.
Definition of_color (c : option color) : value := match c with Some c => PArg (AColor c) | None => PNone end.

(** GraphicStyle.py 70-80: the attributes of a path style *)
Record path_style := PathStyle {
  s_stroke_style : stroke_style; s_line_width : value; s_stroke_color : option color; s_stroke_alpha : float;
  s_fill_color : option color; s_fill_alpha : float; s_cap_style : cap_style; s_join_style : join_style }.
Definition kwargs := list (text * value).
Definition get (k : kwargs) (name : text) (default : value) : value := match lookup k name with Some v => v | None => default end.
(** 53-80: the constructor, with the setters 113-184 *)
Definition new_style (k : kwargs) : result path_style :=
  stroke <- to_stroke (get k (lit "stroke_style") (PStroke SolidLine)) ;;
  let width := get k (lit "line_width") (PArg (AFloat (of_int 1))) in
  black <- getitem db (lit "black") ;;
  color <- to_color (get k (lit "stroke_color") (PArg (AColor black))) ;;
  alpha <- to_number (get k (lit "stroke_alpha") (PArg (AFloat (of_int 1)))) ;;
  fill <- to_color (get k (lit "fill_color") PNone) ;;
  fill_alpha <- to_number (get k (lit "fill_alpha") (PArg (AFloat (of_int 1)))) ;;
  cap <- to_cap (get k (lit "cap_style") (PCap SquareCap)) ;;
  join <- to_join (get k (lit "join_style") (PJoin BevelJoin)) ;;
  Ok (PathStyle stroke width color alpha fill fill_alpha cap join).
(** 84-95: _to_dict *)
Definition style_dict (s : path_style) : kwargs :=
  [(lit "stroke_style", PStroke (s_stroke_style s)); (lit "line_width", s_line_width s);
   (lit "stroke_color", of_color (s_stroke_color s)); (lit "fill_color", of_color (s_fill_color s))].
(** 99-100: clone *)
Definition clone_style (s : path_style) : result path_style := new_style (style_dict s).

(** 188-229: Bézier styles *)
Record bezier_style := BezierStyle { b_path : path_style; b_show_control : bool; b_control_color : option color }.
Definition new_bezier_style (k : kwargs) : result bezier_style :=
  s <- new_style k ;;
  let show := to_bool (get k (lit "show_control") (PBool false)) in
  color <- to_color (get k (lit "control_color") PNone) ;;
  Ok (BezierStyle s show color).
(** 205-209 *)
Definition bezier_dict (s : bezier_style) : kwargs :=
  [(lit "show_control", PBool (b_show_control s)); (lit "control_color", of_color (b_control_color s))].
Definition clone_bezier_style (s : bezier_style) : result bezier_style := new_bezier_style (bezier_dict s).

(** The setters, 113-184 *)
Inductive attribute := SStrokeStyle | SLineWidth | SStrokeColor | SStrokeAlpha | SFillColor | SFillAlpha | SCapStyle | SJoinStyle.
Definition set_style (s : path_style) (a : attribute) (v : value) : result path_style :=
  match s with
  | PathStyle st w c al f fa ca jo =>
      match a with
      | SStrokeStyle => x <- to_stroke v ;; Ok (PathStyle x w c al f fa ca jo)
      | SLineWidth => Ok (PathStyle st v c al f fa ca jo)
      | SStrokeColor => x <- to_color v ;; Ok (PathStyle st w x al f fa ca jo)
      | SStrokeAlpha => x <- to_number v ;; Ok (PathStyle st w c x f fa ca jo)
      | SFillColor => x <- to_color v ;; Ok (PathStyle st w c al x fa ca jo)
      | SFillAlpha => x <- to_number v ;; Ok (PathStyle st w c al f x ca jo)
      | SCapStyle => x <- to_cap v ;; Ok (PathStyle st w c al f fa x jo)
      | SJoinStyle => x <- to_join v ;; Ok (PathStyle st w c al f fa ca x)
      end
  end.

(** Tikz.py 32-38: __STROKE_STYLE__; NoPen has the value None *)
Definition tikz_stroke (s : stroke_style) : result (option text) :=
  match s with
  | DashLine => Ok (Some (lit "dash pattern=on 5mm off 5mm"))
  | DashDotLine => Ok (Some (lit "dash pattern=on 5mm off 4mm on 2mm off 4mm"))
  | DotLine => Ok (Some (lit "dash pattern=on 2mm off 2mm"))
  | NoPen => Ok None
  | SolidLine => Ok (Some (lit "solid"))
  | DashDotDotLine => Raise KeyError
  end.
(** 41-52: format_path_style; [str] is the text of a value *)
Definition tikz_style (str : value -> text) (s : path_style) : result text :=
  stroke <- tikz_stroke (s_stroke_style s) ;;
  name <- match s_stroke_color s with Some c => Ok (c_name c) | None => Raise AttributeError end ;;
  Ok (join (lit ", ")
        ((lit "line width=" ++ str (s_line_width s)) ::
         match stroke with Some t => [t] | None => [] end ++ match name with Some n => [n] | None => [] end)).
End Style.
