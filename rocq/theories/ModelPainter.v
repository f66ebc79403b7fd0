(** Model of what the painters draw: Patro/GraphicEngine/Painter/SvgPainter.py, DxfPainter.py,
    PdfPainter.py, MplPainter.py, TexPainter.py and QtPainter.py, over the real numbers, for one item;
    the loop on the items of a scene is in ModelScene.

    The figures stand for the calls to the libraries: an element of the SVG tree, a call to ezdxf,
    reportlab, matplotlib or QPainter.  A style counts by the attributes it gives, or the exception it
    raises. *)
From Coq Require Import String Ascii List Bool ZArith Reals.
From Flocq Require Import Core.
From Verif Require Import Base ModelFormula ModelMeasure ModelXml ModelVector ModelTransformation ModelLine ModelBezier.
From Verif Require ModelScene.
Import ModelScene(position, PVector, PName, PNumber, coordinates, cast_position).
Import ListNotations.
Local Open Scope R_scope.
Local Open Scope result_scope.

(** ** The items, GraphicItem.py 58-461; the font of a text and the pixels of an image are left out *)

(** GraphicItem.py 466-476 *)
Inductive part := LinearPart (p : position) | QuadraticPart (p q : position) | CubicPart (p q r : position).
Inductive shape :=
| SText (p : position) (t : text)
| SCircle (p : position) (radius start stop : R)
| SEllipse (p : position) (radius_x radius_y angle start stop : R)
| SSegment (p q : position)
| SRectangle (p q : position)
| SPolyline (l : list position)
| SPolygon (l : list position)
| SImage (p q : position)
| SCubic (p q r s : position)
| SQuadratic (p q r : position)
| SPath (p : position) (l : list part) (closed : bool).

(** ** The figures *)
Inductive figure :=
| FText (p : vec) (t : text)
| FDot (c : vec) (radius : R)                          (* a disc *)
| FEllipse (c : vec) (radius_x radius_y : R)
| FArc (c : vec) (radius_x radius_y : R) (start span : Z)  (* QPainter.drawArc, in 1/16 degree *)
| FLine (p q : vec)
| FCubic (p q r s : vec)
| FPolyline (l : list vec)
| FPolygon (l : list vec)
| FImage (p q : vec)
| FNothing.                                            (* an element without any figure *)

Section Painters.
(** The attributes of a figure, and how a painter gets them from the style of the item *)
Variables style ink : Type.
Variable graphic_style : style -> result ink.
(** The scene *)
Variable t : transformation.
Variable c : coordinates.

Definition mark : Type := figure * option ink.
Definition plain (f : figure) : result (list mark) := Ok [(f, None)].
Definition drawn (s : style) (f : figure) : result (list mark) := i <- graphic_style s ;; Ok [(f, Some i)].

(** Painter.py 132-133: cast_item_positions *)
Definition cast_all (cast : position -> result vec) (l : list position) : result (list vec) := traverse cast l.

(** *** SvgPainter *)

(** 68-70: the transformation, with Transformation.py 205-223 for the operator *= *)
Definition svg_transformation (b : box) : transformation :=
  imul (scale 10 (-10)) (translation (vneg (V (inf (bx b)) (sup (by_ b))))).
(** 82-83: cast_position *)
Definition svg_cast (b : box) (p : position) : result vec :=
  v <- cast_position t c p ;; Ok (apply (svg_transformation b) v).
(** 107-143: the methods paint_*.  A circle is a Text without text and without position; the path of a
    curve is made (its data is taken to be read back without error) and dropped. *)
Definition svg_item (b : box) (s : style) (sh : shape) : result (list mark) :=
  match sh with
  | SText p x => v <- svg_cast b p ;; plain (FText v x)
  | SCircle p _ _ _ => v <- svg_cast b p ;; plain FNothing
  | SSegment p q => l <- cast_all (svg_cast b) [p; q] ;;
      match l with [a; b] => drawn s (FLine a b) | _ => Raise ValueError end
  | SCubic p q r x => l <- cast_all (svg_cast b) [p; q; r; x] ;; i <- graphic_style s ;; Ok []
  | SRectangle _ _ | _ => Raise NotImplementedError
  end.

(** *** EzdxfPainter *)

(** 105-106: cast_position *)
Definition dxf_cast (p : position) : result vec := v <- cast_position t c p ;; Ok (vscale v 10).
(** 123-157; the spline of degree 3 with four points is the Bézier curve of these points *)
Definition dxf_item (s : style) (sh : shape) : result (list mark) :=
  match sh with
  | SText p x => v <- dxf_cast p ;; plain (FText v x)
  | SCircle p _ _ _ => Ok []
  | SSegment p q => l <- cast_all dxf_cast [p; q] ;;
      match l with [a; b] => drawn s (FLine a b) | _ => Raise TypeError end
  | SCubic p q r x => l <- cast_all dxf_cast [p; q; r; x] ;;
      match l with [a; b; d; e] => drawn s (FCubic a b d e) | _ => Raise TypeError end
  | _ => Raise NotImplementedError
  end.

(** *** ReportlabPainter *)

(** reportlab.lib.units *)
Definition cm : R := 72 / 2.54.
Definition mm : R := cm / 10.
(** 114-115: cast_position *)
Definition pdf_cast (p : position) : result vec := v <- cast_position t c p ;; Ok (vscale (vscale v cm) 0.7).
(** 100-103: the translations of the canvas *)
Definition pdf_canvas (b : box) (v : vec) : vec :=
  V (vx v + - inf (bx b) * cm + 1 * cm) (vy v + - inf (by_ b) * cm + 1 * cm).
Definition pdf_place (b : box) (p : position) : result vec := v <- pdf_cast p ;; Ok (pdf_canvas b v).
(** 130-158, on the page; the styles are not used *)
Definition pdf_item (b : box) (s : style) (sh : shape) : result (list mark) :=
  match sh with
  | SText p x => v <- pdf_place b p ;; plain (FText v x)
  | SCircle p _ _ _ => v <- pdf_place b p ;; plain (FDot v (2 * mm))
  | SSegment p q => l <- cast_all (pdf_place b) [p; q] ;;
      match l with [a; b] => plain (FLine a b) | _ => Raise TypeError end
  | SCubic p q r x => l <- cast_all (pdf_place b) [p; q; r; x] ;;
      match l with [a; b; d; e] => plain (FCubic a b d e) | _ => Raise TypeError end
  | _ => Raise NotImplementedError
  end.
(** 162-168: PdfPainter; the keyword driver *)
Definition pdf_driver (driver : option text) : result unit :=
  match driver with
  | None => Raise KeyError
  | Some d => if text_eqb d (lit "reportlab") then Ok tt else Raise KeyError
  end.
(** DxfPainter.py 163-168: DxfPainter *)
Definition dxf_driver (driver : option text) : result unit :=
  let d := match driver with Some d => d | None => lit "ezdxf" end in
  if text_eqb d (lit "ezdxf") then Ok tt else Raise KeyError.

(** *** MplPainter, 94-125 *)
Definition mpl_item (s : style) (sh : shape) : result (list mark) :=
  match sh with
  | SText p x => v <- cast_position t c p ;; plain (FText v x)
  | SCircle p _ _ _ => v <- cast_position t c p ;; plain (FDot v 0.5)
  | SSegment p q => l <- cast_all (cast_position t c) [p; q] ;;
      match l with [a; b] => drawn s (FLine a b) | _ => Raise ValueError end
  | SCubic p q r x => l <- cast_all (cast_position t c) [p; q; r; x] ;;
      match l with [a; b; d; e] => drawn s (FCubic a b d e) | _ => Raise ValueError end
  | _ => Raise NotImplementedError
  end.

(** *** QtPainter *)

(** int() of a float *)
Definition truncate (x : R) : Z := Ztrunc x.
(** 306-321: _paint_arc; GraphicItemMixin.py 341-343: is_closed *)
Definition qt_arc (v : vec) (rx ry start stop : R) : figure :=
  if Rleb 360 (Rabs (stop - start)) then FEllipse v rx ry
  else
    let start_angle := truncate (start * 16) in
    let stop_angle := truncate (stop * 16) in
    let span := (stop_angle - start_angle)%Z in
    let span := if (span <? 0)%Z then (5760 + span)%Z else span in
    FArc v rx ry start_angle span.

(** The conversions to the window: 173-181 (class QtPainter, for to_svg) or the ones of the viewport *)
Variable place : vec -> result vec.
Variable length_to_viewport : R -> R.
(** 193-199: cast_position *)
Definition qt_cast (p : position) : result vec := v <- cast_position t c p ;; place v.

(** 349-376: _paint_cubic *)
Definition qt_cubic (s : style) (show_control : bool) (l : list vec) : result (list mark) :=
  match l with
  | [p; q; r; x] =>
      m <- drawn s (FCubic p q r x) ;;
      Ok (m ++ if show_control then (FPolyline l, None) :: map (fun v => (FDot v 3, None)) l else [])
  | _ => Raise TypeError
  end.

(** GraphicItem.py 393-397: cubic_positions, before they are cached *)
Definition cubic_positions (p q r : position) : result (list position) :=
  l <- traverse (cast_position t c) [p; q; r] ;;
  match l with
  | [a; b; d] => k <- to_cubic (Quad a b d) ;; Ok (map PVector [c0 k; c1 k; c2 k; c3p k])
  | _ => Raise TypeError
  end.

(** 438-451: the parts of a path; the positions of a curve are a tuple, which cast_position does not know *)
Fixpoint qt_parts (l : list part) : result (list vec) :=
  match l with
  | [] => Ok []
  | LinearPart p :: l => v <- qt_cast p ;; m <- qt_parts l ;; Ok (v :: m)
  | _ :: _ => Raise UnboundLocalError
  end.

(** 325-472: the methods paint_* *)
Definition qt_item (s : style) (show_control : bool) (sh : shape) : result (list mark) :=
  match sh with
  | SText p x => v <- qt_cast p ;; plain (FText v x)
  | SCircle p r start stop =>
      v <- qt_cast p ;; drawn s (qt_arc v (length_to_viewport r) (length_to_viewport r) start stop)
  | SEllipse p rx ry angle start stop =>
      v <- qt_cast p ;; drawn s (qt_arc v (length_to_viewport rx) (length_to_viewport ry) start stop)
  | SSegment p q => l <- cast_all qt_cast [p; q] ;;
      match l with [a; b] => drawn s (FLine a b) | _ => Raise TypeError end
  | SRectangle _ _ => Raise NotImplementedError
  | SPolyline l => m <- cast_all qt_cast l ;;
      match m with [] => Raise IndexError | _ => drawn s (FPolyline m) end
  | SPolygon l => m <- cast_all qt_cast l ;; drawn s (FPolygon m)
  | SImage p q => l <- cast_all qt_cast [p; q] ;;
      match l with [a; b] => plain (FImage a b) | _ => Raise TypeError end
  | SCubic p q r x => l <- cast_all qt_cast [p; q; r; x] ;; qt_cubic s show_control l
  | SQuadratic p q r => k <- cubic_positions p q r ;; l <- cast_all qt_cast k ;; qt_cubic s show_control l
  | SPath p l closed => v <- qt_cast p ;; m <- qt_parts l ;; drawn s (FPolyline (v :: m))
  end.
End Painters.

(** 173-181: the conversions of to_svg *)
Definition to_svg_place (k : R) (v : vec) : result vec := Ok (V (vx v * k) (vy v * k)).
Definition to_svg_length (k x : R) : R := x * k.

(** ** TexPainter *)

(** '{:.2f}'.format: the closest number of hundredths, the even one when there are two *)
Definition two_digits (n : Z) : text := int_str (n / 10) ++ int_str (n mod 10).
Definition format2 (x : R) : text :=
  let n := ZnearestE (Rabs x * 100) in
  (if Rltb x 0 then lit "-" else []) ++ int_str (n / 100) ++ lit "." ++ two_digits (n mod 100).
(** 99-103: _format_position; something else gives None, whose text is None *)
Definition format_position (p : position) : text :=
  match p with
  | PName name => lit "(" ++ name ++ lit ")"
  | PVector v => lit "(" ++ format2 (vx v) ++ lit "," ++ format2 (vy v) ++ lit ")"
  | PNumber _ => lit "None"
  end.
(** 114-117: paint_CoordinateItem *)
Definition tex_coordinate (name : text) (v : vec) : text :=
  lit "\coordinate (" ++ name ++ lit ") at " ++ format_position (PVector v) ++ lit ";" ++ [ascii_of_nat 10].
(** 121-143: the methods paint_*; [path_style] is the text of TikzFigure.format_path_style *)
Definition tex_item (path_style : result text) (sh : shape) : result text :=
  match sh with
  | SText p x => Ok (lit "\draw[] " ++ format_position p ++ lit " node[anchor=north west] {" ++ x ++ lit "};" ++ [ascii_of_nat 10])
  | SCircle p _ _ _ => Ok (lit "\fill [black] " ++ format_position p ++ lit " circle (1pt);" ++ [ascii_of_nat 10])
  | SSegment p q => s <- path_style ;;
      Ok (lit "\draw[" ++ s ++ lit "] " ++ format_position p ++ lit " -- " ++ format_position q ++ lit ";" ++ [ascii_of_nat 10])
  | SCubic p q r x => s <- path_style ;;
      Ok (lit "\draw[" ++ s ++ lit "] " ++ format_position p ++ lit " .. controls " ++ format_position q ++ lit " and " ++
          format_position r ++ lit " .. " ++ format_position x ++ lit ";" ++ [ascii_of_nat 10])
  | _ => Raise NotImplementedError
  end.
(** 107-110: paint, the lines of a figure; the items are given in the order of the scene *)
Definition tex_figure (c : coordinates) (l : list (result text * shape)) : result (list text) :=
  m <- traverse (fun x => tex_item (fst x) (snd x)) l ;;
  Ok (map (fun x => tex_coordinate (fst x) (snd x)) c ++ m).

(** ** The pen of QtPainter *)

From Flocq Require Import BinarySingleNaN.
From Verif Require Import ModelStyle.
From Verif Require Import ModelColor.

(** QColor: red, or the colour of a style and its alpha *)
Inductive shade := Red | Shade (c : color) (alpha : float).
Record pen := Pen { p_shade : shade; p_width : float; p_stroke : stroke_style; p_cap : cap_style; p_join : join_style }.
(** The pen and the brush of the QPainter *)
Record qpainter := QPainter { q_pen : pen; q_brush : option shade }.
(** 203-247: _set_pen; the tables 72-92 are one to one.  The test of 233 compares a style of Qt with a
    StrokeStyle, it is never true. *)
Definition set_pen (read_float : text -> result float) (selected : bool) (s : path_style) (q : qpainter) : result qpainter :=
  let color := if selected then Some Red
               else match s_stroke_color s with Some c => Some (Shade c (s_stroke_alpha s)) | None => None end in
  width <- to_number read_float (s_line_width s) ;;
  let width := if selected then fmul width (of_int 4) else width in
  let '(color, brush) :=
    match s_fill_color s with
    | Some c => (Some (Shade c (s_fill_alpha s)), Some (Shade c (s_fill_alpha s)))
    | None => (color, None)
    end in
  match color with
  | None => Ok (QPainter (q_pen q) brush)
  | Some k => Ok (QPainter (Pen k width (s_stroke_style s) (s_cap_style s) (s_join_style s)) brush)
  end.
(** The pens and brushes of items painted one after the other; in between the painter may do anything
    ([between]), as the control points of a curve do. *)
Fixpoint pens (read_float : text -> result float) (between : qpainter -> qpainter) (l : list (bool * path_style)) (q : qpainter) : result (list qpainter) :=
  match l with
  | [] => Ok []
  | (selected, s) :: l => q <- set_pen read_float selected s q ;; m <- pens read_float between l (between q) ;; Ok (q :: m)
  end.
