(** Model of Patro/FileFormat/Valentina/VitFormat.py (the calculations) and Pattern.py (their dispatch,
    reading and writing).  Texts are lists of Latin-1 characters; the floating point numbers of the
    labels, their reading and their writing are parameters, and so is the parsing of expressions. *)
From Coq Require Import String Ascii List Bool Arith ZArith.
From Verif Require Import Base ModelFormula ModelMeasure.
From Verif Require ModelXml ModelColor ModelStyle ModelSketch.
Import ModelXml(int_str, int_parse, xml_char).
Import ModelColor(color, color_str, database, ensure_color, AText, AColor, AOther).
Import ModelStyle(stroke_style, NoPen, SolidLine, DashLine, DotLine, DashDotLine, DashDotDotLine).
Import ModelSketch(kind, KOperation, KPoint, KSingle, KAlong, KEnd, KIntersect, KNormal, KContact, KIntersection, KLine, KSpline,
  is_point, sketch, ops, o_kind, o_id, o_name, o_refs, reference, RId, RForeign, Args, add_op, expr, new_sketch, eval_sketch).
Import ListNotations.
Local Open Scope result_scope.

(** ** The attributes *)
(** VitFormat.py 76-126, Objectivity.py 149-204: the classes of attributes used by the calculations *)
Inductive akind := AInt | AFloat | AString | AColour | AStroke.
(** Objectivity.py 51-64: an attribute; no calculation gives a default *)
Record attribute := Attr { a_py : text; a_xml : text; a_kind : akind }.
Definition attr (py : string) (k : akind) : attribute := Attr (lit py) (lit py) k.
Definition attr2 (py xml : string) (k : akind) : attribute := Attr (lit py) (lit xml) k.

(** ** The classes *)
(** Objectivity.py 208-244: a class is the value of its __attributes__, own or inherited, and its
    __mro__ without itself and object *)
Inductive cls := Class (value : list attribute) (mro : list cls).
Fixpoint register (c : cls) : list attribute :=
  match c with Class value mro => flat_map register mro ++ value end.
(** The attributes of a class made by the metaclass, from its bases and the value of __attributes__ *)
Definition table_of (bases : list cls) (value : list attribute) : list attribute := flat_map register bases ++ value.

(** VitFormat.py 274-382: the mixins *)
Definition a_mxmy := [attr "mx" AFloat; attr "my" AFloat].
Definition a_id := [attr "id" AInt].
Definition a_line := [attr2 "line_color" "lineColor" AColour; attr2 "line_style" "typeLine" AStroke].
Definition a_xy := [attr "x" AString; attr "y" AString].
Definition a_first_second := [attr2 "first_point" "firstPoint" AInt; attr2 "second_point" "secondPoint" AInt].
Definition a_base := [attr2 "base_point" "basePoint" AInt].
Definition a_line1 := [attr2 "point1_line1" "p1Line1" AInt; attr2 "point2_line1" "p2Line1" AInt].
Definition a_line2 := [attr2 "point1_line2" "p1Line2" AInt; attr2 "point2_line2" "p2Line2" AInt].
Definition a_length := [attr "length" AString].
Definition a_angle := [attr "angle" AString].
Definition a_center := [attr "center" AInt; attr "radius" AString].
Definition a_name := [attr "name" AString].
Definition a_spline := [attr2 "first_point" "point1" AInt; attr2 "second_point" "point4" AInt;
  attr "length1" AString; attr "length2" AString; attr "angle1" AString; attr "angle2" AString;
  attr2 "line_color" "color" AString].
Definition MxMyMixin := Class a_mxmy [].
Definition CalculationMixin := Class a_id [].
Definition CalculationTypeMixin := Class a_id [CalculationMixin].
Definition LinePropertiesMixin := Class a_line [].
Definition XyMixin := Class a_xy [].
Definition FirstSecondPointMixin := Class a_first_second [].
Definition BasePointMixin := Class a_base [].
Definition Line1Mixin := Class a_line1 [].
Definition Line2Mixin := Class a_line2 [].
Definition Line12Mixin := Class a_line1 [Line1Mixin; Line2Mixin].
Definition LengthMixin := Class a_length [].
Definition AngleMixin := Class a_angle [].
Definition LengthAngleMixin := Class a_length [LengthMixin; AngleMixin].
Definition CenterRadiusMixin := Class a_center [].
Definition XmlObjectAdaptator := Class [] [].
(** 385-414: PointMixin, PointLinePropertiesMixin; 627: SplineMixin *)
Definition PointMixin := Class a_name [CalculationTypeMixin; CalculationMixin; MxMyMixin].
Definition PointLinePropertiesMixin := Class a_name [PointMixin; CalculationTypeMixin; CalculationMixin; MxMyMixin; LinePropertiesMixin].
Definition SplineMixin := Class a_id [CalculationTypeMixin; CalculationMixin].

(** 418-649: the class of the calculations of a kind of operation, through __operation__; Pattern.py
    124-143: the mapping.  The other kinds have none. *)
Definition table (k : kind) : result (list attribute) :=
  match k with
  | KAlong => Ok (table_of [PointLinePropertiesMixin; FirstSecondPointMixin; LengthMixin; XmlObjectAdaptator] a_name)
  | KEnd => Ok (table_of [PointLinePropertiesMixin; BasePointMixin; LengthAngleMixin; XmlObjectAdaptator] a_name)
  | KIntersect => Ok (table_of [PointMixin; Line12Mixin; XmlObjectAdaptator] a_name)
  | KNormal => Ok (table_of [PointLinePropertiesMixin; FirstSecondPointMixin; LengthAngleMixin; XmlObjectAdaptator] a_name)
  | KContact => Ok (table_of [PointMixin; FirstSecondPointMixin; CenterRadiusMixin; XmlObjectAdaptator] a_name)
  | KIntersection => Ok (table_of [PointMixin; FirstSecondPointMixin; XmlObjectAdaptator] a_name)
  | KSingle => Ok (table_of [PointMixin; XyMixin; XmlObjectAdaptator] a_name)
  | KLine => Ok (table_of [CalculationMixin; LinePropertiesMixin; FirstSecondPointMixin; XmlObjectAdaptator] a_id)
  | KSpline => Ok (table_of [SplineMixin; XmlObjectAdaptator] a_spline)
  | KOperation | KPoint => Raise KeyError
  end.
(** __tag__ and __type__ *)
Definition tag_of (k : kind) : text :=
  match k with KLine => lit "line" | KSpline => lit "spline" | _ => lit "point" end.
Definition type_of (k : kind) : option text :=
  match k with
  | KAlong => Some (lit "alongLine") | KEnd => Some (lit "endLine") | KIntersect => Some (lit "lineIntersect")
  | KNormal => Some (lit "normal") | KContact => Some (lit "pointOfContact") | KIntersection => Some (lit "pointOfIntersection")
  | KSingle => Some (lit "single") | KSpline => Some (lit "simpleInteractive") | KLine | KOperation | KPoint => None
  end.

(** ** Dispatch of the elements *)
(** VitFormat.py 579-602: Point.__TYPES__; 686-691: Spline.__TYPES__ *)
Definition point_types : list (text * option kind) :=
  [ (lit "alongLine", Some KAlong); (lit "bisector", None); (lit "curveIntersectAxis", None); (lit "cutArc", None);
    (lit "cutSpline", None); (lit "cutSplinePath", None); (lit "endLine", Some KEnd); (lit "height", None);
    (lit "lineIntersect", Some KIntersect); (lit "lineIntersectAxis", None); (lit "normal", Some KNormal);
    (lit "pointFromArcAndTangent", None); (lit "pointFromCircleAndTangent", None); (lit "pointOfContact", Some KContact);
    (lit "pointOfIntersection", Some KIntersection); (lit "pointOfIntersectionArcs", None);
    (lit "pointOfIntersectionCircles", None); (lit "pointOfIntersectionCurves", None); (lit "shoulder", None);
    (lit "single", Some KSingle); (lit "triangle", None); (lit "trueDarts", None) ].
Definition spline_types : list (text * option kind) :=
  [ (lit "cubicBezier", None); (lit "cubicBezierPath", None); (lit "pathInteractive", None); (lit "simpleInteractive", Some KSpline) ].
(** Pattern.py 104-111: the tags: a class, or the types of a class, or None *)
Inductive tag := TagNone | TagKind (k : kind) | TagTypes (l : list (text * option kind)).
Definition tags : list (text * tag) :=
  [ (lit "arc", TagNone); (lit "ellipse", TagNone); (lit "line", TagKind KLine); (lit "operation", TagNone);
    (lit "point", TagTypes point_types); (lit "spline", TagTypes spline_types) ].
(** An XML element: its tag and its attributes; the children of the calculations are not read *)
Record element := Element { e_tag : text; e_attrib : list (text * text) }.
(** Pattern.py 145-157: from_xml, the class *)
Definition dispatch (e : element) : result kind :=
  match lookup tags (e_tag e) with
  | None => Raise KeyError
  | Some TagNone => Raise NotImplementedError
  | Some (TagKind k) => Ok k
  | Some (TagTypes l) =>
      match lookup (e_attrib e) (lit "type") with
      | None => Raise KeyError
      | Some t =>
          match lookup l t with
          | None => Raise KeyError
          | Some None => Raise NotImplementedError
          | Some (Some k) => Ok k
          end
      end
  end.

(** ** The operations *)
(** SketchOperation.py: the attributes of the operations which are references and expressions, in the
    order of ModelSketch, and whether the kind has the line properties *)
Definition point_names (k : kind) : list text :=
  match k with
  | KAlong | KNormal | KIntersection | KLine | KSpline => [lit "first_point"; lit "second_point"]
  | KEnd => [lit "base_point"]
  | KIntersect => [lit "point1_line1"; lit "point2_line1"; lit "point1_line2"; lit "point2_line2"]
  | KContact => [lit "first_point"; lit "second_point"; lit "center"]
  | KOperation | KPoint | KSingle => []
  end.
Definition expression_names (k : kind) : list text :=
  match k with
  | KSingle => [lit "x"; lit "y"]
  | KAlong => [lit "length"]
  | KEnd | KNormal => [lit "angle"; lit "length"]
  | KContact => [lit "radius"]
  | KSpline => [lit "angle1"; lit "length1"; lit "angle2"; lit "length2"]
  | _ => []
  end.
Definition has_line (k : kind) : bool := match k with KAlong | KEnd | KNormal | KLine | KSpline => true | _ => false end.

Section Valentina.
Variable float : Type.
Variable float_str : float -> text.
Variable float_parse : text -> result float.
(** Colors, and Colors.black *)
Variable db : database.
Variable black : color.
(** The syntax tree of an expression *)
Variable parse : text -> expr.

(** Python values: an operation is known by its id *)
Inductive pyval := PNone | PText (s : text) | PInt (z : Z) | PFloat (x : float) | PExpr (s : text) | POp (id : Z)
  | PColor (c : color) | PStroke (s : stroke_style).

(** str; the text of an operation is not modelled: references are integer attributes *)
Definition stroke_name (s : stroke_style) : text :=
  match s with
  | NoPen => lit "NoPen" | SolidLine => lit "SolidLine" | DashLine => lit "DashLine" | DotLine => lit "DotLine"
  | DashDotLine => lit "DashDotLine" | DashDotDotLine => lit "DashDotDotLine"
  end.
Definition py_str (v : pyval) : result text :=
  match v with
  | PNone => Ok (lit "None")
  | PText s | PExpr s => Ok s
  | PInt z => Ok (int_str z)
  | PFloat x => Ok (float_str x)
  | POp _ => Raise NotImplementedError
  | PColor c => color_str c
  | PStroke s => Ok (lit "StrokeStyle." ++ stroke_name s)
  end.
(** VitFormat.py 108-119: __STROKE_STYLE__ in the two directions *)
Definition stroke_text (s : stroke_style) : text :=
  match s with
  | DashDotDotLine => lit "dashDotDotLine" | DashDotLine => lit "dashDotLine" | DashLine => lit "dashLine"
  | DotLine => lit "dotLine" | SolidLine => lit "hair" | NoPen => lit "none"
  end.
Definition stroke_texts : list (text * stroke_style) :=
  [ (lit "dashDotDotLine", DashDotDotLine); (lit "dashDotLine", DashDotLine); (lit "dashLine", DashLine);
    (lit "dotLine", DotLine); (lit "hair", SolidLine); (lit "none", NoPen) ].
(** VitFormat.py 99-100, 124-125, Objectivity.py 149-204: from_xml, of a text or of a python value;
    Object.py 88-89: int of an operation *)
Definition from_xml (k : akind) (v : pyval) : result pyval :=
  match k with
  | AInt =>
      match v with
      | PText s => z <- int_parse s ;; Ok (PInt z)
      | PInt z | POp z => Ok (PInt z)
      | _ => Raise TypeError
      end
  | AFloat =>
      match v with
      | PText s => x <- float_parse s ;; Ok (PFloat x)
      | PFloat x => Ok (PFloat x)
      | _ => Raise TypeError
      end
  | AString => s <- py_str v ;; Ok (PText s)
  | AColour =>
      match v with
      | PNone => Ok PNone
      | PText s => c <- ensure_color db (Some (AText s)) ;; Ok (match c with Some c => PColor c | None => PNone end)
      | PColor c => c <- ensure_color db (Some (AColor c)) ;; Ok (match c with Some c => PColor c | None => PNone end)
      | _ => Raise ValueError
      end
  | AStroke =>
      match v with
      | PText s => match lookup stroke_texts s with Some s => Ok (PStroke s) | None => Raise KeyError end
      | PStroke s => Ok (PText (stroke_text s))
      | _ => Raise KeyError
      end
  end.

Definition instance := list (text * pyval).
(** Objectivity.py 271-280: _init_from_xml *)
Fixpoint init_from_xml (t : list attribute) (e : list (text * text)) (i : instance) : result instance :=
  match t with
  | [] => Ok i
  | a :: t =>
      v <- match lookup e (a_xml a) with Some s => from_xml (a_kind a) (PText s) | None => Ok PNone end ;;
      init_from_xml t e (set_item i (a_py a) v)
  end.
(** 284-294: _init_from_kwargs *)
Fixpoint init_from_kwargs (t : list attribute) (kwargs : instance) (i : instance) : result instance :=
  match t with
  | [] => Ok i
  | a :: t =>
      v <- match lookup kwargs (a_py a) with Some v => from_xml (a_kind a) v | None => Ok PNone end ;;
      init_from_kwargs t kwargs (set_item i (a_py a) v)
  end.
Definition excluded (exclude : list text) (name : text) : bool := existsb (text_eqb name) exclude.
(** 298-305: get_dict, of any object; [get] is getattr *)
Fixpoint get_dict (t : list attribute) (get : text -> result pyval) (exclude : list text) (d : instance) : result instance :=
  match t with
  | [] => Ok d
  | a :: t =>
      if excluded exclude (a_py a) then get_dict t get exclude d
      else v <- get (a_py a) ;; get_dict t get exclude (set_item d (a_py a) v)
  end.
Definition get_attribute (i : instance) (name : text) : result pyval :=
  match lookup i name with Some v => Ok v | None => Raise AttributeError end.
(** 309-314: to_dict *)
Definition to_dict (t : list attribute) (i : instance) (exclude : list text) : result instance :=
  get_dict t (get_attribute i) exclude [].
(** 318-331: to_xml; the type is written last *)
Fixpoint attributes_of (t : list attribute) (i : instance) (e : list (text * text)) : result (list (text * text)) :=
  match t with
  | [] => Ok e
  | a :: t =>
      v <- get_attribute i (a_py a) ;;
      match v with
      | PNone => attributes_of t i e
      | _ => s <- py_str v ;; attributes_of t i (set_item e (a_xml a) s)
      end
  end.
Definition check_attributes (e : list (text * text)) : result (list (text * text)) :=
  if forallb (fun p => forallb xml_char (snd p)) e then Ok e else Raise ValueError.

(** ** The sketch *)
(** What an operation has besides ModelSketch: the texts of its expressions, the offset of its label,
    its line properties *)
Record extra := Extra { x_texts : list text; x_mx : pyval; x_my : pyval; x_style : pyval; x_color : pyval }.
Record state := State { st_sketch : sketch; st_extra : list extra }.

(** The position of a name *)
Fixpoint position (l : list text) (name : text) : option nat :=
  match l with
  | [] => None
  | n :: l => if text_eqb n name then Some 0 else option_map S (position l name)
  end.
(** getattr of an operation: SketchOperation.py, the properties; Object.py 83-84: id *)
Definition field (st : state) (i : nat) (name : text) : result pyval :=
  match nth_error (ops (st_sketch st)) i, nth_error (st_extra st) i with
  | Some o, Some x =>
      let k := o_kind o in
      if text_eqb name (lit "id") then Ok (PInt (o_id o))
      else if text_eqb name (lit "name") then
        if is_point k then Ok (PText (list_ascii_of_string (o_name o))) else Raise AttributeError
      else if text_eqb name (lit "line_style") then if has_line k then Ok (x_style x) else Raise AttributeError
      else if text_eqb name (lit "line_color") then if has_line k then Ok (x_color x) else Raise AttributeError
      else
        match position (point_names k) name with
        | Some j =>
            match nth_error (o_refs o) j with
            | Some r => match nth_error (ops (st_sketch st)) r with Some p => Ok (POp (o_id p)) | None => Raise AttributeError end
            | None => Raise AttributeError
            end
        | None =>
            match position (expression_names k) name with
            | Some j => match nth_error (x_texts x) j with Some s => Ok (PExpr s) | None => Raise AttributeError end
            | None => Raise AttributeError
            end
        end
  | _, _ => Raise IndexError
  end.

(** VitFormat.py 402-409, 620-623, 656-659: from_operation; Pattern.py 159-160: its dispatch; 315-316:
    to_xml of the calculations which have a type *)
Definition mxmy : list text := [lit "mx"; lit "my"].
Definition write (st : state) (i : nat) : result element :=
  match nth_error (ops (st_sketch st)) i, nth_error (st_extra st) i with
  | Some o, Some x =>
      t <- table (o_kind o) ;;
      kwargs <-
        (if is_point (o_kind o) then
           d <- get_dict t (field st i) mxmy [] ;; Ok (set_item (set_item d (lit "mx") (x_mx x)) (lit "my") (x_my x))
         else get_dict t (field st i) [] []) ;;
      inst <- init_from_kwargs t kwargs [] ;;
      e <- attributes_of t inst [] ;;
      let e := match type_of (o_kind o) with Some s => set_item e (lit "type") s | None => e end in
      e <- check_attributes e ;;
      Ok (Element (tag_of (o_kind o)) e)
  | _, _ => Raise IndexError
  end.

(** ** Calling the constructor of an operation with keywords *)
(** SketchOperation.py 409-412, 449-454, 484-489, 516-520, 570-575, 614-619, 668-672, 696-700, 729-735:
    the parameters *)
Definition parameters (k : kind) : list text :=
  (if is_point k then [lit "name"; lit "label_offset"] else []) ++ point_names k ++ expression_names k ++
  (if has_line k then [lit "line_style"; lit "line_color"] else []) ++ [lit "id"].
Definition required (kwargs : instance) (name : text) : result pyval :=
  match lookup kwargs name with Some v => Ok v | None => Raise TypeError end.
Definition optional (kwargs : instance) (name : text) (default : pyval) : pyval :=
  match lookup kwargs name with Some v => v | None => default end.
(** The default line properties: None for the points, a solid black line else *)
Definition default_style (k : kind) : pyval := if is_point k then PNone else PStroke SolidLine.
Definition default_color (k : kind) : pyval := if is_point k then PNone else PColor black.
(** The groups of references, see ModelSketch *)
Definition groups_of (k : kind) (l : list reference) : list (list reference) :=
  match k with
  | KContact => [firstn 2 l; skipn 2 l]
  | KOperation | KPoint | KSingle => []
  | _ => [l]
  end.
(** An id, or None which no operation has *)
Definition reference_of (v : pyval) : reference := match v with PInt z => RId z | _ => RForeign end.
(** 409-735: the constructor; Patro/Pattern/__init__.py 44-55: the method of the sketch.  A missing name
    is None in python: it is taken here as the text None. *)
Definition construct (k : kind) (kwargs : instance) (label : pyval * pyval) (st : state) : result nat * state :=
  match
    (_ <- (if forallb (fun p => existsb (text_eqb (fst p)) (parameters k)) kwargs then Ok tt else Raise TypeError) ;;
     name <- (if is_point k then v <- required kwargs (lit "name") ;; py_str v else Ok []) ;;
     points <- traverse (required kwargs) (point_names k) ;;
     expressions <- traverse (required kwargs) (expression_names k) ;;
     texts <- traverse py_str expressions ;;
     let id := match optional kwargs (lit "id") PNone with PInt z => Some z | _ => None end in
     Ok (name, points, texts, id))
  with
  | Raise e => (Raise e, st)
  | Ok (name, points, texts, id) =>
      let x := Extra texts (fst label) (snd label)
                 (if has_line k then optional kwargs (lit "line_style") (default_style k) else PNone)
                 (if has_line k then optional kwargs (lit "line_color") (default_color k) else PNone) in
      match add_op (Args k (string_of_list_ascii name) (groups_of k (map reference_of points)) (map parse texts)) id (st_sketch st) with
      | (Ok i, s) => (Ok i, State s (st_extra st ++ [x]))
      | (Raise e, s) => (Raise e, State s (st_extra st))
      end
  end.
(** VitFormat.py 293-296, 394-398, 615-616, 651-652: to_operation; a missing offset gives nan in the
    vector: it is kept as None *)
Definition to_operation (k : kind) (t : list attribute) (inst : instance) (st : state) : result nat * state :=
  if is_point k then
    match
      (d <- to_dict t inst mxmy ;; mx <- get_attribute inst (lit "mx") ;; my <- get_attribute inst (lit "my") ;;
       (* label_offset is a keyword; its value is carried apart *)
       Ok (set_item d (lit "label_offset") PNone, (mx, my)))
    with
    | Ok (d, label) => construct k d label st
    | Raise e => (Raise e, st)
    end
  else
    match to_dict t inst [] with
    | Ok d => construct k d (PNone, PNone) st
    | Raise e => (Raise e, st)
    end.

(** Pattern.py 309-315: one calculation; the result is None for a skipped one *)
Definition read (e : element) (st : state) : result (option nat) * state :=
  match (k <- dispatch e ;; t <- table k ;; i <- init_from_xml t (e_attrib e) [] ;; Ok (k, t, i)) with
  | Raise NotImplementedError => (Ok None, st)
  | Raise x => (Raise x, st)
  | Ok (k, t, inst) =>
      match to_operation k t inst st with
      | (Raise NotImplementedError, st) => (Ok None, st)
      | (Raise x, st) => (Raise x, st)
      | (Ok i, st) => (Ok (Some i), st)
      end
  end.
Fixpoint read_all (l : list element) (st : state) : result unit * state :=
  match l with
  | [] => (Ok tt, st)
  | e :: l => match read e st with (Ok _, st) => read_all l st | (Raise x, st) => (Raise x, st) end
  end.
(** 302-316: the calculations of a piece, in the sketch of its new scope *)
Definition empty (counter : Z) (measurements : list (string * Rdefinitions.R)) : state := State (new_sketch counter measurements) [].
Definition read_piece (l : list element) (st : state) : result unit * state :=
  match read_all l st with
  | (Ok _, st) => let (r, s) := eval_sketch (st_sketch st) in (r, State s (st_extra st))
  | (Raise x, st) => (Raise x, st)
  end.
(** 418-422: the calculations of a sketch are written in the order of its operations *)
Definition write_all (st : state) : result (list element) := traverse (write st) (seq 0 (length (ops (st_sketch st)))).
End Valentina.
