(** Model of the reading and the writing of SVG files: Patro/FileFormat/Svg/SvgFile.py 176-443 and the
    elements of SvgFormat.py (attributes 211-422 and 512-546, classes 554-1253).  The texts of lxml are lists
    of Latin-1 characters.  The floats are real numbers, their reading and writing are parameters. *)
From Coq Require Import String Ascii List Bool Arith Reals ZArith.
From Flocq Require Import Core.
From Verif Require Import Base ModelFormula ModelMeasure ModelVector ModelTransformation ModelLine ModelPath ModelSvgPath ModelSvgTransform.
From Verif Require ModelXml ModelSvgState.
Import ListNotations.
Local Open Scope result_scope.
Local Open Scope R_scope.
Local Open Scope list_scope.

(** An element of lxml: its tag, its attributes and its children; a comment (or a processing
    instruction) is a child whose tag is a function *)
Inductive xml := Element (tag : text) (attrib : list (text * text)) (children : list xml) | Comment.

(** The values of the attributes: None, str, float, list of floats, PercentValue 237-247, UnitValue
    251-267, Path2D, AffineTransformation2D *)
Inductive value :=
| VNone | VText (s : text) | VNumber (x : R) | VNumbers (l : list R) | VPercent (x : R) | VUnit (x : R) (unit : text)
| VPath (p : path) | VTransform (t : transformation).
(** StringAttribute, FloatAttribute and FloatListAttribute of Objectivity.py 159-204; NumberAttribute 230-233,
    PercentLengthAttribute 271-296, PathDataAttribute 875, TransformAttribute 425 *)
Inductive kind := KString | KFloat | KFloatList | KNumber | KLength | KPath | KTransform.
(** Objectivity.py 51-64; the default value is None for all of them *)
Record attribute := Attr { a_py : text; a_xml : text; a_kind : kind }.
Definition attr (py xml : string) (k : kind) : attribute := Attr (lit py) (lit xml) k.

Record object := Object { o_class : text; o_values : list (text * value) }.

(** ** The classes *)

(** 113-119, 300-317, 335-345, 361-365 *)
Definition IdMixin := [attr "id" "id" KString].
Definition ColorMixin := [attr "fill" "fill" KString; attr "stroke" "stroke" KString].
Definition StrokeMixin := [attr "stroke_line_cap" "stroke-linecap" KString; attr "stroke_line_join" "stroke-linejoin" KString;
  attr "stroke_miter_limit" "stroke-miterlimit" KNumber; attr "stroke_width" "stroke-width" KLength;
  attr "stroke_dasharray" "stroke-dasharray" KFloatList].
Definition PathMixin := ColorMixin ++ StrokeMixin.
Definition FontMixin := [attr "font_size" "font-size" KString; attr "font_family" "font-family" KString].
Definition StyleMixin := [attr "style" "style" KString].
(** 373-422 *)
Definition PositionMixin := [attr "x" "x" KFloat; attr "y" "y" KFloat].
Definition CenterMixin := [attr "cx" "cx" KFloat; attr "cy" "cy" KFloat].
Definition RadiusMixin := [attr "rx" "rx" KFloat; attr "ry" "ry" KFloat].
Definition PointsMixin := [attr "points" "points" KString].
Definition SizeMixin := [attr "height" "height" KString; attr "width" "width" KString].
(** 512-516, 545-546 *)
Definition TransformMixin := [attr "transform" "transform" KTransform].
Definition SvgElementMixin := IdMixin ++ StyleMixin ++ TransformMixin.

(** The attributes of the classes which the dispatcher reads, each one once: 554-572, 673-681, 741-750, 766-777,
    795-806, 1076-1086, 1112-1126, 1151-1155.  The attributes of the other classes are not modelled. *)
Definition table (cls : text) : list attribute :=
  let is s := text_eqb cls (lit s) in
  if is "Svg"%string then PositionMixin ++ SizeMixin ++ [attr "version" "version" KString; attr "view_box" "viewBox" KFloatList;
    attr "preserve_aspect_ratio" "preserveAspectRatio" KString; attr "zoom_and_pan" "zoomAndPan" KString]
  else if is "Circle"%string then CenterMixin ++ PathMixin ++ SvgElementMixin ++ [attr "r" "r" KFloat]
  else if is "Ellipse"%string then CenterMixin ++ PathMixin ++ StyleMixin ++ RadiusMixin
  else if is "Group"%string then FontMixin ++ PathMixin ++ SvgElementMixin ++
    [attr "clip_path" "clip-path" KString; attr "data_name" "data-name" KString]
  else if is "Line"%string then PathMixin ++ SvgElementMixin ++
    [attr "x1" "x1" KFloat; attr "y1" "y1" KFloat; attr "x2" "x2" KFloat; attr "y2" "y2" KFloat]
  else if is "Path"%string then PathMixin ++ SvgElementMixin ++ [attr "path_data" "d" KPath; attr "path_length" "pathLength" KFloat]
  else if is "Polyline"%string || is "Polygon"%string then PointsMixin ++ PathMixin ++ SvgElementMixin
  else if is "Rect"%string then PositionMixin ++ RadiusMixin ++ SizeMixin ++ PathMixin ++ SvgElementMixin
  else [].

(** 30-64, __all__, with the __tag__ of each class *)
Definition CLASSES : list (text * text) := map (fun p => (lit (fst p), lit (snd p))) [
  ("Svg", "svg"); ("Anchor", "a"); ("AltGlyph", "altGlyph"); ("AltGlyphDef", "altGlyphDef"); ("AltGlyphItem", "altGlyphItem");
  ("Animate", "animate"); ("AnimateMotion", "animateMotion"); ("AnimateTransform", "animateTransform"); ("Circle", "circle");
  ("ClipPath", "clipPath"); ("ColorProfile", "color-profile"); ("Cursor", "cursor"); ("Defs", "defs"); ("Desc", "desc");
  ("Ellipse", "ellipse"); ("FeBlend", "feBlend"); ("Group", "g"); ("Image", "image"); ("Line", "line");
  ("LinearGradient", "linearGradient"); ("Marker", "marker"); ("Mask", "mask"); ("Path", "path"); ("Pattern", "pattern");
  ("Polyline", "polyline"); ("Polygon", "polyline"); ("RadialGradient", "radialGradient"); ("Rect", "rect"); ("Stop", "stop");
  ("Text", "text"); ("TextRef", "tref"); ("TextSpan", "textspan"); ("Use", "use")]%string.
Definition tag_of (cls : text) : result text := match lookup CLASSES cls with Some t => Ok t | None => Raise AttributeError end.
(** SvgFile.py 180-183: __TAGS__, where the last class of a tag wins *)
Definition TAGS : list (text * text) := fold_left (fun d c => set_item d (snd c) (fst c)) CLASSES [].
(** 185-220: __TAGS_TO_READ__ *)
Definition TAGS_TO_READ : list text := map lit ["circle"; "ellipse"; "line"; "path"; "polyline"; "polygon"; "rect"]%string.
(** 244-248: element_tag *)
Definition element_tag (tag : text) : text :=
  if existsb (Ascii.eqb "{"%char) tag then
    match find (lit "}") tag with Some n => skipn (n + 1) tag | None => tag end
  else tag.

Section File.
Variable float_str : R -> text.
Variable float_parse : text -> result R.
Variable fuel : nat.

(** ** Reading the attributes *)

(** 276-283: PercentLengthAttribute *)
Definition read_length (s : text) : result value :=
  match rev s with
  | [] => Raise IndexError
  | c :: r =>
      if Ascii.eqb c "%" then x <- float_parse (removelast s) ;; Ok (VPercent (x / 100))
      else if is_alpha c then
        match r with
        | u :: _ => x <- float_parse (removelast (removelast s)) ;; Ok (VUnit x [u])
        | [] => Raise IndexError
        end
      else x <- float_parse s ;; Ok (VNumber x)
  end.
(** from_xml of a text: Objectivity.py 155-204; 211-233 InheritAttribute, NumberAttribute *)
Definition read_value (k : kind) (s : text) : result value :=
  match k with
  | KString => Ok (VText s)
  | KFloat => x <- float_parse s ;; Ok (VNumber x)
  | KFloatList =>
      if text_eqb s (lit "none") then Ok VNone
      else if ModelXml.contains " "%char s then l <- traverse float_parse (split " "%char s) ;; Ok (VNumbers l)
      else if ModelXml.contains ","%char s then l <- traverse float_parse (split ","%char s) ;; Ok (VNumbers l)
      else x <- float_parse s ;; Ok (VNumbers [x])
  | KNumber => if text_eqb s (lit "inherit") then Ok (VText s) else (x <- float_parse s ;; Ok (VNumber x))
  | KLength => if text_eqb s (lit "inherit") then Ok (VText s) else read_length s
  | KPath => p <- ModelSvgPath.from_xml float_parse fuel s ;; Ok (match p with Some p => VPath p | None => VNone end)
  | KTransform => t <- transform_from_xml float_parse s ;; Ok (VTransform t)
  end.
(** str; the address of an object is left out *)
Definition py_str (v : value) : text :=
  match v with
  | VNone => lit "None"
  | VText s => s
  | VNumber x => float_str x
  | VNumbers l => lit "[" ++ join (lit ", ") (map float_str l) ++ lit "]"
  | VPercent _ => lit "<Patro.FileFormat.Svg.SvgFormat.PercentValue object>"
  | VUnit _ u => u
  | VPath _ => lit "<Patro.GeometryEngine.Path.Path2D object>"
  | VTransform _ => lit "<Patro.GeometryEngine.Transformation.AffineTransformation2D object>"
  end.
(** from_xml of a python value, for the objects made with keywords: Objectivity.py 284-294; 245-247, 260-262:
    float of the values with a unit *)
Definition from_python (k : kind) (v : value) : result value :=
  match v with
  | VText s => read_value k s
  | _ =>
      match k with
      | KString => Ok (VText (py_str v))
      | KFloat | KNumber =>
          match v with
          | VNumber x | VPercent x | VUnit x _ => Ok (VNumber x)
          | _ => Raise TypeError
          end
      | KFloatList => match v with VNone | VNumbers _ => Ok v | _ => Raise TypeError end
      | KLength | KPath => Raise AttributeError
      | KTransform => match v with VTransform _ => Ok v | _ => Raise AttributeError end
      end
  end.
(** Objectivity.py 271-280, 284-294 *)
Definition read_attributes (t : list attribute) (attrib : list (text * text)) : result (list (text * value)) :=
  traverse (fun a => v <- match lookup attrib (a_xml a) with Some s => read_value (a_kind a) s | None => Ok VNone end ;; Ok (a_py a, v)) t.
Definition from_keywords (cls : text) (kwargs : list (text * value)) : result object :=
  l <- traverse (fun a => v <- match lookup kwargs (a_py a) with Some v => from_python (a_kind a) v | None => Ok VNone end ;; Ok (a_py a, v))
         (table cls) ;;
  Ok (Object cls l).
Definition get (o : object) (py : text) : result value :=
  match lookup (o_values o) py with Some v => Ok v | None => Raise AttributeError end.

(** ** The dispatcher *)

(** 252-260: from_xml.  A comment has a tag which is not a text. *)
Definition from_xml (x : xml) : result object :=
  match x with
  | Comment => Raise TypeError
  | Element tag attrib _ =>
      match lookup TAGS (element_tag tag) with
      | None => Raise KeyError
      | Some cls => l <- read_attributes (table cls) attrib ;; Ok (Object cls l)
      end
  end.

(** The objects as the items of the render states *)
Definition state_value (v : value) : ModelSvgState.value value :=
  match v with VNone => ModelSvgState.VNone _ | VText s => ModelSvgState.VText _ s | _ => ModelSvgState.VNumber _ v end.
Definition item_of (o : object) : ModelSvgState.item value :=
  ModelSvgState.Item _ (map (fun p => (fst p, state_value (snd p))) (o_values o))
    (match lookup (o_values o) (lit "transform") with Some (VTransform t) => Some t | _ => None end)
    (match lookup (o_values o) (lit "style") with Some (VText s) => Some s | _ => None end).
Definition read_number (s : text) : option value := match float_parse s with Ok x => Some (VNumber x) | Raise _ => None end.
Definition defaults : list (text * ModelSvgState.value value) :=
  map (fun d => (fst d, match snd d with
                        | ModelSvgState.VNone _ => ModelSvgState.VNone _
                        | ModelSvgState.VText _ s => ModelSvgState.VText _ s
                        | ModelSvgState.VNumber _ z => ModelSvgState.VNumber _ (VNumber (IZR z))
                        end)) ModelSvgState.presentation.
Definition state := ModelSvgState.state value.

(** 264-290: on_root, on_group, on_graphic_item; 367-376: on_group and on_graphic_item of the reader, which write the
    id of the item in the log before its state is made *)
Section Walk.
Variable visit : list state -> xml -> result (list state * list (object * state)).
Fixpoint visit_all (st : list state) (l : list xml) : result (list state * list (object * state)) :=
  match l with
  | [] => Ok (st, [])
  | x :: l => r <- visit st x ;; q <- visit_all (fst r) l ;; Ok (fst q, snd r ++ snd q)
  end.
End Walk.
Fixpoint visit (st : list state) (x : xml) : result (list state * list (object * state)) :=
  match x with
  | Comment => Raise TypeError
  | Element tag attrib children =>
      let tag' := element_tag tag in
      if text_eqb tag' (lit "g") then
        o <- from_xml x ;; _ <- get o (lit "id") ;;
        st <- ModelSvgState.push value read_number defaults st (item_of o) ;;
        visit_all visit st children
      else if existsb (text_eqb tag') TAGS_TO_READ then
        o <- from_xml x ;; _ <- get o (lit "id") ;;
        s <- ModelSvgState.top value st ;;
        s <- ModelSvgState.merge value read_number defaults (ModelSvgState.clone value read_number defaults s) (item_of o) ;;
        Ok (st, [(o, s)])
      else Ok (st, [])
  end.

(** 315-342, 359-363: SvgFileInternal *)
Record file := File { f_view_box : box; f_width : value; f_height : value; f_items : list (object * state) }.
Definition children_of (x : xml) : list xml := match x with Element _ _ l => l | Comment => [] end.
Definition read_file (root : xml) : result file :=
  svg <- from_xml root ;;
  v <- get svg (lit "view_box") ;;
  b <- match v with
       | VNumbers [x_inf; y_inf; x_sup; y_sup] => Ok (Box (Itv x_inf x_sup) (Itv y_inf y_sup))
       | VNumbers _ => Raise ValueError
       | _ => Raise TypeError
       end ;;
  w <- get svg (lit "width") ;;
  h <- get svg (lit "height") ;;
  r <- visit_all visit [ModelSvgState.new_state value defaults] (children_of root) ;;
  Ok (File b w h (snd r)).

(** ** The geometry of the rectangles *)

(** float of an attribute *)
Definition float_of (v : value) : result R :=
  match v with
  | VText s => float_parse s
  | VNumber x | VPercent x | VUnit x _ => Ok x
  | _ => Raise TypeError
  end.
(** The coordinate None of a vector is not a number *)
Definition coordinate (v : value) : result R := match v with VNumber x => Ok x | _ => Raise NotANumber end.
(** 1160-1181: Rect.geometry; rx is not used *)
Definition rect_geometry (o : object) : result path :=
  w <- get o (lit "width") ;; width <- float_of w ;;
  h <- get o (lit "height") ;; height <- float_of h ;;
  rx <- get o (lit "rx") ;;
  ry <- get o (lit "ry") ;;
  radius <- match ry with
            | VNumber r => Ok (if Reqb r 0 then None else Some r)
            | _ => Ok None
            end ;;
  x <- get o (lit "x") ;; y <- get o (lit "y") ;;
  x <- coordinate x ;; y <- coordinate y ;;
  draw (new_path (V x y)) [HorizontalTo width None false; VerticalTo height radius false;
                           HorizontalTo (- width) radius false; Close radius radius].

(** ** Writing *)

(** to_xml of the attributes: Objectivity.py 98-100, 192-194; 463-466 of a transformation; 1009-1016 of the path data,
    a Path2D is not a list of commands.  PercentLengthAttribute has a method _to_xml 287-296 which nothing calls. *)
Definition write_value (k : kind) (v : value) : result text :=
  match k with
  | KFloatList =>
      match v with
      | VNumbers l => Ok (join (lit " ") (map float_str l))
      | VText s => Ok (join (lit " ") (map (fun c => [c]) s))
      | _ => Raise TypeError
      end
  | KPath => Raise TypeError
  | KTransform => match v with VTransform t => Ok (transform_to_xml float_str t) | _ => Raise AttributeError end
  | _ => Ok (py_str v)
  end.
(** Objectivity.py 318-331 *)
Fixpoint write_attributes (t : list attribute) (o : object) : result (list (text * text)) :=
  match t with
  | [] => Ok []
  | a :: t =>
      v <- get o (a_py a) ;;
      match v with
      | VNone => write_attributes t o
      | _ => s <- write_value (a_kind a) v ;; l <- write_attributes t o ;; Ok ((a_xml a, s) :: l)
      end
  end.
Definition to_xml (o : object) : result xml :=
  tag <- tag_of (o_class o) ;;
  l <- write_attributes (table (o_class o)) o ;;
  l <- ModelXml.check_element l ;;
  Ok (Element tag l []).

(** '{:.3f}'.format: the closest number of thousandths, the even one when there are two *)
Definition format3 (x : R) : text :=
  let n := ZnearestE (Rabs x * 1000) in
  (if Rltb x 0 then lit "-" else []) ++ ModelXml.int_str (n / 1000) ++ lit "." ++
  ModelXml.int_str (n mod 1000 / 100) ++ ModelXml.int_str (n mod 100 / 10) ++ ModelXml.int_str (n mod 10).
(** 398-417: _new_root *)
Definition root_attributes (width height : R) : list (text * text) := [
  (lit "version", lit "1.1");
  (lit "width", format3 width ++ lit "mm");
  (lit "height", format3 height ++ lit "mm");
  (lit "viewBox", lit "0 0 " ++ format3 width ++ lit " " ++ format3 height)].
(** 421-436: _write, before the file is written *)
Definition write_root (width height : R) (l : list object) (t : option transformation) : result xml :=
  c <- traverse to_xml l ;;
  match t with
  | Some t =>
      o <- from_keywords (lit "Group") [(lit "transform", VTransform t)] ;;
      g <- to_xml o ;;
      match g with
      | Element tag a _ => Ok (Element (lit "svg") (root_attributes width height) [Comment; Element tag a c])
      | Comment => Raise TypeError
      end
  | None => Ok (Element (lit "svg") (root_attributes width height) (Comment :: c))
  end.
(** 438-443 and XmlFile.py 59-74: what lxml reads in the file it wrote: the elements are in the namespace which the root
    declares *)
Fixpoint stored (x : xml) : xml :=
  match x with
  | Element tag a l => Element (lit "{http://www.w3.org/2000/svg}" ++ tag) a (map stored l)
  | Comment => Comment
  end.
End File.
