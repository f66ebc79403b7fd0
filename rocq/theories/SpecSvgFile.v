(** What reading and writing SVG files should do. *)
From Coq Require Import String Ascii List Bool Arith Reals ZArith.
From Verif Require Import Base ModelFormula ModelMeasure ModelVector ModelTransformation ModelLine ModelSvgPath ModelSvgTransform ModelSvgFile.
From Verif Require SpecXml SpecSvgState SpecPainter.
Import ListNotations.
Local Open Scope R_scope.
Local Open Scope list_scope.

(** lxml writes the tag of an element in a namespace as {namespace}name. *)
Definition named (tag name : text) : Prop :=
  tag = name \/ exists p, In "{"%char p /\ ~ In "}"%char p /\ tag = p ++ "}"%char :: name.

Definition SHAPES : list text := map lit ["circle"; "ellipse"; "line"; "path"; "polygon"; "polyline"; "rect"]%string.
Definition group : text := lit "g".

(** The shapes of a list of elements: those of the list itself and those in its groups, in the order of the document. *)
Inductive shapes : list xml -> list xml -> Prop :=
| shapes_end : shapes [] []
| shapes_group tag a children rest u v : named tag group -> shapes children u -> shapes rest v ->
    shapes (Element tag a children :: rest) (u ++ v)
| shapes_shape tag a children rest n v : In n SHAPES -> named tag n -> shapes rest v ->
    shapes (Element tag a children :: rest) (Element tag a children :: v)
| shapes_other tag a children rest v : (forall n, In n (group :: SHAPES) -> ~ named tag n) -> shapes rest v ->
    shapes (Element tag a children :: rest) v.

(** An element among a list of elements and those of their groups *)
Inductive within (x : xml) : list xml -> Prop :=
| within_list l : In x l -> within x l
| within_group tag a children l : named tag group -> In (Element tag a children) l -> within x children -> within x l.

Section Read.
Variable float_parse : text -> result R.
Variable fuel : nat.

(** The numbers of a text, separated by one space, or by one comma when there is no space *)
Definition numbers_of (s : text) (l : list R) : Prop := exists sep ws, s = join [sep] ws /\ Forall2 (fun w x => float_parse w = Ok x) ws l /\
  (forall w, In w ws -> ~ In sep w) /\ ((sep = " "%char /\ (2 <= List.length ws)%nat) \/ (sep = ","%char /\ ws <> [] /\ ~ In " "%char s)).
Definition last_char (s : text) (c : ascii) : Prop := exists t, s = t ++ [c].
(** A length: its number and its unit, which may be missing *)
Definition units : list text := map lit ["em"; "ex"; "px"; "in"; "cm"; "mm"; "pt"; "pc"]%string.
(** What the text of an attribute means *)
Definition means (k : kind) (s : text) (v : value) : Prop :=
  match k with
  | KString => v = VText s
  | KFloat => exists x, float_parse s = Ok x /\ v = VNumber x
  | KFloatList => (s = lit "none" /\ v = VNone) \/ (s <> lit "none" /\ exists l, numbers_of s l /\ v = VNumbers l)
  | KNumber => (s = lit "inherit" /\ v = VText s) \/ (s <> lit "inherit" /\ exists x, float_parse s = Ok x /\ v = VNumber x)
  | KLength => (s = lit "inherit" /\ v = VText s) \/
      s <> lit "inherit" /\
      ((exists c x, last_char s c /\ is_alpha c = false /\ c <> "%"%char /\ float_parse s = Ok x /\ v = VNumber x) \/
       (exists t x, s = t ++ lit "%" /\ float_parse t = Ok x /\ v = VPercent (x / 100)) \/
       (exists t u c x, s = t ++ [u; c] /\ is_alpha c = true /\ float_parse t = Ok x /\ v = VUnit x [u]))
  | KPath => exists p, ModelSvgPath.from_xml float_parse fuel s = Ok p /\ v = match p with Some p => VPath p | None => VNone end
  | KTransform => exists t, transform_from_xml float_parse s = Ok t /\ v = VTransform t
  end.
(** The values an element gives to attributes *)
Definition gives (attrib : list (text * text)) (o : object) (a : attribute) : Prop := exists v,
  lookup (o_values o) (a_py a) = Some v /\
  match lookup attrib (a_xml a) with Some s => means (a_kind a) s v | None => v = VNone end.

(** The attributes of SVG which the elements have in common *)
Definition painted : list attribute := [
  attr "fill" "fill" KString; attr "stroke" "stroke" KString; attr "stroke_line_cap" "stroke-linecap" KString;
  attr "stroke_line_join" "stroke-linejoin" KString; attr "stroke_miter_limit" "stroke-miterlimit" KNumber;
  attr "stroke_width" "stroke-width" KLength; attr "stroke_dasharray" "stroke-dasharray" KFloatList; attr "style" "style" KString].
Definition common : list attribute := attr "id" "id" KString :: attr "transform" "transform" KTransform :: painted.
(** The shapes which can be read: the tag, the python class and the attributes *)
Definition readers : list (text * text * list attribute) := [
  (lit "circle", lit "Circle", common ++ [attr "cx" "cx" KFloat; attr "cy" "cy" KFloat; attr "r" "r" KFloat]);
  (lit "line", lit "Line", common ++ [attr "x1" "x1" KFloat; attr "y1" "y1" KFloat; attr "x2" "x2" KFloat; attr "y2" "y2" KFloat]);
  (lit "path", lit "Path", common ++ [attr "path_data" "d" KPath; attr "path_length" "pathLength" KFloat]);
  (lit "polyline", lit "Polygon", common ++ [attr "points" "points" KString]);
  (lit "rect", lit "Rect", common ++ [attr "x" "x" KFloat; attr "y" "y" KFloat; attr "rx" "rx" KFloat; attr "ry" "ry" KFloat;
                                      attr "width" "width" KString; attr "height" "height" KString])].
Definition group_attributes : list attribute := common ++
  [attr "font_size" "font-size" KString; attr "font_family" "font-family" KString; attr "clip_path" "clip-path" KString;
   attr "data_name" "data-name" KString].
Definition root_table : list attribute := [attr "x" "x" KFloat; attr "y" "y" KFloat; attr "width" "width" KString;
  attr "height" "height" KString; attr "version" "version" KString; attr "view_box" "viewBox" KFloatList;
  attr "preserve_aspect_ratio" "preserveAspectRatio" KString; attr "zoom_and_pan" "zoomAndPan" KString].
(** An object is what an element says. *)
Definition stands_for (x : xml) (o : object) : Prop := exists tag a children n cls l,
  x = Element tag a children /\ named tag n /\ In (n, cls, l) readers /\ o_class o = cls /\ forall b, In b l -> gives a o b.

(** The elements which can be read *)
Definition legible (attrib : list (text * text)) (l : list attribute) : Prop :=
  forall b s, In b l -> lookup attrib (a_xml b) = Some s -> exists v, means (a_kind b) s v.
Definition good_style (attrib : list (text * text)) : Prop := forall s d, lookup attrib (lit "style") = Some s -> In d (split ";"%char s) ->
  exists n v, SpecSvgState.declaration d = Some (n, v) /\ n <> lit "transform".
Inductive legible_all : list xml -> Prop :=
| legible_end : legible_all []
| legible_group tag a children rest : named tag group -> legible a group_attributes -> good_style a -> legible_all children ->
    legible_all rest -> legible_all (Element tag a children :: rest)
| legible_shape tag a children rest n cls l : named tag n -> In (n, cls, l) readers -> legible a l -> good_style a -> legible_all rest ->
    legible_all (Element tag a children :: rest)
| legible_other tag a children rest : (forall n, In n (group :: SHAPES) -> ~ named tag n) -> legible_all rest ->
    legible_all (Element tag a children :: rest).
End Read.

(** The box of the viewBox of SVG: the corner with the least coordinates, the width and the height *)
Definition view_box (l : list R) (b : box) : Prop := exists x y w h, l = [x; y; w; h] /\ b = Box (Itv x (x + w)) (Itv y (y + h)).

(** The number of thousandths of a decimal text *)
Definition thousandths (s : text) : option Z :=
  let (sign, s) := match s with "-"%char :: s => ((-1)%Z, s) | _ => (1%Z, s) end in
  match SpecPainter.whole_part 0 s with
  | Some (n, ["."%char; d; u; v]) =>
      match SpecPainter.digit_of d, SpecPainter.digit_of u, SpecPainter.digit_of v with
      | Some d, Some u, Some v => Some (sign * (1000 * n + 100 * d + 10 * u + v))%Z
      | _, _, _ => None
      end
  | _ => None
  end.
(** A text of a number, at half a thousandth *)
Definition decimal (s : text) (x : R) : Prop := exists n, thousandths s = Some n /\ Rabs (IZR n / 1000 - x) <= / 2000.

Definition has (o : object) (n : string) (v : value) : Prop := lookup (o_values o) (lit n) = Some v.
(** An object of the class of a reader; a polyline is read as an object of the class Polygon *)
Definition same_shape (n cls : text) (o : object) : Prop := o_class o = cls \/ (n = lit "polyline" /\ o_class o = lit "Polyline").
(** The style of an object is a list of declarations *)
Definition fine_style (o : object) : Prop := forall s d, lookup (o_values o) (lit "style") = Some (VText s) -> In d (split ";"%char s) ->
  exists n v, SpecSvgState.declaration d = Some (n, v) /\ n <> lit "transform".
(** The object has come back, with the values of all the attributes of its element *)
Definition restored (o o' : object) : Prop := exists n cls l, In (n, cls, l) readers /\ same_shape n cls o /\ o_class o' = cls /\
  forall b, In b l -> lookup (o_values o') (a_py b) = lookup (o_values o) (a_py b).

(** A value which is written and can be read back *)
Section Write.
Variable float_str : R -> text.
Variable float_parse : text -> result R.
(** The text of the number is read as this number, and it is not one of the words *)
Definition exact (x : R) : Prop := float_parse (float_str x) = Ok x /\
  (forall c, In c (float_str x) -> (32 < nat_of_ascii c)%nat /\ c <> ","%char) /\ (exists t c, float_str x = t ++ [c] /\ is_alpha c = false /\ c <> "%"%char).
Definition storable (k : kind) (v : value) : Prop :=
  v = VNone \/
  match k with
  | KString => exists s, v = VText s /\ SpecXml.xml_text s
  | KFloat | KNumber | KLength => exists x, v = VNumber x /\ exact x
  | KFloatList => exists l, l <> [] /\ v = VNumbers l /\ forall x, In x l -> exact x
  | KPath | KTransform => False
  end.
Definition complete (o : object) (l : list attribute) : Prop :=
  forall b, In b l -> exists v, lookup (o_values o) (a_py b) = Some v /\ storable (a_kind b) v.
(** An object which can be written and read back *)
Definition writable (o : object) : Prop := exists n cls l, In (n, cls, l) readers /\ same_shape n cls o /\ complete o l /\ fine_style o.
End Write.
