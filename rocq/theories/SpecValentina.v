(** What an element of a Valentina file says of an operation, and which files can be read. *)
From Coq Require Import String Ascii List Bool Arith ZArith.
From Verif Require Import Base ModelFormula ModelMeasure SpecXml.
From Verif Require ModelSketch ModelColor ModelStyle GlueSketch.
From Verif Require Import ModelValentina.
Import ModelColor(color, database, ensure_color, AText).
Import ModelStyle(stroke_style, NoPen, SolidLine, DashLine, DotLine, DashDotLine, DashDotDotLine).
Import ModelXml(int_parse).
Import GlueSketch(quiet).
Import ModelSketch(kind, KOperation, KPoint, KSingle, KAlong, KEnd, KIntersect, KNormal, KContact, KIntersection, KLine, KSpline,
  ops, o_kind, o_id, o_name, o_refs, o_exprs, x_source, expr, get_operation, KeyId, sketch, op, is_point, history, new_sketch, eval_sketch, o_vector, o_controls).
Import ListNotations.

(** The elements of the file format: the tag and the type of a kind of operation *)
Definition spelled (k : kind) : option (string * option string) :=
  match k with
  | KSingle => Some ("point", Some "single")
  | KAlong => Some ("point", Some "alongLine")
  | KEnd => Some ("point", Some "endLine")
  | KIntersect => Some ("point", Some "lineIntersect")
  | KNormal => Some ("point", Some "normal")
  | KContact => Some ("point", Some "pointOfContact")
  | KIntersection => Some ("point", Some "pointOfIntersection")
  | KLine => Some ("line", None)
  | KSpline => Some ("spline", Some "simpleInteractive")
  | KOperation | KPoint => None
  end%string.
(** Its attributes which give the ids of points, and those which give formulas *)
Definition point_attributes (k : kind) : list string :=
  match k with
  | KAlong | KNormal | KIntersection | KLine => ["firstPoint"; "secondPoint"]
  | KContact => ["firstPoint"; "secondPoint"; "center"]
  | KEnd => ["basePoint"]
  | KIntersect => ["p1Line1"; "p2Line1"; "p1Line2"; "p2Line2"]
  | KSpline => ["point1"; "point4"]
  | _ => []
  end%string.
Definition formula_attributes (k : kind) : list string :=
  match k with
  | KSingle => ["x"; "y"]
  | KAlong => ["length"]
  | KEnd | KNormal => ["angle"; "length"]
  | KContact => ["radius"]
  | KSpline => ["angle1"; "length1"; "angle2"; "length2"]
  | _ => []
  end%string.
(** The kinds which have a name and a label; the kinds which have a style and a colour *)
Definition labelled (k : kind) : Prop :=
  match k with KSingle | KAlong | KEnd | KIntersect | KNormal | KContact | KIntersection => True | _ => False end.
Definition drawn (k : kind) : Prop := match k with KAlong | KEnd | KNormal | KLine => True | _ => False end.
Definition styles : list (string * stroke_style) :=
  [("hair", SolidLine); ("none", NoPen); ("dashLine", DashLine); ("dotLine", DotLine); ("dashDotLine", DashDotLine);
   ("dashDotDotLine", DashDotDotLine)]%string.
(** The known elements which have no operation *)
Definition unsupported_types : list (string * string) :=
  [ ("point", "bisector"); ("point", "curveIntersectAxis"); ("point", "cutArc"); ("point", "cutSpline"); ("point", "cutSplinePath");
    ("point", "height"); ("point", "lineIntersectAxis"); ("point", "pointFromArcAndTangent"); ("point", "pointFromCircleAndTangent");
    ("point", "pointOfIntersectionArcs"); ("point", "pointOfIntersectionCircles"); ("point", "pointOfIntersectionCurves");
    ("point", "shoulder"); ("point", "triangle"); ("point", "trueDarts");
    ("spline", "cubicBezier"); ("spline", "cubicBezierPath"); ("spline", "pathInteractive") ]%string.
Definition unsupported_tags : list string := ["arc"; "ellipse"; "operation"]%string.

Definition has (e : element) (name : string) (t : text) : Prop := lookup (e_attrib e) (lit name) = Some t.
Definition hasn't (e : element) (name : string) : Prop := lookup (e_attrib e) (lit name) = None.
Definition unsupported (e : element) : Prop :=
  (exists t, In t unsupported_tags /\ e_tag e = lit t) \/
  (exists t u, In (t, u) unsupported_types /\ e_tag e = lit t /\ has e "type" (lit u)).

Section Spec.
Context {float : Type} (float_parse : text -> result float) (db : database) (parse : text -> expr).
Notation pyval := (pyval float).
Notation state := (state float).

(** An operation, independently of a sketch: its points by their ids *)
Record description := {
  d_kind : kind; d_id : Z; d_name : text; d_points : list Z; d_formulas : list text;
  d_mx : pyval; d_my : pyval; d_style : pyval; d_color : pyval }.

Definition number (e : element) (name : string) (z : Z) : Prop := exists t, has e name t /\ int_parse t = Ok z.
Definition length_ (e : element) (name : string) (v : pyval) : Prop :=
  exists t x, has e name t /\ float_parse t = Ok x /\ v = PFloat _ x.
(** The element [e] says [d] *)
Record says (e : element) (d : description) : Prop := {
  s_tag : match spelled (d_kind d) with
          | Some (tag, Some type) => e_tag e = lit tag /\ has e "type" (lit type)
          | Some (tag, None) => e_tag e = lit tag
          | None => False
          end;
  s_id : number e "id" (d_id d);
  s_points : Forall2 (number e) (point_attributes (d_kind d)) (d_points d);
  s_formulas : Forall2 (has e) (formula_attributes (d_kind d)) (d_formulas d);
  s_label : labelled (d_kind d) -> has e "name" (d_name d) /\ length_ e "mx" (d_mx d) /\ length_ e "my" (d_my d);
  s_drawn : drawn (d_kind d) ->
    (exists t s, In (t, s) styles /\ has e "typeLine" (lit t) /\ d_style d = PStroke _ s) /\
    (hasn't e "lineColor" /\ d_color d = PNone _ \/
     exists t c, has e "lineColor" t /\ ensure_color db (Some (AText t)) = Ok (Some c) /\ d_color d = PColor _ c);
  s_spline : d_kind d = KSpline -> d_style d = PStroke _ SolidLine /\ exists t, has e "color" t /\ d_color d = PText _ t;
  s_plain : ~ labelled (d_kind d) -> d_name d = [] /\ d_mx d = PNone _ /\ d_my d = PNone _;
  s_bare : ~ drawn (d_kind d) -> d_kind d <> KSpline -> d_style d = PNone _ /\ d_color d = PNone _ }.

(** The operation at the position [i] of the sketch is [d] *)
Definition is_operation (st : state) (i : nat) (d : description) : Prop :=
  exists o x, nth_error (ops (st_sketch _ st)) i = Some o /\ nth_error (st_extra _ st) i = Some x /\
    o_kind o = d_kind d /\ o_id o = d_id d /\ list_ascii_of_string (o_name o) = d_name d /\
    Forall2 (fun r z => exists p, nth_error (ops (st_sketch _ st)) r = Some p /\ o_id p = z) (o_refs o) (d_points d) /\
    x_texts _ x = d_formulas d /\ map x_source (o_exprs o) = map parse (d_formulas d) /\
    x_mx _ x = d_mx d /\ x_my _ x = d_my d /\ x_style _ x = d_style d /\ x_color _ x = d_color d.

(** The elements which can be read after the ids [known], when the last id given in this process is [c]:
    the ids increase and the points are known; unsupported elements may be anywhere *)
Inductive readable : Z -> list Z -> list element -> list description -> Prop :=
| readable_nil c known : readable c known [] []
| readable_skip c known e l ds : unsupported e -> readable c known l ds -> readable c known (e :: l) ds
| readable_add c known e d l ds : says e d -> (c < d_id d)%Z -> incl (d_points d) known ->
    readable (d_id d) (d_id d :: known) l ds -> readable c known (e :: l) (d :: ds).
End Spec.

(** ** Writing *)
From Verif Require Import SpecColor.
Section Written.
Context {float : Type}.
Notation description := (@description float).
(** A colour whose three components are bytes *)
Definition ordinary (c : color) : Prop :=
  exists r g b, byte r /\ byte g /\ byte b /\ ModelColor.color_str c = Ok (rgb_text r g b).
Definition paint (v : pyval float) : Prop := v = PNone _ \/ exists c, v = PColor _ c /\ ordinary c.
(** The operations which can be written: the style of the lines is given, the texts can be in XML *)
Record writable (d : description) : Prop := {
  w_kind : spelled (d_kind d) <> None;
  w_points : length (d_points d) = length (point_attributes (d_kind d));
  w_formulas : length (d_formulas d) = length (formula_attributes (d_kind d));
  w_texts : forall t, In t (d_formulas d) -> xml_text t;
  w_label : labelled (d_kind d) -> xml_text (d_name d) /\ (exists x, d_mx d = PFloat _ x) /\ (exists y, d_my d = PFloat _ y);
  w_drawn : drawn (d_kind d) -> (exists s, d_style d = PStroke _ s) /\ paint (d_color d);
  w_spline : d_kind d = KSpline -> paint (d_color d) \/ exists t, d_color d = PText _ t /\ xml_text t }.

(** Two colours, or no colour *)
Definition same_paint (v w : pyval float) : Prop :=
  v = PNone _ /\ w = PNone _ \/ exists c c', v = PColor _ c /\ w = PColor _ c' /\ ModelColor.color_eq c c' = Ok true.
(** The operation [d'] is [d], but for the line of a spline *)
Record same (d d' : description) : Prop := {
  same_kind : d_kind d' = d_kind d;
  same_id : d_id d' = d_id d;
  same_points : d_points d' = d_points d;
  same_formulas : d_formulas d' = d_formulas d;
  same_label : labelled (d_kind d) -> d_name d' = d_name d /\ d_mx d' = d_mx d /\ d_my d' = d_my d;
  same_line : drawn (d_kind d) -> d_style d' = d_style d /\ same_paint (d_color d) (d_color d') }.
End Written.

(** ** Whole sketches *)
Section Whole.
Context {float : Type} (parse : text -> expr).
(** A sketch made by its methods *)
Definition reachable (st : state float) : Prop :=
  (exists l c m, st_sketch _ st = history l (new_sketch c m)) /\ length (st_extra _ st) = length (ops (st_sketch _ st)).
Definition holds_id (s : sketch) (z : Z) : Prop := exists o, In o (ops s) /\ o_id o = z.
(** Two sketches with the same operations in the same order; the references are positions, the
    expressions are compared before their compilation *)
Definition same_op (o o' : op) : Prop :=
  o_kind o' = o_kind o /\ o_id o' = o_id o /\ (is_point (o_kind o) = true -> o_name o' = o_name o) /\
  o_refs o' = o_refs o /\ map x_source (o_exprs o') = map x_source (o_exprs o).
Definition same_sketch (s s' : sketch) : Prop := Forall2 same_op (ops s) (ops s').
(** A sketch which was built by its methods with the measurements [m] and not evaluated *)
Definition drafted (m : list (string * Rdefinitions.R)) (st : state float) : Prop :=
  (exists l c, Forall quiet l /\ st_sketch _ st = history l (new_sketch c m)) /\ length (st_extra _ st) = length (ops (st_sketch _ st)).
(** The same sketch once evaluated *)
Definition evaluated (st st' : state float) : Prop :=
  eval_sketch (st_sketch _ st) = (Ok tt, st_sketch _ st') /\ st_extra _ st' = st_extra _ st.
(** The positions of the points and of the curves *)
Definition same_place (s s' : sketch) : Prop := Forall2 (fun o o' => o_vector o' = o_vector o /\ o_controls o' = o_controls o) (ops s) (ops s').
End Whole.
