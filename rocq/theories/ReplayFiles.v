(** The unit tests of the file formats, unit-test/FileFormat/test_svg.py and
    unit-test/Common/Xml/test_Objectivity.py, replayed on the model (see Replay). *)
From Coq Require Import String Ascii List Bool Arith Reals ZArith Lia Lra.
From Verif Require Import Base ModelFormula ModelMeasure ModelVector ModelTransformation ModelLine ModelPath ModelSvgPath ModelSvgTransform.
From Verif Require ModelXml ProofXml.
From Verif Require Import ProofVector ProofSvgTransform ModelSvgFile SpecSvgFile PropSvgFile.
Import ListNotations.
Local Open Scope list_scope.
Local Open Scope R_scope.

(** ** test_svg.py 46-74: the document *)
Definition rect (id x y : string) : xml :=
  el "rect" [("id", id); ("x", x); ("y", y); ("height", "10"); ("width", "10")]%string [].
Definition turned_rect (id t x y : string) : xml :=
  el "rect" [("id", id); ("transform", t); ("x", x); ("y", y); ("height", "10"); ("width", "10")]%string [].
Definition svg_path (id d : string) : xml := el "path" [("id", id); ("d", d)]%string [].
Definition svg_data : xml :=
  el "svg" [("version", "1.1"); ("viewBox", "0 0 140 140"); ("height", "140mm"); ("width", "140mm")]%string [
    el "title" [("id", "title1")]%string [];
    el "g" [("id", "layer1"); ("transform", "translate(0,0)"); ("style", "stroke:#000000")]%string [
      svg_path "path-x" "M 20,20 h 100"; svg_path "path-y" "M 20,20 v 100"; svg_path "path-45" "M 20,20 l 100,100";
      rect "rect-0" "20" "20"; rect "rect-x1" "40" "20"; rect "rect-x2" "80" "20"; rect "rect-y1" "20" "40";
      rect "rect-y2" "20" "80"; rect "rect-bisect" "50" "50";
      turned_rect "rect-45-2" "rotate(45)" "50" "50"; turned_rect "rect-45" "rotate(45,75,75)" "70" "70";
      turned_rect "rect-30" "rotate(30,85,85)" "80" "80"; turned_rect "rect-60" "rotate(60,95,95)" "90" "90"]].

(** 192-194: every path and rectangle is an item, in order *)
Definition ids (r : result file) : result (list value) :=
  bind r (fun f => traverse (fun p => get (fst p) (lit "id")) (f_items f)).
Example replay_svg_items : ids (read_file dparse 40 svg_data) =
  Ok (map (fun s => VText (lit s)) ["path-x"; "path-y"; "path-45"; "rect-0"; "rect-x1"; "rect-x2"; "rect-y1"; "rect-y2"; "rect-bisect";
       "rect-45-2"; "rect-45"; "rect-30"; "rect-60"]%string).
Proof. reflexivity. Qed.

Lemma polar_0 r : from_polar r 0 = V r 0.
Proof. unfold from_polar, from_angle, vscale, radians. cbn [vx vy]. replace (0 * PI / 180) with 0 by field. rewrite cos_0, sin_0. f_equal; ring. Qed.
Lemma polar_90 r : from_polar r 90 = V 0 r.
Proof. unfold from_polar, from_angle, vscale, radians. cbn [vx vy]. replace (90 * PI / 180) with (PI / 2) by field. rewrite cos_PI2, sin_PI2. f_equal; ring. Qed.

(** 199-201: the three paths begin at (20, 20), and end where their command goes *)
Example replay_svg_paths : forall d q, In (d, q) [("M 20,20 h 100", V 120 20); ("M 20,20 v 100", V 20 120); ("M 20,20 l 100,100", V 120 120)]%string ->
  exists p, ModelSvgPath.from_xml dparse 40 (lit d) = Ok (Some p) /\ start_point p 0 = Ok (V 20 20) /\ stop_point p 0 = Ok q.
Proof.
  intros d q I. cbn in I. destruct I as [E|[E|[E|[]]]]; inversion E; subst; eexists; (split; [reflexivity|]).
  - split; [reflexivity|]. cbn -[IZR from_polar]. rewrite ?polar_0, ?polar_90. f_equal. unfold vadd. cbn [vx vy]. f_equal; lra.
  - split; [reflexivity|]. cbn -[IZR from_polar]. rewrite ?polar_0, ?polar_90. f_equal. unfold vadd. cbn [vx vy]. f_equal; lra.
  - split; [reflexivity|]. transitivity (Ok (V (100 + 20) (100 + 20)) : result vec); [reflexivity|]. do 2 f_equal; lra.
Qed.

(** 203-218: the rectangles begin at their position *)
Example replay_svg_rects : forall x y zx zy, In (x, y, zx, zy)
    [("20", "20", 20%Z, 20%Z); ("40", "20", 40%Z, 20%Z); ("80", "20", 80%Z, 20%Z); ("20", "40", 20%Z, 40%Z); ("20", "80", 20%Z, 80%Z); ("50", "50", 50%Z, 50%Z)]%string ->
  exists o p, from_xml dparse 40 (rect "rect" x y) = Ok o /\ rect_geometry dparse o = Ok p /\ start_point p 0 = Ok (V (IZR zx) (IZR zy)).
Proof.
  intros x y zx zy I. eassert (H : exists o, from_xml dparse 40 (rect "rect" x y) = Ok o /\ has o "x" (VNumber (IZR zx)) /\ has o "y" (VNumber (IZR zy)) /\
    has o "width" (VText (lit "10")) /\ has o "height" (VText (lit "10")) /\ has o "rx" VNone /\ has o "ry" VNone).
  { cbn in I. repeat (destruct I as [I|I]; [inversion I; subst; eexists; (split; [reflexivity|]); repeat split; reflexivity|]). destruct I. }
  destruct H as (o & E & X & Y & W & Hh & RX & RY). exists o.
  destruct (C117_sharp_partial dparse o (IZR zx) (IZR zy) (IZR 10) (IZR 10) _ _ VNone VNone W eq_refl Hh eq_refl X Y RX RY (or_introl eq_refl)) as (p & P & _ & _ & _ & S).
  exists p. split; [exact E|]. split; [exact P|]. apply (S 0%nat _ _ eq_refl).
Qed.

(** The rotations of the document are read as such. *)
Example replay_svg_rotations :
  (exists t, transform_from_xml dparse (lit "rotate(45)") = Ok t /\ forall p, apply t p = rotate p 45 true) /\
  (exists t, transform_from_xml dparse (lit "rotate(45,75,75)") = Ok t /\ forall p, apply t p = vadd (V 75 75) (rotate (vsub p (V 75 75)) 45 true)).
Proof.
  split; eexists; (split; [reflexivity|]); intros p; unfold apply, rotate, vadd, vsub; destruct p as [x y]; cbn; f_equal; ring.
Qed.

(** ** test_Objectivity.py *)
Import ModelXml.
(** The numbers of the test end by ".0": floats are integers here. *)
Definition parse_float (s : text) : result Z := int_parse (replace (lit ".0") [] s).
Definition my_attr (py xml : string) (k : kind) : attribute Z := {| a_py := lit py; a_xml := lit xml; a_kind := k; a_default := VNone Z |}.
Definition xread := read_object Z int_str parse_float (fun z => Ok z) (fun z => Ok z).
Definition xkeywords := init_from_kwargs Z int_str parse_float (fun z => Ok z) (fun z => Ok z).

(** 48-56: MyObject *)
Definition MyObject : cls Z := Class Z false
  [my_attr "int_attribute" "xint_attribute" KInt; my_attr "float_attribute" "xfloat_attribute" KFloat; my_attr "string_attribute" "xstring_attribute" KString] [] [].
Definition field (i : instance Z) (py : string) : option (value Z) := lookup i (lit py).

(** 97-118 *)
Example replay_objectivity :
  exists object1 object2 object3,
    xread (table_of Z MyObject) [(lit "xint_attribute", lit "1"); (lit "xfloat_attribute", lit "1.0"); (lit "xstring_attribute", lit "string1")] = Ok object1 /\
    xread (table_of Z MyObject) [(lit "xint_attribute", lit "2"); (lit "xfloat_attribute", lit "2.0"); (lit "xstring_attribute", lit "string2")] = Ok object2 /\
    xkeywords (table_of Z MyObject) [(lit "int_attribute", VInt Z 3)] [] = Ok object3 /\
    map (field object1) ["int_attribute"; "float_attribute"; "string_attribute"]%string = [Some (VInt Z 1); Some (VFloat Z 1%Z); Some (VStr Z (lit "string1"))] /\
    map (field object2) ["int_attribute"; "float_attribute"; "string_attribute"]%string = [Some (VInt Z 2); Some (VFloat Z 2%Z); Some (VStr Z (lit "string2"))] /\
    field (set_attribute Z object1 (lit "int_attribute") (VInt Z 10)) "int_attribute" = Some (VInt Z 10) /\
    field object3 "int_attribute" = Some (VInt Z 3).
Proof. do 3 eexists. repeat (split; [reflexivity|]). reflexivity. Qed.

(** 60-90 and 122-136: MyComposedObject, of a class of the library and of two plain classes, one with a base *)
Definition XmlObjectAdaptator : cls Z := Class Z false [] [] [].
Definition Mixin1 : cls Z := Class Z true [my_attr "int_attribute" "int_attribute" KInt] [] [].
Definition Mixin2 : cls Z := Class Z true [my_attr "int_attribute2" "int_attribute2" KInt] [] [].
Definition Mixin3 : cls Z := Class Z true [my_attr "float_attribute" "float_attribute" KFloat] [Mixin2] [Mixin2].
Definition MyComposedObject : cls Z := Class Z false [my_attr "string_attribute" "string_attribute" KString]
  [XmlObjectAdaptator; Mixin1; Mixin3] [XmlObjectAdaptator; Mixin1; Mixin3; Mixin2].
Example replay_objectivity_composed :
  exists o, xkeywords (table_of Z MyComposedObject) [(lit "int_attribute", VInt Z 1); (lit "int_attribute2", VInt Z 2); (lit "float_attribute", VFloat Z 1%Z);
      (lit "string_attribute", VStr Z (lit "string"))] [] = Ok o /\
    map (field o) ["int_attribute"; "int_attribute2"; "float_attribute"; "string_attribute"]%string =
      [Some (VInt Z 1); Some (VInt Z 2); Some (VFloat Z 1%Z); Some (VStr Z (lit "string"))].
Proof. eexists. split; reflexivity. Qed.
