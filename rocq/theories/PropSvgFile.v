(** C114-C119: reading and writing SVG files. *)
From Coq Require Import String Ascii List Bool Arith Reals ZArith Lia Lra.
From Flocq Require Import Core.
From Verif Require Import Base ModelFormula ModelMeasure ModelVector ModelTransformation ModelLine ModelPath ModelSvgPath ModelSvgTransform.
From Verif Require ModelXml SpecXml ModelSvgState SpecSvgState SpecPainter GluePath ProofXml ProofPath7.
From Verif Require Import ProofMeasure ProofSvgTransform.
From Verif Require Import ModelSvgFile ProofSvgFile ProofSvgFile2 ProofSvgFile3 ProofSvgFile4 SpecSvgFile.
Import ListNotations.
Local Open Scope list_scope.
Local Open Scope R_scope.

(** A parser of integers and of numbers of thousandths, and a writer of integers, for the examples *)
Definition dparse (s : text) : result R := match thousandths s with Some n => Ok (IZR n / 1000) | None => zparse s end.
Definition zstr (x : R) : text := ModelXml.int_str (Zfloor x).
Lemma dparse_int z : dparse (ModelXml.int_str z) = Ok (IZR z).
Proof.
  unfold dparse, zparse. replace (thousandths (ModelXml.int_str z)) with (@None Z).
  - rewrite ProofXml.int_back. reflexivity.
  - symmetry. destruct z as [|p|p]; [reflexivity| |].
    + destruct (ProofPainter3.int_str_digits (Zpos p)) as (c & s & E & D & W); [lia|]. rewrite E, thousandths_digit by exact D. rewrite <- E.
      specialize (W []). rewrite app_nil_r in W. rewrite W; [reflexivity|]. intros ? ? H. discriminate H.
    + destruct (ProofPainter3.int_str_digits (Zpos p)) as (c & s & E & D & W); [lia|].
      change (ModelXml.int_str (Zneg p)) with ("-"%char :: ModelXml.int_str (Zpos p)). specialize (W []). rewrite app_nil_r in W.
      unfold thousandths. rewrite W; [reflexivity|]. intros ? ? H. discriminate H.
Qed.
Lemma int_str_last z : exists t c, ModelXml.int_str z = t ++ [c] /\ ProofXml.is_digit c.
Proof.
  assert (Q : forall n, exists t c, ModelXml.nat_str n = t ++ [c] /\ ProofXml.is_digit c).
  { intro n. destruct (ProofXml.nat_str_ok n) as (NE & F & _). destruct (exists_last NE) as (t & c & E). exists t, c. split; [exact E|]. rewrite E in F. apply Forall_app in F. destruct F as [_ F]. inversion F. assumption. }
  destruct z as [|p|p]; [exists [], "0"%char; split; [reflexivity|discriminate]|exact (Q (Npos p))|].
  destruct (Q (Npos p)) as (t & c & E & D). exists ("-"%char :: t), c. split; [|exact D]. cbn [ModelXml.int_str]. rewrite E. reflexivity.
Qed.
Lemma zstr_exact n : exact zstr dparse (IZR n).
Proof.
  unfold exact, zstr. rewrite Zfloor_IZR. split; [apply dparse_int|]. split.
  - intros c C. apply ProofXml.int_str_chars in C. split; [lia|]. intros ->. vm_compute in C. lia.
  - destruct (int_str_last n) as (t & c & E & D). exists t, c. split; [exact E|].
    unfold ProofXml.is_digit in D. split; [|intros ->; now destruct D]. destruct c as [[] [] [] [] [] [] [] []]; try reflexivity; now destruct D.
Qed.

(** ** C114: reading a document *)

(** The objects read are those of the shapes of the document and of its groups, in the order of the document: each one
    with the values which the attributes of its element mean, and None for the attributes which are missing. *)
Theorem C114_items : forall float_parse fuel root f, read_file float_parse fuel root = Ok f ->
  exists tag a children sh, root = Element tag a children /\ named tag (lit "svg") /\ shapes children sh /\
    Forall2 (fun x p => stands_for float_parse fuel x (fst p)) sh (f_items f).
Proof.
  intros float_parse fuel root f H. destruct (file_read float_parse fuel root f H) as (tag & a & ch & svg & sh & x & y & x' & y' & E & N & _ & _ & _ & _ & _ & S & F).
  exists tag, a, ch, sh. auto.
Qed.
Print Assumptions C114_items.

(** A document can be read when the texts of its attributes mean something, its styles are lists of declarations without transform,
    and its shapes are circles, lines, paths, polylines and rectangles.  Missing: ellipses, polygons, comments. *)
Theorem C114_defined_partial : forall float_parse fuel tag a children l, named tag (lit "svg") -> legible float_parse fuel a root_table ->
  (exists s, lookup a (lit "viewBox") = Some s /\ s <> lit "none" /\ numbers_of float_parse s l) -> List.length l = 4%nat ->
  legible_all float_parse fuel children -> is_ok (read_file float_parse fuel (Element tag a children)).
Proof. exact file_defined. Qed.
Print Assumptions C114_defined_partial.

(** A document with a comment, a polygon or an ellipse at any depth of its groups cannot be read. *)
Theorem C114_comment_refuted : forall float_parse fuel tag a children, within Comment children -> ~ is_ok (read_file float_parse fuel (Element tag a children)).
Proof. intros. apply unreadable_file with (x := Comment); [assumption|left; reflexivity]. Qed.
Print Assumptions C114_comment_refuted.
Theorem C114_shape_refuted : forall float_parse fuel tag a children tag' a' children',
  named tag' (lit "polygon") \/ named tag' (lit "ellipse") -> within (Element tag' a' children') children -> ~ is_ok (read_file float_parse fuel (Element tag a children)).
Proof. intros float_parse fuel tag a children tag' a' children' N W. apply unreadable_file with (x := Element tag' a' children'); [assumption|]. right. exists tag', a', children'. auto. Qed.
Print Assumptions C114_shape_refuted.
(** A polyline is read as an object of the class Polygon. *)
Theorem C114_polyline_refuted : forall float_parse fuel tag a children o, named tag (lit "polyline") -> from_xml float_parse fuel (Element tag a children) = Ok o ->
  o_class o = lit "Polygon".
Proof. exact polyline_class. Qed.
Print Assumptions C114_polyline_refuted.

(** A document with a circle in two groups, something which is not read and a line *)
Definition el (tag : string) (a : list (string * string)) (l : list xml) : xml := Element (NS ++ lit tag) (map (fun p => (lit (fst p), lit (snd p))) a) l.
Definition circle10 : xml := el "circle" [("cx", "1"); ("cy", "2"); ("r", "10"); ("stroke-width", "3"); ("style", "fill:red")]%string [].
Definition line34 : xml := el "line" [("x1", "0"); ("y1", "0"); ("x2", "3"); ("y2", "4")]%string [].
Definition drawing : list xml := [el "g" [("id", "outer")]%string [el "g" [] [circle10]]; el "title" [] []; line34].
Definition document (view_box : string) (l : list xml) : xml := el "svg" [("viewBox", view_box); ("width", "10mm")]%string l.
Definition classes (r : result file) : result (list text) := bind r (fun f => Ok (map (fun p => o_class (fst p)) (f_items f))).
Example C114_drawing : classes (read_file dparse 10 (document "0 0 10 10" drawing)) = Ok [lit "Circle"; lit "Line"].
Proof. vm_compute. reflexivity. Qed.
Example C114_drawing_shapes : shapes drawing [circle10; line34].
Proof.
  change [circle10; line34] with ([circle10] ++ [line34]). apply shapes_group; [apply ns_named| |].
  - change [circle10] with ([circle10] ++ []). apply shapes_group; [apply ns_named| |constructor].
    apply shapes_shape with (n := lit "circle"); [vm_compute; tauto|apply ns_named|constructor].
  - apply shapes_other.
    + intros n I N. apply (tag_named _ _ (shape_braceless n I)) in N. vm_compute in N, I. subst n. intuition discriminate.
    + apply shapes_shape with (n := lit "line"); [vm_compute; tauto|apply ns_named|constructor].
Qed.
Example C114_comment : classes (read_file dparse 10 (document "0 0 10 10" (drawing ++ [Comment]))) = Raise TypeError /\
  classes (read_file dparse 10 (document "0 0 10 10" (drawing ++ [el "polygon" [] []]))) = Raise KeyError /\
  classes (read_file dparse 10 (document "0 0 10 10" (drawing ++ [el "ellipse" [] []]))) = Raise AttributeError.
Proof. repeat split; vm_compute; reflexivity. Qed.

(** ** C115: lengths *)

(** The number of a length with a unit, of a percentage and of a plain number.  Missing: the unit and the writing. *)
Theorem C115_number_partial : forall float_parse fuel t x, float_parse t = Ok x -> float_parse (lit "inher") = Raise ValueError ->
  (forall u, In u units -> exists v, read_value float_parse fuel KLength (t ++ u) = Ok v /\ float_of float_parse v = Ok x) /\
  (exists v, read_value float_parse fuel KLength (t ++ lit "%") = Ok v /\ float_of float_parse v = Ok (x / 100)) /\
  (forall c, last_char t c -> is_alpha c = false -> c <> "%"%char -> read_value float_parse fuel KLength t = Ok (VNumber x)).
Proof. exact length_number. Qed.
Print Assumptions C115_number_partial.
(** Lengths in points, pixels and picas are read as the same object, as those in em and ex. *)
Theorem C115_unit_refuted : forall float_parse fuel t x, float_parse t = Ok x -> float_parse (lit "inher") = Raise ValueError ->
  read_value float_parse fuel KLength (t ++ lit "pt") = read_value float_parse fuel KLength (t ++ lit "px") /\ is_ok (read_value float_parse fuel KLength (t ++ lit "px")) /\
  read_value float_parse fuel KLength (t ++ lit "pt") = read_value float_parse fuel KLength (t ++ lit "pc") /\
  read_value float_parse fuel KLength (t ++ lit "em") = read_value float_parse fuel KLength (t ++ lit "ex").
Proof. exact unit_lost. Qed.
Print Assumptions C115_unit_refuted.
(** A length with a unit is written as one letter, which cannot be read. *)
Theorem C115_written_refuted : forall float_str float_parse fuel t x u, float_parse t = Ok x -> float_parse (lit "inher") = Raise ValueError -> In u units ->
  exists v s, read_value float_parse fuel KLength (t ++ u) = Ok v /\ write_value float_str KLength v = Ok s /\ read_value float_parse fuel KLength s = Raise IndexError.
Proof. exact unit_written. Qed.
Print Assumptions C115_written_refuted.
(** A percentage is written as the python name of its object. *)
Theorem C115_percent_refuted : forall float_str float_parse fuel t x, float_parse t = Ok x ->
  exists v s, read_value float_parse fuel KLength (t ++ lit "%") = Ok v /\ write_value float_str KLength v = Ok s /\
    s = lit "<Patro.FileFormat.Svg.SvgFormat.PercentValue object>".
Proof. exact percent_written. Qed.
Print Assumptions C115_percent_refuted.
(** No element with a stroke can be made with a number as its stroke width. *)
Theorem C115_keyword_refuted : forall float_str float_parse fuel cls x kw, lookup kw (lit "stroke_width") = Some (VNumber x) ->
  In (attr "stroke_width" "stroke-width" KLength) (table cls) -> ~ is_ok (from_keywords float_str float_parse fuel cls kw).
Proof. exact keyword_width. Qed.
Print Assumptions C115_keyword_refuted.
Example C115_twelve : dparse (lit "12") = Ok 12 /\ dparse (lit "inher") = Raise ValueError /\ In (lit "mm") units /\
  read_value dparse 10 KLength (lit "12mm") = Ok (VUnit 12 (lit "m")).
Proof.
  assert (E : dparse (lit "12") = Ok 12) by exact (dparse_int 12). assert (N : dparse (lit "inher") = Raise ValueError) by reflexivity.
  split; [exact E|]. split; [exact N|]. split; [vm_compute; tauto|]. cbn [read_value]. change (text_eqb (lit "12mm") (lit "inherit")) with false. cbv iota.
  change (read_length dparse (lit "12mm")) with (bind (dparse (lit "12")) (fun x => Ok (VUnit x (lit "m")))). rewrite E. reflexivity.
Qed.
Example C115_circle : In (attr "stroke_width" "stroke-width" KLength) (table (lit "Circle")).
Proof. vm_compute. tauto. Qed.

(** ** C116: the view box *)

(** The view box is the one of the document if and only if its corner is the origin.  Missing: the other corners. *)
Theorem C116_view_box_partial : forall float_parse fuel tag a children f s l, read_file float_parse fuel (Element tag a children) = Ok f ->
  lookup a (lit "viewBox") = Some s -> s <> lit "none" -> numbers_of float_parse s l ->
  exists x y w h, l = [x; y; w; h] /\ f_view_box f = Box (Itv x w) (Itv y h) /\ (view_box l (f_view_box f) <-> x = 0 /\ y = 0).
Proof. exact (box_exact (fun _ => [])). Qed.
Print Assumptions C116_view_box_partial.
(** The view box from 10 to 15 is read as the interval from 10 to 5. *)
Theorem C116_origin_refuted : exists f, read_file dparse 10 (document "10 10 5 5" []) = Ok f /\ f_view_box f = Box (Itv 10 5) (Itv 10 5) /\
  numbers_of dparse (lit "10 10 5 5") [10; 10; 5; 5] /\ ~ view_box [10; 10; 5; 5] (f_view_box f).
Proof.
  eexists. split; [reflexivity|]. split; [|split].
  - change (Box (Itv (IZR 10) (IZR 5)) (Itv (IZR 10) (IZR 5)) = Box (Itv 10 5) (Itv 10 5)). reflexivity.
  - exists " "%char, [lit "10"; lit "10"; lit "5"; lit "5"]. split; [reflexivity|]. split; [repeat (constructor; try exact (dparse_int 10); try exact (dparse_int 5))|].
    split; [|left; split; [reflexivity|cbn; lia]]. intros w [<-|[<-|[<-|[<-|[]]]]] I; apply existsb_char in I; discriminate I.
  - intros (x & y & w & h & E & B). injection E as <- <- <- <-. change (Box (Itv (IZR 10) (IZR 5)) (Itv (IZR 10) (IZR 5)) = Box (Itv 10 (10 + 5)) (Itv 10 (10 + 5))) in B.
    injection B as B. lra.
Qed.
Print Assumptions C116_origin_refuted.
(** A view box written with commas and spaces cannot be read. *)
Theorem C116_comma_refuted : forall float_parse fuel s a tag children, lookup a (lit "viewBox") = Some s -> s = lit "0, 0, 100, 100" -> float_parse (lit "0,") = Raise ValueError ->
  ~ is_ok (read_file float_parse fuel (Element tag a children)).
Proof. exact (comma_space (fun _ => [])). Qed.
Print Assumptions C116_comma_refuted.

(** ** C117: rectangles *)

(** A rectangle with a vertical radius is a closed path with four quarters of circle.  Missing: the horizontal radius. *)
Theorem C117_rounded_partial : forall float_parse o x y w h vw vh vrx r, has o "width" vw -> float_of float_parse vw = Ok w -> has o "height" vh -> float_of float_parse vh = Ok h ->
  has o "x" (VNumber x) -> has o "y" (VNumber y) -> has o "rx" vrx -> has o "ry" (VNumber r) -> 0 < r -> 0 < w -> 0 < h ->
  exists p, rect_geometry float_parse o = Ok p /\ closed p = true /\ List.length (parts p) = 4%nat /\
  forall i c s e, nth_error [(V (x + r) (y + r), V x (y + r), V (x + r) y); (V (x + (w - r)) (y + r), V (x + (w - r)) y, V (x + w) (y + r));
      (V (x + (w - r)) (y + (h - r)), V (x + w) (y + (h - r)), V (x + (w - r)) (y + h)); (V (x + r) (y + (h - r)), V (x + r) (y + h), V x (y + (h - r)))] i = Some (c, s, e) ->
    GluePath.rounded p i r /\ fst (bulge_center i p) = Ok c /\ fst (bulge_start_point i p) = Ok s /\ fst (bulge_stop_point i p) = Ok e.
Proof. intros. eapply rect_rounded; eassumption. Qed.
Print Assumptions C117_rounded_partial.
(** A rectangle without vertical radius is a closed path along the four sides, whatever its horizontal radius is. *)
Theorem C117_sharp_partial : forall float_parse o x y w h vw vh vrx vry, has o "width" vw -> float_of float_parse vw = Ok w -> has o "height" vh -> float_of float_parse vh = Ok h ->
  has o "x" (VNumber x) -> has o "y" (VNumber y) -> has o "rx" vrx -> has o "ry" vry -> (vry = VNone \/ vry = VNumber 0) ->
  exists p, rect_geometry float_parse o = Ok p /\ closed p = true /\ GluePath.sharp p /\ List.length (parts p) = 4%nat /\
  forall i a b, nth_error [(V x y, V (x + w) y); (V (x + w) y, V (x + w) (y + h)); (V (x + w) (y + h), V x (y + h)); (V x (y + h), V x y)] i = Some (a, b) ->
    start_point p i = Ok a /\ stop_point p i = Ok b.
Proof. intros. eapply rect_sharp; eassumption. Qed.
Print Assumptions C117_sharp_partial.
(** A horizontal radius alone, which rounds the corners in SVG, is ignored. *)
Theorem C117_radius_refuted : forall float_parse o x y w h vw vh r, has o "width" vw -> float_of float_parse vw = Ok w -> has o "height" vh -> float_of float_parse vh = Ok h ->
  has o "x" (VNumber x) -> has o "y" (VNumber y) -> has o "rx" (VNumber r) -> 0 < r -> has o "ry" VNone ->
  exists p, rect_geometry float_parse o = Ok p /\ GluePath.sharp p.
Proof.
  intros float_parse o x y w h vw vh r Hw Ew Hh Eh Hx Hy Hr _ Hry. destruct (rect_sharp float_parse o x y w h vw vh (VNumber r) Hw Ew Hh Eh Hx Hy Hr VNone Hry (or_introl eq_refl)) as (p & P & _ & SH & _).
  exists p. auto.
Qed.
Print Assumptions C117_radius_refuted.
(** A rectangle without x or y, which is at zero in SVG, has no geometry. *)
Theorem C117_default_refuted : forall float_parse o w h vw vh vrx vry, has o "width" vw -> float_of float_parse vw = Ok w -> has o "height" vh -> float_of float_parse vh = Ok h ->
  has o "rx" vrx -> has o "ry" vry -> has o "x" VNone \/ has o "y" VNone -> ~ is_ok (rect_geometry float_parse o).
Proof. exact rect_unplaced. Qed.
Print Assumptions C117_default_refuted.
Definition rounded_rect : xml := el "rect" [("x", "1"); ("y", "2"); ("width", "30"); ("height", "40"); ("ry", "5")]%string [].
Example C117_read : exists o, from_xml dparse 10 rounded_rect = Ok o /\ has o "x" (VNumber (IZR 1)) /\ has o "y" (VNumber (IZR 2)) /\
  has o "width" (VText (lit "30")) /\ float_of dparse (VText (lit "30")) = Ok (IZR 30) /\ has o "height" (VText (lit "40")) /\ has o "rx" VNone /\ has o "ry" (VNumber (IZR 5)).
Proof. eexists. split; [reflexivity|]. repeat split; try reflexivity. Qed.

(** ** C118: the page which is written *)

(** The root has the size of the page in millimetres, within half a thousandth, and the view box of this size from the origin; after
    a comment come the elements of the objects in order, in a group when there is a transformation. *)
Theorem C118_page : forall float_str float_parse fuel w h l t x, write_root float_str float_parse fuel w h l t = Ok x ->
  exists a c sw sh, x = Element (lit "svg") a (Comment :: c) /\
  decimal sw w /\ decimal sh h /\ lookup a (lit "width") = Some (sw ++ lit "mm") /\ lookup a (lit "height") = Some (sh ++ lit "mm") /\
  lookup a (lit "viewBox") = Some (lit "0 0 " ++ sw ++ lit " " ++ sh) /\
  exists m, Forall2 (fun o y => to_xml float_str o = Ok y) l m /\
    match t with
    | None => c = m
    | Some t => c = [Element (lit "g") [(lit "transform", transform_to_xml float_str t)] m]
    end.
Proof. exact written_page. Qed.
Print Assumptions C118_page.
(** What is written cannot be read back: the comment. *)
Theorem C119_comment_refuted : forall float_str float_parse fuel w h l t x, write_root float_str float_parse fuel w h l t = Ok x ->
  ~ is_ok (read_file float_parse fuel (stored x)).
Proof. exact written_unreadable. Qed.
Print Assumptions C119_comment_refuted.
Definition filled (cls : string) (vs : list (string * value)) : object := Object (lit cls)
  (map (fun a => (a_py a, match lookup (map (fun p => (lit (fst p), snd p)) vs) (a_py a) with Some v => v | None => VNone end)) (table (lit cls))).
Definition disc : object := filled "Circle" [("cx", VNumber (IZR 1)); ("cy", VNumber (IZR (-2))); ("r", VNumber (IZR 30)); ("stroke_width", VNumber (IZR 3));
  ("stroke_dasharray", VNumbers [IZR 1; IZR 2]); ("style", VText (lit "fill:red;stroke:blue"))]%string.
Lemma disc_writable : writable zstr dparse disc.
Proof.
  exists (lit "circle"), (lit "Circle"). eexists. split; [left; reflexivity|]. split; [left; reflexivity|]. split.
  - intros b B. cbn in B. repeat destruct B as [<-|B]; try destruct B; (eexists; split; [reflexivity|]); try (left; reflexivity); right; cbn [attr a_kind].
    + eexists. split; [reflexivity|]. apply zstr_exact.
    + eexists. split; [|split; [reflexivity|]]; [discriminate|]. intros x [<-|[<-|[]]]; apply zstr_exact.
    + eexists. split; [reflexivity|]. intros c C. left. cbn in C. repeat destruct C as [<-|C]; try destruct C; vm_compute; lia.
    + eexists. split; [reflexivity|]. apply zstr_exact.
    + eexists. split; [reflexivity|]. apply zstr_exact.
    + eexists. split; [reflexivity|]. apply zstr_exact.
  - intros s d E D. injection E as <-. vm_compute in D. destruct D as [<-|[<-|[]]]; (eexists; eexists; split; [reflexivity|vm_compute; discriminate]).
Qed.
Example C118_disc : is_ok (write_root zstr dparse 10 (IZR 210) (IZR 297) [disc] None).
Proof. destruct (file_back zstr dparse 10 (IZR 210) (IZR 297) [disc]) as (tag & a & c & f & W & _); [exact (dparse_int 0)|intros s n E; unfold dparse; rewrite E; reflexivity|repeat constructor; apply disc_writable|]. eexists. exact W. Qed.

(** ** C119: what is written is read back *)

(** An object without transformation nor path data, whose numbers are written exactly, is read back from its element with the
    same values, a polyline as a polygon.  Missing: path data, transformations, lengths with a unit. *)
Theorem C119_element_partial : forall float_str float_parse fuel n cls l o, In (n, cls, l) readers -> same_shape n cls o -> complete float_str float_parse o l ->
  exists x o', to_xml float_str o = Ok x /\ from_xml float_parse fuel (stored x) = Ok o' /\ o_class o' = cls /\
    forall b, In b l -> lookup (o_values o') (a_py b) = lookup (o_values o) (a_py b).
Proof. exact element_back. Qed.
Print Assumptions C119_element_partial.
(** A file without its comment is read back: the same objects in the same order, and the page within half a thousandth. *)
Theorem C119_file_partial : forall float_str float_parse fuel w h l, float_parse (lit "0") = Ok 0 -> (forall s n, thousandths s = Some n -> float_parse s = Ok (IZR n / 1000)) ->
  Forall (writable float_str float_parse) l ->
  exists tag a c f, write_root float_str float_parse fuel w h l None = Ok (Element tag a (Comment :: c)) /\ read_file float_parse fuel (stored (Element tag a c)) = Ok f /\
    Forall2 restored l (map fst (f_items f)) /\
    exists w' h', f_view_box f = Box (Itv 0 w') (Itv 0 h') /\ Rabs (w' - w) <= / 2000 /\ Rabs (h' - h) <= / 2000.
Proof. exact file_back. Qed.
Print Assumptions C119_file_partial.
(** The path data, once read, cannot be written. *)
Theorem C119_path_refuted : forall float_str o p, o_class o = lit "Path" -> has o "path_data" (VPath p) -> ~ is_ok (to_xml float_str o).
Proof. intros float_str. exact (path_unwritten float_str dparse). Qed.
Print Assumptions C119_path_refuted.
(** An object with a transformation cannot be read back. *)
Theorem C119_transform_refuted : forall float_str float_parse fuel n cls l o t x, In (n, cls, l) readers -> same_shape n cls o -> has o "transform" (VTransform t) ->
  refuses_spaces float_parse -> (forall x, float_str x <> []) ->
  (forall x c, In c (float_str x) -> ModelXml.is_space c = false /\ c <> "("%char /\ c <> ")"%char /\ c <> ","%char) ->
  to_xml float_str o = Ok x -> ~ is_ok (from_xml float_parse fuel (stored x)).
Proof. exact transform_unread. Qed.
Print Assumptions C119_transform_refuted.
Example C119_disc : Forall (writable zstr dparse) [disc; disc].
Proof. repeat constructor; apply disc_writable. Qed.
Definition moved : object := filled "Rect" [("transform", VTransform (translation (V 2 3)))]%string.
Example C119_moved : is_ok (to_xml (fun _ => lit "1") moved) /\ has moved "transform" (VTransform (translation (V 2 3))) /\ same_shape (lit "rect") (lit "Rect") moved.
Proof. split; [eexists; reflexivity|]. split; [reflexivity|left; reflexivity]. Qed.
