(** Theorems about the painters: C108 to C113. *)
From Coq Require Import Reals String Ascii List ZArith Lra.
From Verif Require Import Base ModelFormula ModelVector ModelTransformation ModelLine.
From Verif Require ModelScene ModelViewport.
Import ModelScene(position, PVector, PName, PNumber, coordinates, cast_position).
From Verif Require Import ModelPainter SpecPainter ProofPainter ProofPainter2 ProofPainter3.
From Verif Require Import ModelStyle.
From Verif Require ModelColor.
Import ListNotations.
Local Open Scope R_scope.

(** ** C108: SVG *)

(** A segment or a text is the image of the item, ten units per unit, with the ordinate flipped; for a
    box whose left side and upper side are at 0 the upper left corner of the box is the origin of the page. *)
Theorem C108_lines_partial : forall style ink gs t c b (s : style) sh (m : list (figure * option ink)),
  match sh with SText _ _ | SSegment _ _ => True | _ => False end ->
  svg_item style ink gs t c b s sh = Ok m ->
  depicts (fun p => V (10 * vx p - inf (bx b)) (- 10 * vy p - sup (by_ b))) (cast_position t c) sh m.
Proof.
  intros style ink gs t c b s sh m B H. destruct (svg_depicts _ _ _ _ _ _ _ _ _ B H) as [D1 D2]. split; [|exact D2].
  intros y. rewrite D1. split; intros (x&X&->); exists x; (split; [exact X|]); apply vec_eq; cbn; ring.
Qed.
Print Assumptions C108_lines_partial.

(** The scene is not put on the page. *)
Theorem C108_page_refuted : forall style ink (s : style) (i : ink), exists m, let b := Box (Itv 0 10) (Itv 0 10) in
  svg_item style ink (fun _ => Ok i) (scale 1 1) [] b s (SSegment (PVector (V 0 0)) (PVector (V 10 10))) = Ok m /\
  m <> [] /\ forall x y, In x m -> inked (fst x) y -> vy y < 0.
Proof. exact svg_page. Qed.
Print Assumptions C108_page_refuted.

(** Circles have no figure, cubic curves no element. *)
Theorem C108_lost_refuted : forall style ink (s : style) (i : ink),
  (exists m, svg_item style ink (fun _ => Ok i) (scale 1 1) [] (Box (Itv 0 0) (Itv 0 0)) s (SCircle (PVector (V 0 0)) 1 0 360) = Ok m /\
    ~ exists x y, In x m /\ inked (fst x) y) /\
  svg_item style ink (fun _ => Ok i) (scale 1 1) [] (Box (Itv 0 0) (Itv 0 0)) s
    (SCubic (PVector (V 0 0)) (PVector (V 1 0)) (PVector (V 1 1)) (PVector (V 0 1))) = Ok [].
Proof. exact svg_lost. Qed.
Print Assumptions C108_lost_refuted.

(** ** C109: DXF, PDF, matplotlib *)

(** A segment, a cubic curve or a text is the image of the item. *)
Theorem C109_dxf_partial : forall style ink gs t c (s : style) sh (m : list (figure * option ink)), basic sh ->
  dxf_item style ink gs t c s sh = Ok m -> depicts (fun p => vscale p 10) (cast_position t c) sh m.
Proof.
  intros style ink gs t c s sh m B H. destruct (dxf_depicts _ _ _ _ _ _ _ _ B H) as [D1 D2]. split; [|exact D2].
  intros y. rewrite D1. split; intros (x&X&->); exists x; (split; [exact X|]); apply vec_eq; cbn; ring.
Qed.
Print Assumptions C109_dxf_partial.
Theorem C109_mpl_partial : forall style ink gs t c (s : style) sh (m : list (figure * option ink)), basic sh ->
  mpl_item style ink gs t c s sh = Ok m -> depicts (fun p => p) (cast_position t c) sh m.
Proof. exact mpl_depicts. Qed.
Print Assumptions C109_mpl_partial.
(** On the page of a PDF file, in points of 1/72 inch: at the scale 0.7. *)
Theorem C109_pdf_partial : forall style ink t c b (s : style) sh (m : list (figure * option ink)), basic sh ->
  pdf_item style ink t c b s sh = Ok m ->
  let cm := 72 / 2.54 in
  depicts (fun p => V (cm * (0.7 * vx p - inf (bx b) + 1)) (cm * (0.7 * vy p - inf (by_ b) + 1))) (cast_position t c) sh m.
Proof.
  intros style ink t c b s sh m B H. destruct (pdf_depicts _ _ _ _ _ _ _ _ B H) as [D1 D2]. split; [|exact D2].
  intros y. rewrite D1. split; intros (x&X&->); exists x; (split; [exact X|]); apply vec_eq; unfold ModelPainter.cm; cbn; ring.
Qed.
Print Assumptions C109_pdf_partial.
(** They are never refused. *)
Theorem C109_defined_partial : forall style ink t c sh (gs : style -> result ink) s i, basic sh -> gs s = Ok i ->
  Forall (fun p => is_ok (cast_position t c p)) (positions sh) ->
  is_ok (dxf_item style ink gs t c s sh) /\ is_ok (mpl_item style ink gs t c s sh) /\
  forall b, is_ok (pdf_item style ink t c b s sh).
Proof. exact simple_defined. Qed.
Print Assumptions C109_defined_partial.
(** A circle is skipped, or a dot whatever its radius. *)
Theorem C109_circle_refuted : forall style ink (s : style) (i : ink) radius start stop t c p v b, cast_position t c p = Ok v ->
  dxf_item style ink (fun _ => Ok i) t c s (SCircle p radius start stop) = Ok [] /\
  (exists w, pdf_item style ink t c b s (SCircle p radius start stop) = Ok [(FDot w (2 * mm), None)]) /\
  mpl_item style ink (fun _ => Ok i) t c s (SCircle p radius start stop) = Ok [(FDot v 0.5, None)].
Proof. exact circles_wrong. Qed.
Print Assumptions C109_circle_refuted.
(** The corner of the scene is at the margin of the PDF page only if it is the origin. *)
Theorem C109_corner_refuted : forall b,
  placed (cm * (1 - inf (bx b))) (0.7 * cm) (cm * (1 - inf (by_ b))) (0.7 * cm) (V (inf (bx b)) (inf (by_ b))) = V cm cm <->
  inf (bx b) = 0 /\ inf (by_ b) = 0.
Proof. exact pdf_corner. Qed.
Print Assumptions C109_corner_refuted.
(** PdfPainter must be given a driver. *)
Theorem C109_driver_refuted : pdf_driver None = Raise KeyError /\ pdf_driver (Some (lit "reportlab"%string)) = Ok tt /\ dxf_driver None = Ok tt.
Proof. repeat split. Qed.
Print Assumptions C109_driver_refuted.

(** ** C110: the Qt painter *)

(** What is drawn in the window is the image of the item. *)
Theorem C110_depicts_partial : forall style ink gs t c v f, (forall p, ModelViewport.scene_to_viewport v p = Ok (f p)) ->
  forall (s : style) show sh (m : list (figure * option ink)), qt_ok t sh ->
  match sh with SCubic _ _ _ _ | SQuadratic _ _ _ => show = false | _ => True end ->
  qt_item style ink gs t c (ModelViewport.scene_to_viewport v) (ModelViewport.length_scene_to_viewport v) s show sh = Ok m ->
  depicts f (cast_position t c) sh m.
Proof. exact window_depicts. Qed.
Print Assumptions C110_depicts_partial.
Theorem C110_defined_partial : forall style ink (gs : style -> result ink) t c v f, (forall p, ModelViewport.scene_to_viewport v p = Ok (f p)) ->
  forall s show sh i, qt_ok t sh -> gs s = Ok i -> Forall (fun p => is_ok (cast_position t c p)) (positions sh) ->
  is_ok (qt_item style ink gs t c (ModelViewport.scene_to_viewport v) (ModelViewport.length_scene_to_viewport v) s show sh).
Proof. exact window_defined. Qed.
Print Assumptions C110_defined_partial.
(** The angle of an ellipse is ignored. *)
Theorem C110_ellipse_refuted : forall style ink (s : style) (i : ink), exists m,
  qt_item style ink (fun _ => Ok i) (scale 1 1) [] (fun v => Ok (placed 0 1 0 (-1) v)) (fun x => x * 1) s false (SEllipse (PVector (V 0 0)) 2 1 90 0 360) = Ok m /\
  ~ depicts (placed 0 1 0 (-1)) (cast_position (scale 1 1) []) (SEllipse (PVector (V 0 0)) 2 1 90 0 360) m.
Proof. exact ellipse_angle. Qed.
Print Assumptions C110_ellipse_refuted.
(** A closed path is not closed. *)
Theorem C110_closed_refuted : forall style ink (s : style) (i : ink), exists m,
  let p := SPath (PVector (V 0 0)) [LinearPart (PVector (V 1 0)); LinearPart (PVector (V 1 1))] true in
  qt_item style ink (fun _ => Ok i) (scale 1 1) [] (fun v => Ok (placed 0 1 0 (-1) v)) (fun x => x * 1) s false p = Ok m /\
  ~ depicts (placed 0 1 0 (-1)) (cast_position (scale 1 1) []) p m.
Proof. exact path_open. Qed.
Print Assumptions C110_closed_refuted.
(** A path which has a curve is not drawn. *)
Theorem C110_curved_refuted : forall style ink t c place len s (gs : style -> result ink) show p v l closed q r,
  cast_position t c p = Ok v -> is_ok (place v) ->
  qt_item style ink gs t c place len s show (SPath p (QuadraticPart q r :: l) closed) = Raise UnboundLocalError.
Proof. exact path_curved. Qed.
Print Assumptions C110_curved_refuted.
(** A rectangle neither. *)
Theorem C110_rectangle_refuted : forall style ink t c place len s (gs : style -> result ink) show p q,
  qt_item style ink gs t c place len s show (SRectangle p q) = Raise NotImplementedError.
Proof. reflexivity. Qed.
Print Assumptions C110_rectangle_refuted.
(** A quadratic curve is transformed twice. *)
Theorem C110_quadratic_refuted : forall style ink (s : style) (i : ink), exists m,
  let q := SQuadratic (PVector (V 0 0)) (PVector (V 1 1)) (PVector (V 2 0)) in
  qt_item style ink (fun _ => Ok i) (scale 2 2) [] (fun v => Ok (placed 0 1 0 (-1) v)) (fun x => x * 1) s false q = Ok m /\
  ~ depicts (placed 0 1 0 (-1)) (cast_position (scale 2 2) []) q m.
Proof. exact quadratic_twice. Qed.
Print Assumptions C110_quadratic_refuted.
(** In the files of to_svg, which does not flip the ordinate, the arcs are mirrored. *)
Theorem C110_mirror_refuted : forall style ink (s : style) (i : ink), exists m, let q := SCircle (PVector (V 0 0)) 1 0 90 in
  qt_item style ink (fun _ => Ok i) (scale 1 1) [] (to_svg_place 1) (to_svg_length 1) s false q = Ok m /\
  ~ depicts (placed 0 1 0 1) (cast_position (scale 1 1) []) q m.
Proof. exact svg_mirror. Qed.
Print Assumptions C110_mirror_refuted.

(** A window which shows the square of side 10 around the origin with 10 pixels per unit, and an arc. *)
Example C110_example :
  let v := ModelViewport.Viewport None (Some (V 100 100)) 10 (Some (V 0 0)) None (Some (V 5 (-5))) in
  (forall p, ModelViewport.scene_to_viewport v p = Ok (V (10 * vx p + 50) (50 - 10 * vy p))) /\
  qt_ok (scale 1 1) (SCircle (PVector (V 0 0)) 2 45 270) /\
  exists m, qt_item unit unit (fun _ => Ok tt) (scale 1 1) [] (ModelViewport.scene_to_viewport v)
              (ModelViewport.length_scene_to_viewport v) tt false (SCircle (PVector (V 0 0)) 2 45 270) = Ok m /\ m <> [].
Proof.
  cbn zeta. split; [|split].
  - intros p. unfold ModelViewport.scene_to_viewport. cbn. f_equal. apply vec_eq; cbn; ring.
  - right. split; [exists 720%Z; lra | exists 4320%Z; lra].
  - eexists. split; [reflexivity | discriminate].
Qed.

(** ** C111: arcs *)

(** The ends of an arc are within 1/16 degree. *)
Theorem C111_ends_partial : forall v rx ry start stop, Rabs (stop - start) < 360 -> exists m s,
  qt_arc v rx ry start stop = FArc v rx ry m s /\ (0 <= s <= 5760)%Z /\
  Rabs (IZR m / 16 - start) < 1 / 16 /\
  (start <= stop -> Rabs (IZR (m + s) / 16 - stop) < 1 / 16) /\
  (stop <= start - 1 / 8 -> Rabs (IZR (m + s) / 16 - (stop + 360)) < 1 / 16).
Proof. exact arc_close. Qed.
Print Assumptions C111_ends_partial.
(** Exactly the angles of the arc if its ends are multiples of 1/16 degree. *)
Theorem C111_exact_partial : forall start stop v rx ry, arc_ok start stop -> forall y,
  inked (qt_arc v rx ry start stop) y <->
  exists a, swept start stop a /\ y = V (vx v + rx * degrees_cos a) (vy v - ry * degrees_sin a).
Proof. exact arc_swept. Qed.
Print Assumptions C111_exact_partial.
(** An almost full circle may vanish. *)
Theorem C111_thin_refuted : let start := 1 / 20 in let stop := 0 in
  swept start stop 180 /\ forall y, inked (qt_arc (V 0 0) 1 1 start stop) y -> y = V 1 0.
Proof. exact arc_thin. Qed.
Print Assumptions C111_thin_refuted.

(** ** C112: TeX *)

(** The coordinates are declared first, then the items are drawn in their order; the numbers are within 0.005. *)
Theorem C112_lines_partial : forall c l lines, tex_figure c l = Ok lines ->
  List.length lines = (List.length c + List.length l)%nat /\
  (forall i n v, nth_error c i = Some (n, v) -> exists line, nth_error lines i = Some line /\ tikz_coordinate n v line) /\
  (forall i style sh, nth_error l i = Some (Ok style, sh) -> basic sh -> Forall written_position (positions sh) ->
     exists line, nth_error lines (List.length c + i) = Some line /\ tikz_line style sh line).
Proof. exact tex_figure_ok. Qed.
Print Assumptions C112_lines_partial.
(** The transformation of the scene is ignored. *)
Theorem C112_transformation_refuted : exists line, tex_item (Ok []) (SText (PVector (V 1 1)) []) = Ok line /\
  cast_position (scale 2 2) [] (PVector (V 1 1)) = Ok (V 2 2) /\ ~ tikz_line [] (SText (PVector (V 2 2)) []) line.
Proof. exact tex_transformation. Qed.
Print Assumptions C112_transformation_refuted.
Example C112_example : hundredths (lit "-12.05"%string) = Some (-1205)%Z /\
  exists lines, tex_figure [(lit "A"%string, V 1 2)] [(Ok (lit "solid"%string), SSegment (PName (lit "A"%string)) (PVector (V 3 4)))] = Ok lines.
Proof. split; [reflexivity | eexists; reflexivity]. Qed.

(** ** C113: pens *)

(** The pen of an item is the one of its style. *)
Theorem C113_style_partial : forall rf s c w q, s_stroke_color s = Some c -> s_fill_color s = None -> to_number rf (s_line_width s) = Ok w ->
  set_pen rf false s q = Ok (QPainter (Pen (Shade c (s_stroke_alpha s)) w (s_stroke_style s) (s_cap_style s) (s_join_style s)) None).
Proof. exact pen_style. Qed.
Print Assumptions C113_style_partial.
Theorem C113_selected_partial : forall rf s w q, s_fill_color s = None -> to_number rf (s_line_width s) = Ok w ->
  set_pen rf true s q = Ok (QPainter (Pen Red (ModelColor.fmul w (ModelColor.of_int 4)) (s_stroke_style s) (s_cap_style s) (s_join_style s)) None).
Proof. exact pen_selected. Qed.
Print Assumptions C113_selected_partial.
(** Items with a colour do not depend on what was painted before. *)
Theorem C113_independent_partial : forall rf bt bt' l,
  Forall (fun x => fst x = true \/ s_stroke_color (snd x) <> None \/ s_fill_color (snd x) <> None) l ->
  forall q q', pens rf bt l q = pens rf bt' l q'.
Proof. exact pens_independent. Qed.
Print Assumptions C113_independent_partial.
(** An item without any colour is drawn with the pen of the previous one. *)
Theorem C113_previous_refuted : forall rf s w q, s_stroke_color s = None -> s_fill_color s = None -> to_number rf (s_line_width s) = Ok w ->
  set_pen rf false s q = Ok (QPainter (q_pen q) None).
Proof. exact pen_previous. Qed.
Print Assumptions C113_previous_refuted.
(** The outline of a filled item has the colour of the filling, selected or not. *)
Theorem C113_fill_refuted : forall rf b s c w q, s_fill_color s = Some c -> to_number rf (s_line_width s) = Ok w -> exists w',
  set_pen rf b s q = Ok (QPainter (Pen (Shade c (s_fill_alpha s)) w' (s_stroke_style s) (s_cap_style s) (s_join_style s)) (Some (Shade c (s_fill_alpha s)))).
Proof. exact pen_fill. Qed.
Print Assumptions C113_fill_refuted.

(** A style without colour, of width 1. *)
Example C113_example : let s := PathStyle SolidLine (PArg (ModelColor.AFloat (ModelColor.of_int 1))) None (ModelColor.of_int 1) None (ModelColor.of_int 1) SquareCap BevelJoin in
  is_ok (to_number (fun _ => Raise ValueError) (s_line_width s)) /\ s_stroke_color s = None /\ s_fill_color s = None.
Proof. cbn zeta. split; [eexists; reflexivity | split; reflexivity]. Qed.
