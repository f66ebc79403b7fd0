(** Properties C120 to C122: drawing geometric primitives in a scene; C20 on the closed intervals. *)
From Coq Require Import Reals List Lra Lia String.
From Verif Require Import Base ModelVector ModelTransformation ModelLine ModelBezier ModelConic ModelPath ModelSpline.
From Verif Require Import ModelPainter ModelDrawing SpecVector SpecPath GluePath SpecDrawing.
From Verif Require ModelScene SpecPainter SpecConic ProofSvgTransform.
Import ModelScene(position, PVector, PName, PNumber, coordinates, cast_position).
Import SpecPainter(covers, on_segment).
From Verif Require Import ProofVector ProofPath3 ProofPath7 ProofDrawing ProofDrawing2 ProofDrawing3 ProofDrawing4 ProofDrawing5 ProofDrawing6.
Import ListNotations.
Local Open Scope R_scope.

(** C20.  The curves meet the spline on the whole intervals, their ends included. *)
Theorem C20_joined : forall pts p s, p = 2%nat \/ p = 3%nat -> new_bspline pts p false None = Ok s ->
  exists curves, to_bezier s = Ok curves /\ List.length curves = (List.length pts - p)%nat /\
  forall k c x, nth_error curves k = Some c -> INR k <= x <= INR k + 1 -> point_at_t s x false = Ok (curve_point c (x - INR k)).
Proof. exact to_bezier_closed. Qed.
Print Assumptions C20_joined.

(** C120.  Drawing a primitive *)
Theorem C120_plain : forall g c, plain_primitive g -> exists sh, add_geometry g = ([sh], None) /\
  forall x, covers (cast_position identity c) sh x <-> points_of g x.
Proof. exact plain_covers. Qed.
Print Assumptions C120_plain.
Theorem C120_spline : forall pts s k, new_bspline pts 3 false None = Ok s -> exists l, add_geometry (Spline s) = (l, None) /\
  List.length l = (List.length pts - 3)%nat /\
  forall x, (exists sh, In sh l /\ covers (cast_position identity k) sh x) <->
            (exists t, 0 <= t <= INR (List.length pts - 3) /\ point_at_t s t false = Ok x).
Proof. exact spline_covers. Qed.
Print Assumptions C120_spline.
(** A quadratic spline is not drawn, an arc of an ellipse is drawn whole, a line is refused. *)
Theorem C120_quadratic_refuted : forall pts s, new_bspline pts 2 false None = Ok s -> add_geometry (Spline s) = ([], Some TypeError).
Proof. exact quadratic_spline. Qed.
Print Assumptions C120_quadratic_refuted.
(** Every other spline is refused, and nothing is drawn: one with its knots, a closed one, and any degree but three. *)
Theorem C120_splines_refuted : forall pts p c k s, new_bspline pts p c k = Ok s -> p <> 3%nat \/ c = true \/ k <> None ->
  exists e, add_geometry (Spline s) = ([], Some e) /\
    (k <> None -> e = ValueError) /\ (k = None -> (p < 2)%nat -> e = UnboundLocalError) /\ (k = None -> (2 <= p)%nat -> e = TypeError).
Proof. exact other_splines. Qed.
Print Assumptions C120_splines_refuted.
Theorem C120_ellipse_refuted : forall k, exists e d sh x, e_domain e = Some d /\ 0 < e_rx e /\ 0 < e_ry e /\
  add_geometry (Ellipse e) = ([sh], None) /\
  covers (cast_position identity k) sh x /\ forall a, d_start d <= a <= d_stop d -> ellipse_point_at_angle e a <> x.
Proof. exact ellipse_refuted. Qed.
Print Assumptions C120_ellipse_refuted.
Theorem C120_line_refuted : forall l, add_geometry (Line l) = ([], Some NotImplementedError).
Proof. reflexivity. Qed.
Print Assumptions C120_line_refuted.

Example C120_case : plain_primitive (Circle (Circ (V 1 2) 3 (Some (Dom 300 30)))) /\
  points_of (Circle (Circ (V 1 2) 3 (Some (Dom 300 30)))) (V 4 2) /\
  plain_primitive (Ellipse (Ell (V 1 2) 3 4 30 None)) /\ plain_primitive (Polygon [V 0 0; V 1 0; V 0 1]).
Proof.
  split; [cbn; lra|]. split.
  - cbn. unfold on_circular_arc. destruct (Rle_dec 360 (Rabs (30 - 300))) as [L|L].
    + unfold Rabs in L. destruct (Rcase_abs (30 - 300)); lra.
    + exists 90, 360. split; [lra|]. split; [exists (-1)%Z; lra|]. split; [lra|].
      assert (R2 : rad 360 = 2 * PI) by (unfold rad; field).
      unfold SpecConic.polar. rewrite ?R2, ?cos_2PI, ?sin_2PI. cbn. split; ring.
  - split; cbn; repeat split; lra || lia.
Qed.
Example C120_spline_case : exists s, new_bspline [V 0 0; V 1 1; V 2 0; V 3 1; V 4 4] 3 false None = Ok s.
Proof. eexists. reflexivity. Qed.

(** C121.  Drawing a path: [outline] has the straight parts cut by the arcs of the rounded corners, these arcs, and the
    curves.  The path is left as it was, but for its caches. *)
Theorem C121_segments_partial : forall a l p k, Forall drawing l -> history (new_path a) l = Ok p -> closed_once l -> proper p -> without_arcs p ->
  exists m p', add_as_path_segments p = (m, None, p') /\
  (forall x, (exists sh, In sh m /\ covers (cast_position identity k) sh x) <-> outline p x) /\
  List.length (parts p') = List.length (parts p) /\ closed p' = closed p /\
  forall i, start_point p' i = start_point p i /\ stop_point p' i = stop_point p i.
Proof.
  intros a l p k Hd He Ho Hp Ha. destruct (path_covers a l p Hd He Ho Hp Ha k) as (m & p' & E & S & C).
  exists m, p'. split; [exact E|]. split; [exact C|]. split; [symmetry; apply same_length, S|]. split; [symmetry; apply same_closed, S|].
  intros i. split; symmetry; [apply same_start, S|apply same_stop, S].
Qed.
Print Assumptions C121_segments_partial.
Theorem C121_item_partial : forall a l p k, Forall drawing l -> history (new_path a) l = Ok p -> (forall i r, ~ rounded p i r) -> without_arcs p ->
  exists sh, add_as_path p = ([sh], None) /\ forall x, covers (cast_position identity k) sh x <-> outline p x.
Proof. intros a l p k Hd He Hs Ha. exact (item_covers a l p Hd He Hs Ha k). Qed.
Print Assumptions C121_item_partial.
Theorem C121_item_refuted : ~ (forall a l p k, Forall drawing l -> history (new_path a) l = Ok p -> closed_once l -> proper p -> without_arcs p ->
  exists m, add_as_path p = (m, None) /\ forall x, (exists sh, In sh m /\ covers (cast_position identity k) sh x) <-> outline p x).
Proof. exact as_path_refuted. Qed.
Print Assumptions C121_item_refuted.
Theorem C121_item_arc_refuted : forall q rx ry angle large sweep absolute, exists p,
  history (new_path (V 0 0)) [Command (ArcTo q rx ry angle large sweep absolute)] = Ok p /\
  add_as_path p = ([SPath (PVector (V 0 0)) [] false], None).
Proof. exact as_path_arc. Qed.
Print Assumptions C121_item_arc_refuted.
Theorem C121_twice_refuted : ~ (forall a l p k, Forall drawing l -> history (new_path a) l = Ok p -> proper p -> without_arcs p ->
  exists m p', add_as_path_segments p = (m, None, p') /\ forall x, (exists sh, In sh m /\ covers (cast_position identity k) sh x) <-> outline p x).
Proof. exact twice_refuted. Qed.
Print Assumptions C121_twice_refuted.
(** The start of an arc is not drawn. *)
Theorem C121_arc_refuted : ~ (forall a l p m p' k, Forall drawing l -> history (new_path a) l = Ok p -> add_as_path_segments p = (m, None, p') ->
  forall i v, (i < List.length (parts p))%nat -> start_point p i = Ok v -> exists sh, In sh m /\ covers (cast_position identity k) sh v).
Proof. exact arc_path_refuted. Qed.
Print Assumptions C121_arc_refuted.
Theorem C121_null_arc_refuted : forall q ry angle large sweep, exists p,
  history (new_path (V 0 0)) [Command (ArcTo q 0 ry angle large sweep true)] = Ok p /\
  add_as_path_segments p = ([], Some AttributeError, p).
Proof. exact null_arc. Qed.
Print Assumptions C121_null_arc_refuted.
(** A stringed curve is left out silently. *)
Theorem C121_stringed_refuted : forall a b absolute, exists p, history (new_path (V 0 0)) [Command (StringedCubicTo a b absolute)] = Ok p /\
  List.length (parts p) = 1%nat /\ add_as_path_segments p = ([], None, p) /\ add_as_path p = ([SPath (PVector (V 0 0)) [] false], None).
Proof. intros a b absolute. eexists. split; [reflexivity|]. repeat split. Qed.
Print Assumptions C121_stringed_refuted.

Example C121_case : Forall drawing elbow_commands /\ history (new_path (V 0 0)) elbow_commands = Ok elbow /\ closed_once elbow_commands /\
  proper elbow /\ without_arcs elbow /\ rounded elbow 1 1 /\ ~ outline elbow (V 4 0).
Proof.
  split; [repeat constructor|]. split; [exact elbow_drawn|]. split; [unfold closed_once; cbn; lia|]. split; [exact elbow_proper|].
  split; [exact elbow_arcs|]. split; [|exact elbow_corner]. eexists. eexists. split; [reflexivity|]. cbn. f_equal. apply Rabs_R1.
Qed.

(** C122.  The geometry of an item *)
Theorem C122_covers_partial : forall t c sh g x, get_geometry t c sh = Ok g ->
  match sh with
  | SText _ _ | SPath _ _ _ | SImage _ _ => False
  | SCircle _ r _ _ => 0 < r
  | SEllipse _ rx ry _ s e => 0 < rx /\ 0 < ry /\ 360 <= Rabs (e - s)
  | _ => True
  end -> covers (cast_position t c) sh x <-> points_of g x.
Proof. exact geometry_covers. Qed.
Print Assumptions C122_covers_partial.
(** A drawn primitive is found again in the item. *)
Theorem C122_back : forall g c, plain_primitive g -> exists sh g', add_geometry g = ([sh], None) /\
  get_geometry identity c sh = Ok g' /\ (forall x, points_of g' x <-> points_of g x) /\
  match g with
  | Circle k => g' = Circle (Circ (c_center k) (c_radius k) (Some (match c_domain k with Some d => d | None => Dom 0 360 end)))
  | Triangle p q r => g' = Polygon [p; q; r]
  | _ => g' = g
  end.
Proof. intros g c H. destruct (plain_item g c H) as (sh & g' & E & G & P & _ & K). exists sh, g'. auto. Qed.
Print Assumptions C122_back.
(** The geometry of an elliptical arc is the whole ellipse; a path has an empty path, a text a null rectangle. *)
Theorem C122_ellipse_refuted : ~ (forall t c sh g x, get_geometry t c sh = Ok g ->
  match sh with SCircle _ r _ _ => 0 < r | SEllipse _ rx ry _ _ _ => 0 < rx /\ 0 < ry | SText _ _ | SPath _ _ _ | SImage _ _ => False | _ => True end ->
  covers (cast_position t c) sh x <-> points_of g x).
Proof. exact geometry_refuted. Qed.
Print Assumptions C122_ellipse_refuted.
Theorem C122_path_refuted : forall t c p l closed v, cast_position t c p = Ok v ->
  get_geometry t c (SPath p l closed) = Ok (PathOf (new_path v)).
Proof. exact geometry_path. Qed.
Print Assumptions C122_path_refuted.
Theorem C122_text_refuted : forall t c p s v, cast_position t c p = Ok v -> get_geometry t c (SText p s) = Ok (Rectangle v v).
Proof. exact geometry_text. Qed.
Print Assumptions C122_text_refuted.

Example C122_case : get_geometry identity [(ModelFormula.lit "a"%string, V 1 2)] (SSegment (PName (ModelFormula.lit "a"%string)) (PVector (V 3 4))) = Ok (Segment (Seg (V 1 2) (V 3 4))).
Proof. cbn. rewrite !ProofSvgTransform.identity_apply. reflexivity. Qed.
