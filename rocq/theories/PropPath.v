(** Properties C27, C28, C78, C79: paths. *)
From Coq Require Import Reals List Lra Lia.
From Verif Require Import Base ModelVector ModelTransformation ModelLine ModelBezier ModelConic ModelPath.
From Verif Require Import SpecVector SpecTransformation SpecConic SpecPath GluePath.
From Verif Require Import ProofVector ProofPath ProofPath2 ProofPath5 ProofPath6 ProofPath7 ProofPath8.
Import ListNotations.
Local Open Scope R_scope.

(** C27.  [pen] is what a command means; [drawable] leaves out the absolute form of horizontal_to and
    vertical_to, and the stringed curves. *)
Theorem C27_pen_partial : forall a l p, Forall drawable l -> draw (new_path a) l = Ok p ->
  follows p (trace a a (map pen l)).
Proof. exact draw_follows. Qed.
Print Assumptions C27_pen_partial.

Theorem C27_defined : forall a l, Forall drawable l -> roundable [] l -> is_ok (draw (new_path a) l).
Proof. exact new_draw_ok. Qed.
Print Assumptions C27_defined.

Theorem C27_after_close_partial : forall p c p', closed p = true -> do_command p c = Ok p' ->
  match c with Close _ cr => cr | _ => None end = None -> p' = p.
Proof. exact after_close. Qed.
Print Assumptions C27_after_close_partial.

Theorem C27_pen_refuted : ~ (forall a l p, draw (new_path a) l = Ok p -> follows p (trace a a (map pen l))).
Proof. exact follows_refuted. Qed.
Print Assumptions C27_pen_refuted.
(** The stringed quadratic curve is never drawn; the stringed cubic curve is added, and the point where it stops, from which
    what follows should start, is not implemented. *)
Theorem C27_stringed_refuted :
  (forall p q absolute, do_command p (StringedQuadraticTo q absolute) = Raise NameError) /\
  (forall p a b absolute, closed p = false -> exists p', do_command p (StringedCubicTo a b absolute) = Ok p' /\
    length (parts p') = S (length (parts p)) /\
    stop_point p' (length (parts p)) = Raise NotImplementedError /\ start_point p' (S (length (parts p))) = Raise NotImplementedError).
Proof.
  split; [reflexivity|]. intros p a b absolute H. cbn [do_command]. unfold add_part. rewrite H. cbn [bind].
  eexists. split; [reflexivity|]. unfold set_parts. cbn [parts]. rewrite app_length. cbn [length]. split; [lia|].
  assert (N : nth_error (parts p ++ [PStringed absolute]) (length (parts p)) = Some (PStringed absolute)).
  { rewrite nth_error_app2, Nat.sub_diag by lia. reflexivity. }
  unfold stop_point. cbn [start_point parts]. rewrite N. split; reflexivity.
Qed.
Print Assumptions C27_stringed_refuted.
Theorem C27_after_close_refuted :
  ~ (forall a l p c p', draw (new_path a) l = Ok p -> closed p = true -> do_command p c = Ok p' -> p' = p).
Proof. exact closed_refuted. Qed.
Print Assumptions C27_after_close_refuted.
Theorem C27_move_refuted :
  ~ (forall a l p q, draw (new_path a) l = Ok p -> Forall drawable l -> follows (move_to p q) (trace q q (map pen l))).
Proof. exact move_refuted. Qed.
Print Assumptions C27_move_refuted.

Example C27_case : exists p, draw (new_path (V 1 2))
    [LineTo (V 3 4) None false; AbsoluteHorizontalTo 10 (Some 1); CompassTo South 2 None; QuadraticTo (V 1 1) (V 0 0) true; Close None None] = Ok p /\
  length (parts p) = 5%nat /\ start_point p 2 = Ok (V 10 (2 + 4)) /\ stop_point p 3 = Ok (V 0 0) /\ stop_point p 4 = Ok (V 1 2).
Proof.
  eexists. split; [reflexivity|]. split; [reflexivity|].
  split; [cbn; f_equal; apply vec_eq; cbn; ring|]. split; reflexivity.
Qed.
Example C27_case_hypotheses :
  Forall drawable [LineTo (V 3 4) None false; AbsoluteHorizontalTo 10 (Some 1); CompassTo South 2 None; QuadraticTo (V 1 1) (V 0 0) true; Close None None] /\
  roundable [] [LineTo (V 3 4) None false; AbsoluteHorizontalTo 10 (Some 1); CompassTo South 2 None; QuadraticTo (V 1 1) (V 0 0) true; Close None None].
Proof. split; [repeat constructor|]. cbn. repeat split; try congruence; constructor. Qed.

(** C28.  [history] is any sequence of commands, readings, transformations and moves. *)
Theorem C28_points : forall a l p t p', history (new_path a) l = Ok p -> transform_path t p = Ok p' ->
  p0 p' = apply t (p0 p) /\ closed p' = closed p /\ length (parts p') = length (parts p) /\
  forall i, (i < length (parts p))%nat -> exists s e,
    start_point p i = Ok s /\ start_point p' i = Ok (apply t s) /\ stop_point p i = Ok e /\ stop_point p' i = Ok (apply t e).
Proof. exact history_points. Qed.
Print Assumptions C28_points.

Theorem C28_defined_partial : forall a l p t, history (new_path a) l = Ok p -> ~ has_stringed p ->
  (forall i r, rounded p i r -> is_ok (scalar t r)) -> is_ok (transform_path t p).
Proof. exact transform_defined. Qed.
Print Assumptions C28_defined_partial.

Theorem C28_geometry_partial : forall a l p t p' i g, history (new_path a) l = Ok p -> sharp p ->
  transform_path t p = Ok p' -> fst (geometry i p) = Ok g -> (forall x, g <> GArc x) ->
  exists g', fst (geometry i p') = Ok g' /\ piece_image (apply t) g g'.
Proof. exact sharp_image. Qed.
Print Assumptions C28_geometry_partial.

Theorem C28_corner_partial : forall e k a l p p' i r A P B d1 d2, similarity (apply (build e)) k -> 0 < k ->
  scalar (build e) r = Ok (k * r) -> Forall drawing l -> history (new_path a) l = Ok p -> unread p ->
  transform_path (build e) p = Ok p' -> rounded p i r ->
  start_point p (before p i) = Ok A -> start_point p i = Ok P -> stop_point p i = Ok B ->
  heading A P d1 -> heading P B d2 -> vx d1 * vy d2 - vy d1 * vx d2 <> 0 ->
  rounded p' i (k * r) /\ exists c s f,
    fst (bulge_center i p) = Ok c /\ fst (bulge_start_point i p) = Ok s /\ fst (bulge_stop_point i p) = Ok f /\
    fst (bulge_center i p') = Ok (apply (build e) c) /\ fst (bulge_start_point i p') = Ok (apply (build e) s) /\
    fst (bulge_stop_point i p') = Ok (apply (build e) f).
Proof. exact rounded_corner_image. Qed.
Print Assumptions C28_corner_partial.

(** The same when a direction was read before. *)
Theorem C28_corner_refuted : ~ (forall e k a l p p' i r A P B d1 d2, similarity (apply (build e)) k -> 0 < k ->
  scalar (build e) r = Ok (k * r) -> Forall drawing l -> history (new_path a) l = Ok p ->
  transform_path (build e) p = Ok p' -> rounded p i r ->
  start_point p (before p i) = Ok A -> start_point p i = Ok P -> stop_point p i = Ok B ->
  heading A P d1 -> heading P B d2 -> vx d1 * vy d2 - vy d1 * vx d2 <> 0 ->
  exists c, fst (bulge_center i p) = Ok c /\ fst (bulge_center i p') = Ok (apply (build e) c)).
Proof. exact stale_refuted. Qed.
Print Assumptions C28_corner_refuted.

(** The sides drawn by a directional command are trimmed at the rounded corners after a
    transformation only. *)
Theorem C28_side_refuted : ~ (forall e k a l p p' i s, similarity (apply (build e)) k -> 0 < k -> Forall drawing l ->
  history (new_path a) l = Ok p -> unread p -> transform_path (build e) p = Ok p' -> fst (geometry i p) = Ok (GSegment s) ->
  fst (geometry i p') = Ok (GSegment (Seg (apply (build e) (s_p0 s)) (apply (build e) (s_p1 s))))).
Proof. exact side_refuted. Qed.
Print Assumptions C28_side_refuted.

Theorem C28_arc_refuted : ~ (forall e k a l p p' i q rx ry angle large sweep f, similarity (apply (build e)) k -> 0 < k ->
  history (new_path a) l = Ok p -> transform_path (build e) p = Ok p' ->
  nth_error (parts p) i = Some (PArc q rx ry angle large sweep f) ->
  exists q' angle' large' sweep' f', nth_error (parts p') i = Some (PArc q' (k * rx) (k * ry) angle' large' sweep' f')).
Proof. exact arc_refuted. Qed.
Print Assumptions C28_arc_refuted.

(** A rounded path cannot be put upside down with the screen transformation. *)
Theorem C28_defined_refuted : ~ (forall a l p e, history (new_path a) l = Ok p -> ~ has_stringed p ->
  rigid (apply (build e)) -> is_ok (transform_path (build e) p)).
Proof. exact sheared_refuted. Qed.
Print Assumptions C28_defined_refuted.

(** C78.  Rounded corners. *)
Theorem C78_fillet : forall a l p i r A P B d1 d2, Forall drawing l -> history (new_path a) l = Ok p -> rounded p i r -> 0 < r ->
  start_point p (before p i) = Ok A -> start_point p i = Ok P -> stop_point p i = Ok B ->
  heading A P d1 -> heading P B d2 -> vx d1 * vy d2 - vy d1 * vx d2 <> 0 ->
  exists c s e, fst (bulge_center i p) = Ok c /\ fst (bulge_start_point i p) = Ok s /\ fst (bulge_stop_point i p) = Ok e /\
    fillet P d1 d2 r c s e.
Proof. exact rounded_corner. Qed.
Print Assumptions C78_fillet.

Theorem C78_arc : forall a l p i r A P B d1 d2, Forall drawing l -> history (new_path a) l = Ok p -> rounded p i r -> 0 < r ->
  start_point p (before p i) = Ok A -> start_point p i = Ok P -> stop_point p i = Ok B ->
  heading A P d1 -> heading P B d2 -> vx d1 * vy d2 - vy d1 * vx d2 <> 0 ->
  exists c s e u v, fst (bulge_geometry i p) = Ok (Circ c r (Some (Dom u v))) /\ fillet P d1 d2 r c s e /\ short_turn u v /\
    (0 < vx d1 * vy d2 - vy d1 * vx d2 -> polar c r u s /\ polar c r v e) /\
    (vx d1 * vy d2 - vy d1 * vx d2 < 0 -> polar c r u e /\ polar c r v s).
Proof. exact corner_arc. Qed.
Print Assumptions C78_arc.

Theorem C78_rectangle : forall q w h r, 0 < r -> 0 < w -> 0 < h ->
  exists p, rounded_rectangle q w h (Some r) = Ok p /\ closed p = true /\ length (parts p) = 4%nat /\
  forall i c s e, nth_error
    (let at_ x y := V (vx q + x) (vy q + y) in
     [(at_ r r, at_ 0 r, at_ r 0); (at_ (w - r) r, at_ (w - r) 0, at_ w r);
      (at_ (w - r) (h - r), at_ w (h - r), at_ (w - r) h); (at_ r (h - r), at_ r h, at_ 0 (h - r))]) i = Some (c, s, e) ->
    rounded p i r /\ fst (bulge_center i p) = Ok c /\ fst (bulge_start_point i p) = Ok s /\ fst (bulge_stop_point i p) = Ok e.
Proof. exact rectangle_ok. Qed.
Print Assumptions C78_rectangle.

(** The path called circle: four quarters of the circle of radius r around q + (r, r) which join. *)
Theorem C78_circle : forall q r, 0 < r -> exists p, circle_path q r = Ok p /\ length (parts p) = 4%nat /\ forall i, (i < 4)%nat ->
  exists j, fst (bulge_center i p) = Ok (V (vx q + r) (vy q + r)) /\ rounded p i r /\
    fst (bulge_stop_point i p) = Ok j /\ fst (bulge_start_point (Nat.modulo (i + 1) 4) p) = Ok j.
Proof. exact circle_path_ok. Qed.
Print Assumptions C78_circle.

(** A corner met by the hypotheses of C78_fillet, C78_arc and C28_corner_partial: a rotation by 90
    degrees of the corner at (10, 0). *)
Example C78_case : exists p p', history (new_path (V 0 0)) (map Command [LineTo (V 10 0) None true; LineTo (V 10 10) (Some 1) true]) = Ok p /\
  rounded p 1 1 /\ unread p /\ start_point p (before p 1) = Ok (V 0 0) /\ start_point p 1 = Ok (V 10 0) /\ stop_point p 1 = Ok (V 10 10) /\
  heading (V 0 0) (V 10 0) (V 1 0) /\ heading (V 10 0) (V 10 10) (V 0 1) /\ transform_path (build (ERotation 90)) p = Ok p'.
Proof.
  eexists. eexists. split; [reflexivity|].
  split; [eexists; eexists; split; [reflexivity|cbn; f_equal; apply Rabs_R1]|].
  split; [intros [|[|i]] s c H; cbn in H; try (injection H as <- <-; cbn; auto); destruct i; discriminate|].
  split; [reflexivity|]. split; [reflexivity|]. split; [reflexivity|].
  split; [apply (heading_x _ _ 10); cbn; lra|]. split; [apply (heading_y _ _ 10); cbn; lra|]. reflexivity.
Qed.

(** C79.  Copies and conversions. *)
Theorem C79_clone_partial : forall p p', clone_path p = Ok p' ->
  p0 p' = p0 p /\ length (parts p') = length (parts p) /\ closed p' = false /\
  forall i, match nth_error (parts p) i with
            | Some (Linear s c) => exists c', nth_error (parts p') i = Some (Linear s c') /\ radius c' = option_map Rabs (radius c)
            | Some q => nth_error (parts p') i = Some q
            | None => nth_error (parts p') i = None
            end.
Proof. exact clone_sound. Qed.
Print Assumptions C79_clone_partial.
Theorem C79_clone_raises : forall p,
  (exists q, In q (parts p) /\ match q with Linear (PLine _ _) _ | PCubic _ _ _ _ | PStringed _ => True | _ => False end) ->
  ~ is_ok (clone_path p).
Proof. exact clone_never. Qed.
Print Assumptions C79_clone_raises.
Theorem C79_clone_refuted : ~ (forall a l p, draw (new_path a) l = Ok p -> is_ok (clone_path p)).
Proof. exact clone_refuted. Qed.
Print Assumptions C79_clone_refuted.
Example C79_clone_case : exists p p', draw (new_path (V 1 2)) [HorizontalTo 3 None false; VerticalTo 4 (Some (-1)) false; AbsoluteHorizontalTo 9 None] = Ok p /\
  clone_path p = Ok p' /\ stop_point p' 2 = stop_point p 2.
Proof. eexists. eexists. split; [reflexivity|]. split; reflexivity. Qed.

Theorem C79_polygon : forall a l, exists p, polygon_to_path (a :: l) = Ok p /\ follows p (trace a a (map To l ++ [Home])).
Proof. exact polygon_path. Qed.
Print Assumptions C79_polygon.
(** The points of a polyline are taken as offsets. *)
Theorem C79_polyline_refuted : ~ (forall a l p, polyline_to_path (a :: l) = Ok p -> follows p (trace a a (map To l))).
Proof. exact polyline_refuted. Qed.
Print Assumptions C79_polyline_refuted.
Theorem C79_polyline_offsets : forall a l p, polyline_to_path (a :: l) = Ok p -> follows p (trace a a (map By l)).
Proof. exact polyline_path_ok. Qed.
Print Assumptions C79_polyline_offsets.
