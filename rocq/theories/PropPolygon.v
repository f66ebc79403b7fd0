(** Properties C26, C57, C67-C73: polygons and the convex hull.
    [ask q (after qs p)] is the answer to the query [q] after the queries [qs] have been asked. *)
From Coq Require Import Reals List Lra Lia Permutation.
From Verif Require Import Base ModelVector ModelPolygon SpecVector SpecLine SpecPolygon.
From Verif Require Import ProofVector ProofPolygon ProofPolygon2 ProofHull ProofHull2 ProofPolygon3 ProofSimplify.
Import ListNotations.
Local Open Scope R_scope.

(** C26.  The answers are those of the signed area [sweep], for every centre [o]. *)
Theorem C26_area : forall l p qs, new_polygon l = Ok p ->
  (simple l -> forall o, fst (ask AskArea (after qs p)) = Ok (AReal (Some (Rabs (sweep o l))))) /\
  (~ simple l -> fst (ask AskArea (after qs p)) = Ok (AReal None)).
Proof. exact area_answer. Qed.
Print Assumptions C26_area.

Theorem C26_barycenter : forall l p qs, new_polygon l = Ok p ->
  (simple l -> exists g, fst (ask AskBarycenter (after qs p)) = Ok (APoint g) /\
     forall o, (sweep o l = 0 -> Some g = hd_error l) /\ (sweep o l <> 0 -> vscale g (sweep o l) = moment o l)) /\
  (~ simple l -> fst (ask AskBarycenter (after qs p)) = Raise AttributeError).
Proof. exact barycenter_answer. Qed.
Print Assumptions C26_barycenter.

Theorem C26_clockwise : forall l p qs, new_polygon l = Ok p -> forall o,
  (simple l -> sweep o l < 0 -> fst (ask AskClockwise (after qs p)) = Ok (AClockwise (Some true))) /\
  (simple l -> 0 < sweep o l -> fst (ask AskClockwise (after qs p)) = Ok (AClockwise (Some false))) /\
  (simple l -> sweep o l = 0 -> fst (ask AskClockwise (after qs p)) = Raise AttributeError) /\
  (~ simple l -> fst (ask AskClockwise (after qs p)) = Ok (AClockwise None)).
Proof. exact clockwise_answer. Qed.
Print Assumptions C26_clockwise.

Theorem C26_first_vertex : forall a t p p' qs qs', new_polygon (a :: t) = Ok p -> new_polygon (t ++ [a]) = Ok p' ->
  same_answers p p' qs qs' AskSimple /\ same_answers p p' qs qs' AskArea /\
  same_answers p p' qs qs' AskClockwise /\ same_answers p p' qs qs' AskPerimeter /\
  (sweep o0 (a :: t) <> 0 -> same_answers p p' qs qs' AskBarycenter).
Proof. exact start_invariant. Qed.
Print Assumptions C26_first_vertex.

Theorem C26_reverse : forall l p p' qs qs', new_polygon l = Ok p -> new_polygon (rev l) = Ok p' ->
  same_answers p p' qs qs' AskSimple /\ same_answers p p' qs qs' AskArea /\
  same_answers p p' qs qs' AskPerimeter /\
  (sweep o0 l <> 0 -> same_answers p p' qs qs' AskBarycenter) /\
  (forall b, simple l -> fst (ask AskClockwise (after qs p)) = Ok (AClockwise (Some b)) ->
     fst (ask AskClockwise (after qs' p')) = Ok (AClockwise (Some (negb b)))).
Proof. exact reverse_invariant. Qed.
Print Assumptions C26_reverse.

(** Translations, rotations, scalings and every other invertible affine map. *)
Theorem C26_affine : forall a b e c d f l p p' qs qs',
  let F := affine a b e c d f in let det := a * d - b * c in
  new_polygon l = Ok p -> new_polygon (map F l) = Ok p' -> det <> 0 ->
  (Rabs det = 1 -> same_answers p p' qs qs' AskSimple) /\
  (simple l -> simple (map F l) -> sweep o0 l <> 0 -> exists A g,
     fst (ask AskArea (after qs p)) = Ok (AReal (Some A)) /\
     fst (ask AskArea (after qs' p')) = Ok (AReal (Some (Rabs det * A))) /\
     fst (ask AskBarycenter (after qs p)) = Ok (APoint g) /\
     fst (ask AskBarycenter (after qs' p')) = Ok (APoint (F g))).
Proof. exact affine_invariant. Qed.
Print Assumptions C26_affine.

Example C26_square : simple square /\ sweep o0 square = 1 /\ is_ok (new_polygon square).
Proof. split; [exact square_simple|]. split; [exact square_sweep|]. eexists. reflexivity. Qed.

(** C67.  No query changes the answer to another one. *)
Theorem C67_history : forall l p qs q, new_polygon l = Ok p -> fst (ask q (after qs p)) = fst (ask q p).
Proof. exact history. Qed.
Print Assumptions C67_history.

Theorem C67_creation : forall l, (forall p, new_polygon l = Ok p -> p_points p = l) /\
  ((3 <= length l)%nat -> is_ok (new_polygon l)) /\ ((length l < 3)%nat -> new_polygon l = Raise ValueError).
Proof. exact creation. Qed.
Print Assumptions C67_creation.

Theorem C67_perimeter : forall l p qs, new_polygon l = Ok p ->
  fst (ask AskPerimeter (after qs p)) = Ok (ALength (outline l)).
Proof. exact perimeter_answer. Qed.
Print Assumptions C67_perimeter.

(** After an in place transformation the answers already computed remain: the unit square scaled by
    two still has perimeter 4 and area 1. *)
Theorem C67_stale_refuted : exists p, new_polygon square = Ok p /\
  let twice := fun q => vscale q 2 in
  let p1 := transform_points twice (snd (ask AskPerimeter p)) in
  let p2 := transform_points twice (snd (ask AskArea p)) in
  p_points p1 = map twice square /\ p_points p2 = map twice square /\
  fst (ask AskPerimeter p1) = Ok (ALength 4) /\ outline (p_points p1) = 8 /\
  fst (ask AskArea p2) = Ok (AReal (Some 1)) /\ sweep o0 (p_points p2) = 4.
Proof. exact stale_square. Qed.
Print Assumptions C67_stale_refuted.

(** In general: whatever the transformation, the perimeter and area stay the old ones. *)
Theorem C67_stale_perimeter : forall l f p qs, new_polygon l = Ok p ->
  let p1 := transform_points f (snd (ask AskPerimeter (after qs p))) in
  p_points p1 = map f l /\ fst (ask AskPerimeter p1) = Ok (ALength (outline l)).
Proof. exact stale_perimeter. Qed.
Print Assumptions C67_stale_perimeter.

(** C68 *)
Theorem C68_simple_partial : forall l p qs, new_polygon l = Ok p -> exists b,
  fst (ask AskSimple (after qs p)) = Ok (ABool b) /\ (b = true <-> simple l).
Proof. exact simple_answer. Qed.
Print Assumptions C68_simple_partial.

(** A small bow tie is reported simple. *)
Theorem C68_simple_refuted : exists p, new_polygon bow = Ok p /\ fst (ask AskSimple p) = Ok (ABool true) /\
  exists e f q, nth_error (ring bow) 0 = Some e /\ nth_error (ring bow) 2 = Some f /\
    between (fst e) (snd e) q /\ between (fst f) (snd f) q /\ q <> fst e /\ q <> snd e /\ q <> fst f /\ q <> snd f.
Proof. exact bow_wrong. Qed.
Print Assumptions C68_simple_refuted.

(** C69 *)
Theorem C69_convex_partial : forall l p qs, new_polygon l = Ok p -> exists b,
  fst (ask AskConvex (after qs p)) = Ok (ABool b) /\ (b = true <-> simple l /\ same_turns l).
Proof. exact convex_answer. Qed.
Print Assumptions C69_convex_partial.

(** A clockwise square with a vertex in the middle of a side is reported not convex, although it
    turns to the left or straight on at every vertex in the other direction. *)
Theorem C69_convex_refuted : exists p, new_polygon notched = Ok p /\ fst (ask AskConvex p) = Ok (ABool false) /\
  same_turns (rev notched).
Proof. exact notched_answer. Qed.
Print Assumptions C69_convex_refuted.

(** C70 *)
Theorem C70_axes_partial : forall l p qs, new_polygon l = Ok p -> simple l -> exists i,
  fst (ask AskAxes (after qs p)) = Ok (AAxes i) /\
  (forall t, extent l t <= extent l (rad (i_angle i))) /\
  (forall t, extent l (rad (i_angle i) + PI / 2) <= extent l t) /\
  i_major i = 4 * sqrt (extent l (rad (i_angle i))) /\
  i_minor i = 4 * sqrt (extent l (rad (i_angle i) + PI / 2)) /\
  (i_minor i <> 0 -> i_ratio i = i_major i / i_minor i) /\ (i_minor i = 0 -> i_ratio i = 0).
Proof. exact axes_answer. Qed.
Print Assumptions C70_axes_partial.

(** The extent is measured from the origin of the plane: a translation changes the axes. *)
Theorem C70_axes_refuted : exists p p' i i', new_polygon (flat 1) = Ok p /\
  new_polygon (map (fun q => vadd q (V (-2) 0)) (flat 1)) = Ok p' /\
  fst (ask AskAxes p) = Ok (AAxes i) /\ fst (ask AskAxes p') = Ok (AAxes i') /\ i_major i <> i_major i'.
Proof. exact axes_moved. Qed.
Print Assumptions C70_axes_refuted.

(** C71.  is_point_inside never answers true: it fails as soon as the horizontal line through the
    point has vertices above and vertices below. *)
Theorem C71_inside_refuted : forall l p qs q, new_polygon l = Ok p ->
  (fst (ask (AskInside q) (after qs p)) = Ok (ABool false) /\
     ((forall a, In a l -> vy a <= vy q) \/ (forall a, In a l -> vy q < vy a))) \/
  (fst (ask (AskInside q) (after qs p)) = Raise AttributeError /\
     exists a b, In a l /\ In b l /\ vy a <= vy q /\ vy q < vy b).
Proof. exact inside_answer. Qed.
Print Assumptions C71_inside_refuted.

(** C72 *)
Theorem C72_simplify_partial : forall l threshold, (3 <= length l)%nat ->
  simplify l threshold = Ok None \/ simplify l threshold = Raise ValueError \/
  exists m, simplify l threshold = Ok (Some m) /\ (3 <= length m)%nat /\
    (exists keep, m = map (fun i => nth i l (V 0 0)) (filter keep (seq 0 (length l)))) /\
    (threshold < 0 -> m = l) /\
    (threshold = 0 -> nth_error l 0 <> nth_error l 1 -> forall o, sweep o m = sweep o l).
Proof. exact simplify_answer. Qed.
Print Assumptions C72_simplify_partial.

(** When the first vertex is doubled a corner may be lost, with threshold 0. *)
Theorem C72_simplify_refuted : simplify doubled 0 = Ok (Some [V 1 0; V 1 1; V 0 1]) /\
  sweep o0 doubled = 1 /\ sweep o0 [V 1 0; V 1 1; V 0 1] = / 2.
Proof. exact doubled_lost. Qed.
Print Assumptions C72_simplify_refuted.

(** A polygon whose edges are not longer than the threshold is lost, however large it is. *)
Theorem C72_short_refuted : forall l threshold, (3 <= length l)%nat ->
  (forall a b, In (a, b) (ring l) -> dist a b <= threshold) -> simplify l threshold = Ok None.
Proof. exact short_lost. Qed.
Print Assumptions C72_short_refuted.
Example C72_square_lost : simplify square 1 = Ok None.
Proof.
  apply C72_short_refuted; [cbn; lia|]. unfold square, ring. cbn [app combine In].
  intros a b [H|[H|[H|[H|[]]]]]; injection H as <- <-; rewrite ?dist_h, ?dist_v; apply Req_le;
    (rewrite Rabs_pos_eq by lra; lra) || (rewrite Rabs_left by lra; lra).
Qed.

(** C73 *)
Theorem C73_regular : forall c r n angle l, regular_points c r n angle = Ok l ->
  (3 <= n)%nat /\ length l = n /\
  (forall i, (i < n)%nat -> dist c (nth i l o0) = Rabs r) /\
  (forall a b, In (a, b) (ring l) -> turned (2 * PI / INR n) (vsub a c) (vsub b c)).
Proof. exact regular_ok. Qed.
Print Assumptions C73_regular.

Example C73_hexagon : is_ok (regular_points (V 1 2) 3 6 15).
Proof. eexists. reflexivity. Qed.

Theorem C73_name_refuted : forall n, ngon_name n = Raise NameError.
Proof. reflexivity. Qed.
Print Assumptions C73_name_refuted.

(** C57 *)
Theorem C57_hull_partial : forall l h, convex_hull l = Ok h ->
  incl h l /\
  (exists p t, lowest p l /\ NoDup (p :: t) /\ (h = p :: t \/ h = p :: p :: t \/ h = (p :: t) ++ [p])) /\
  (NoDup l -> NoDup h) /\
  (forall a b p, In (a, b) (ring h) -> In p l -> on_left a b p) /\
  (forall A B p, In p l -> exists v, In v h /\ A * vx p + B * vy p <= A * vx v + B * vy v) /\
  (forall a b c, In a l -> In b l -> In c l -> NoDup [a; b; c] -> (3 <= length h)%nat /\ 0 < sweep o0 h).
Proof. exact hull_any. Qed.
Print Assumptions C57_hull_partial.

(** The hull is found exactly when no two other points are seen in the same direction from the lowest one. *)
Theorem C57_failure : forall l, l <> [] ->
  is_ok (convex_hull l) /\ (forall p a b r, lowest p l -> Permutation (p :: a :: b :: r) l -> ~ same_way p a b) \/
  convex_hull l = Raise TypeError /\ exists p a b r, lowest p l /\ Permutation (p :: a :: b :: r) l /\ same_way p a b.
Proof. exact hull_error. Qed.
Print Assumptions C57_failure.

(** Two points seen in the same direction from the lowest one. *)
Theorem C57_hull_refuted : convex_hull [V 0 0; V 1 0; V 2 0; V 0 1] = Raise TypeError.
Proof. exact hull_same_angle. Qed.
Print Assumptions C57_hull_refuted.

(** The lowest point given twice is twice in the hull. *)
Theorem C57_twice_refuted : convex_hull [V 0 0; V 1 0; V 0 0] = Ok [V 0 0; V 1 0; V 0 0].
Proof. exact hull_twice. Qed.
Print Assumptions C57_twice_refuted.
