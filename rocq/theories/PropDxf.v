(** Properties of the DXF polylines and ellipses (C45, C95, C96, C97). *)
From Coq Require Import Reals List Bool Arith Lra.
From Verif Require Import Base ModelVector ModelLine ModelConic ModelDxf SpecVector SpecConic SpecDxf GlueDxf
  ProofVector ProofDxf ProofDxf2 ProofDxf3.
Import ListNotations.
Local Open Scope R_scope.

(** C45.  The full claim, "each leg is drawn by an item whose points are those of the leg", is false
    for negative bulges; it holds for the other ones. *)
Theorem C45_legs_partial : forall p items, geometry p = Ok items ->
  Forall2 (fun leg item => let '(P, Q, b) := leg in
    0 <= b -> forall X, shown item X <-> on_leg P Q b X)
    (legs (pl_closed p) (corners p)) items.
Proof.
  intros p items E. pose proof (geometry_ok p items E) as H. clear E.
  induction H as [|[[P Q] b] item legs items A F IH]; constructor; [exact A|exact IH].
Qed.
Print Assumptions C45_legs_partial.
(** When the geometry is defined. *)
Theorem C45_defined : forall p, is_ok (geometry p) <->
  (pl_closed p = true -> corners p <> []) /\
  Forall (fun leg => let '(P, Q, b) := leg in b <> 0 -> P <> Q) (legs (pl_closed p) (corners p)).
Proof.
  intro p. rewrite (geometry_total p).
  assert (E : forall l, Forall (fun leg : vec * vec * R => snd leg <> 0 -> fst (fst leg) <> snd (fst leg)) l <->
     Forall (fun leg => let '(P, Q, b) := leg in b <> 0 -> P <> Q) l).
  { intro l. split; intro H; (induction H as [|[[P Q] b] l A F IH]; constructor; [exact A|exact IH]). }
  rewrite E. reflexivity.
Qed.
Print Assumptions C45_defined.
(** The side of the arc: right of the chord for a positive bulge. *)
Theorem C45_side : forall P Q b M, b <> 0 -> P <> Q -> arc_middle P Q b M ->
  on_bulge_arc P Q b M /\ (0 < b -> cross (vsub Q P) (vsub M P) < 0) /\ (b < 0 -> 0 < cross (vsub Q P) (vsub M P)).
Proof.
  intros P Q b M B N H. split; [apply middle_on_arc; exact H|]. rewrite (side_ok P Q b M B H).
  pose proof (dist_pos P Q N) as D. assert (0 < dist P Q * dist P Q) by (apply Rmult_lt_0_compat; exact D).
  split; intro S.
  - assert (0 < b / 2 * (dist P Q * dist P Q)) by (apply Rmult_lt_0_compat; lra). lra.
  - assert (0 < - (b / 2) * (dist P Q * dist P Q)) by (apply Rmult_lt_0_compat; lra). lra.
Qed.
Print Assumptions C45_side.
(** For every negative bulge the arc has a negative radius, is centred on the centre of the opposite
    bulge, and misses the middle of the right arc. *)
Theorem C45_negative_refuted : forall p items, geometry p = Ok items ->
  Forall2 (fun leg item => snd leg < 0 ->
    (exists c, item = IArc c /\ c_radius c < 0 /\ bulge_center (fst (fst leg)) (snd (fst leg)) (- snd leg) (c_center c)) /\
    exists M, arc_middle (fst (fst leg)) (snd (fst leg)) (snd leg) M /\
      on_bulge_arc (fst (fst leg)) (snd (fst leg)) (snd leg) M /\ ~ shown item M)
    (legs (pl_closed p) (corners p)) items.
Proof. exact geometry_negative. Qed.
Print Assumptions C45_negative_refuted.

(** Three vertices, closed: a segment, a half circle and a quarter of circle of negative bulge. *)
Definition demo : polyline :=
  add_vertex (add_vertex (add_vertex (Polyline true []) (V 0 0) 0) (V 2 0) 1) (V 2 2) (-1 / 2).
Example C45_demo_legs : legs (pl_closed demo) (corners demo) =
  [(V 0 0, V 2 0, 0); (V 2 0, V 2 2, 1); (V 2 2, V 0 0, -1 / 2)].
Proof. reflexivity. Qed.
Example C45_demo_defined : exists items, geometry demo = Ok items /\ length items = 3%nat.
Proof.
  assert (O : is_ok (geometry demo)).
  { apply C45_defined. split; [intros _; discriminate|]. rewrite C45_demo_legs.
    repeat apply Forall_cons; [| | |apply Forall_nil]; intros B E; apply (f_equal vx) in E as E1; apply (f_equal vy) in E as E2; cbn in E1, E2; lra. }
  destruct O as [items O]. exists items. split; [exact O|]. pose proof (C45_legs_partial demo items O) as F.
  rewrite C45_demo_legs in F. repeat match goal with H : Forall2 _ _ _ |- _ => inversion H; clear H; subst end. reflexivity.
Qed.
Example C45_demo_middle : on_leg (V 2 0) (V 2 2) 1 (V 3 1).
Proof.
  right. split; [lra|]. apply middle_on_arc.
  replace (V 3 1) with (middle_of (V 2 0) (V 2 2) 1); [apply middle_ok; lra|].
  apply vec_eq; cbn; field.
Qed.
Example C45_empty_closed : geometry (Polyline true []) = Raise IndexError /\ geometry (Polyline false []) = Ok [].
Proof. split; reflexivity. Qed.

(** C95.  The sagitta, its dual and the radius of a vertex measure the arc of its leg. *)
Theorem C95_quantities_partial : forall p i v w, getitem p i = Ok v -> next p i = Ok (Some w) -> v_bulge v <> 0 ->
  let P := v_point v in let Q := v_point w in let b := v_bulge v in
  let m := V ((vx P + vx Q) / 2) ((vy P + vy Q) / 2) in
  exists l sag dual radius,
    demi_chord p i = Ok l /\ sagitta p i = Ok sag /\ sagitta_dual p i = Ok dual /\ bulge_radius p i = Ok radius /\
    l = dist P m /\ sag = b * l /\ radius = sag + dual /\
    (forall C M, bulge_center P Q b C -> arc_middle P Q b M ->
      Rabs sag = dist m M /\ Rabs dual = dist C m /\
      Rabs radius = dist C P /\ Rabs radius = dist C Q /\ Rabs radius = dist C M) /\
    (0 < radius <-> 0 < b /\ P <> Q).
Proof. exact quantities_ok. Qed.
Print Assumptions C95_quantities_partial.
(** [angle] is the supplement of the included angle 4 atan b, and so right only for a quarter of
    circle. *)
Theorem C95_angle_refuted : forall p i v w, getitem p i = Ok v -> next p i = Ok (Some w) -> 0 < v_bulge v ->
  v_point v <> v_point w ->
  angle p i = Ok (180 - degrees (4 * atan (v_bulge v))) /\
  (angle p i = Ok (degrees (4 * atan (v_bulge v))) <-> 4 * atan (v_bulge v) = PI / 2).
Proof. intros p i v w V W B N. split; [exact (angle_ok p i v w V W B N)|exact (angle_right p i v w V W B N)]. Qed.
Print Assumptions C95_angle_refuted.
Example C95_half_circle : angle demo 1 = Ok 0 /\ bulge_radius demo 1 = Ok 1.
Proof.
  assert (N : V 2 0 <> V 2 2) by (intro E; apply (f_equal vy) in E; cbn in E; lra).
  destruct (C95_angle_refuted demo 1 (Vertex (V 2 0) 1) (Vertex (V 2 2) (-1 / 2)) eq_refl eq_refl ltac:(cbn; lra) N) as [E _].
  split.
  - rewrite E. f_equal. cbn [v_bulge]. rewrite atan_1. unfold degrees. pose proof PI_RGT_0. field. lra.
  - destruct (radius_ok demo 1 (Vertex (V 2 0) 1) (Vertex (V 2 2) (-1 / 2)) eq_refl eq_refl ltac:(cbn; lra)) as [R0 _].
    rewrite R0. cbn [v_point v_bulge]. f_equal.
    replace (dist (V 2 0) (V 2 2)) with 2; [field|]. symmetry. apply sq_eq_nonneg; [apply dist_nonneg|lra|]. rewrite dist_sq. cbn [vx vy]. ring.
Qed.

(** C96.  The neighbours of a vertex. *)
Theorem C96_closed_neighbours : forall p i, pl_closed p = true -> (i < length (pl_vertices p))%nat ->
  (exists w, next p i = Ok (Some w) /\ nth_error (pl_vertices p) (S i mod length (pl_vertices p)) = Some w) /\
  (exists w, prev p i = Ok (Some w) /\ nth_error (pl_vertices p) ((i + (length (pl_vertices p) - 1)) mod length (pl_vertices p)) = Some w).
Proof. intros p i C H. split; [exact (next_closed p i C H)|exact (prev_closed p i C H)]. Qed.
Print Assumptions C96_closed_neighbours.
Theorem C96_open_neighbours : forall p i, pl_closed p = false -> (i < length (pl_vertices p))%nat ->
  next p i = Ok (nth_error (pl_vertices p) (S i)) /\
  prev p i = Ok (match i with O => None | S i => nth_error (pl_vertices p) i end).
Proof. intros p i C H. split; [exact (next_open p i C H)|exact (prev_open p i C H)]. Qed.
Print Assumptions C96_open_neighbours.
Theorem C96_added : forall p q b,
  pl_closed (add_vertex p q b) = pl_closed p /\
  corners (add_vertex p q b) = corners p ++ [(q, b)].
Proof. intros p q b. split; [reflexivity|]. unfold corners, add_vertex. cbn [pl_vertices]. rewrite map_app. reflexivity. Qed.
Print Assumptions C96_added.
Example C96_demo : next demo 2 = Ok (Some (Vertex (V 0 0) 0)) /\ prev demo 0 = Ok (Some (Vertex (V 2 2) (-1 / 2))) /\
  next (Polyline false (pl_vertices demo)) 2 = Ok None.
Proof. repeat split. Qed.

(** C97.  The imported ellipse has the points of the DXF one at the same parameters, unless the major
    axis is vertical upwards. *)
Theorem C97_ellipse_partial : forall center major ratio t0 t1, ~ null major -> 0 <= ratio ->
  ~ (vx major = 0 /\ 0 < vy major) ->
  exists e, on_ellipse_item center major ratio t0 t1 = Ok e /\ e_domain e = Some (Dom (degrees t0) (degrees t1)) /\
  forall t, dxf_ellipse_point center major ratio t (ellipse_point_at_angle e (degrees t)).
Proof. exact dxf_ellipse_ok. Qed.
Print Assumptions C97_ellipse_partial.
(** In that case the points are those of the parameter a quarter of turn before: the whole ellipse is
    right, an arc is not. *)
Theorem C97_vertical : forall center h ratio t0 t1, 0 < h -> 0 <= ratio ->
  exists e, on_ellipse_item center (V 0 h) ratio t0 t1 = Ok e /\ e_domain e = Some (Dom (degrees t0) (degrees t1)) /\
  forall t, dxf_ellipse_point center (V 0 h) ratio (t - PI / 2) (ellipse_point_at_angle e (degrees t)).
Proof. exact dxf_ellipse_vertical. Qed.
Print Assumptions C97_vertical.
Theorem C97_vertical_refuted : forall center h ratio t0 t1 e, 0 < h -> 0 < ratio ->
  on_ellipse_item center (V 0 h) ratio t0 t1 = Ok e ->
  ~ dxf_ellipse_point center (V 0 h) ratio 0 (ellipse_point_at_angle e (degrees 0)).
Proof. exact dxf_ellipse_vertical_refuted. Qed.
Print Assumptions C97_vertical_refuted.
Example C97_horizontal : exists e, on_ellipse_item (V 1 1) (V 2 0) (1 / 2) 0 PI = Ok e.
Proof.
  destruct (C97_ellipse_partial (V 1 1) (V 2 0) (1 / 2) 0 PI) as (e & E & _); [intros [X _]; cbn in X; lra|lra|cbn; lra|].
  exists e. exact E.
Qed.
