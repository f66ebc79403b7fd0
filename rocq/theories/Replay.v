(** The unit tests of the repository (directory unit-test), replayed on the model: what they assert of
    the program holds of the definitions.  Approximate assertions become exact: the model computes on
    real numbers.

    One assertion of the tests holds of the program by rounding only: test_Vector.py 57-58 at the
    angle 180, see [replay_vector_180]. *)
From Coq Require Import Reals Lra Lia List ZArith.
From Verif Require Import Base ModelIter ModelVector SpecVector ProofVector ModelRoot ModelLine ModelTransformation
  ModelTriangle ModelPolygon PropMore3.
Import ListNotations.
Local Open Scope R_scope.
Local Open Scope result_scope.

(** ** Tactics: deciding comparisons of constants *)
Ltac rdec1 :=
  match goal with
  | |- context [Rltb ?a ?b] =>
      first [rewrite (Rltb_true a b) by lra | rewrite (Rltb_false a b) by lra]
  | |- context [Rleb ?a ?b] =>
      first [rewrite (Rleb_true a b) by lra | rewrite (Rleb_false a b) by lra]
  | |- context [Reqb ?a ?b] =>
      first [replace (Reqb a b) with true by (symmetry; replace b with a by lra; apply Reqb_refl)
            | rewrite (Reqb_false a b) by lra]
  end.
Ltac vfields := f_equal; (lra || field || ring).

Lemma sqrt_is a b : 0 <= b -> a = b * b -> sqrt a = b.
Proof. intros P ->. apply sqrt_square; auto. Qed.

(** ** test_Vector.py *)

(** 41-58: from_angle and orientation *)
Example replay_vector_ctor : forall angle, In angle [20; 60; 100; 180] ->
  orientation (from_angle angle) = Ok angle /\
  (angle <> 180 -> orientation (from_angle (- angle)) = Ok (- angle)).
Proof.
  assert (F : forall t, -180 < t <= 180 -> orientation (from_angle t) = Ok t).
  { intros t B. destruct (C12_orientation_of_polar 1 t) as [E _]; try lra. rewrite <- E. f_equal.
    unfold from_polar, vscale. destruct (from_angle t). cbn. f_equal; ring. }
  intros a I. assert (B : 0 < a <= 180) by (cbn in I; destruct I as [<-|[<-|[<-|[<-|[]]]]]; lra).
  split; [apply F; lra|]. intros N. apply F. lra.
Qed.

(** At -180 degrees the program computes sin (- pi) = -1.2e-16, which is negative, and the orientation
    is -180; on the real numbers the sine is null and the orientation 180. *)
Example replay_vector_180 : orientation (from_angle (-180)) = Ok 180.
Proof.
  replace (from_angle (-180)) with (from_polar 1 180).
  - apply C12_orientation_of_polar; lra.
  - unfold from_polar. rewrite !from_angle_polar. unfold vscale. cbn [vx vy].
    replace (rad (-180)) with (- rad 180) by (unfold rad; field).
    replace (rad 180) with PI by (unfold rad; field). rewrite cos_neg, sin_neg, sin_PI. f_equal; ring.
Qed.

(** 64-90: magnitude and orientation *)
Example replay_vector_magnitude :
  magnitude_square (V 10 20) = 10 ^ 2 + 20 ^ 2 /\ magnitude (V 10 20) = sqrt (10 ^ 2 + 20 ^ 2).
Proof. unfold magnitude, magnitude_square, dot. cbn [vx vy]. split; [ring|f_equal; ring]. Qed.

Lemma atan_1' : degrees (atan 1) = 45.
Proof. rewrite atan_1. unfold degrees. pose proof PI_RGT_0. field. lra. Qed.
Lemma atan_m1 : degrees (atan (-1)) = -45.
Proof. replace (-1) with (- (1)) by ring. rewrite atan_opp, atan_1. unfold degrees. pose proof PI_RGT_0. field. lra. Qed.

Example replay_vector_orientation :
  orientation (V 10 0) = Ok 0 /\ orientation (V (-10) 0) = Ok 180 /\
  orientation (V 0 10) = Ok 90 /\ orientation (V 0 (-10)) = Ok (-90) /\
  orientation (V 10 10) = Ok 45 /\ orientation (V 10 (-10)) = Ok (-45) /\
  orientation (V (-10) 10) = Ok 135 /\ orientation (V (-10) (-10)) = Ok (-135).
Proof.
  unfold orientation, vtan, fdiv. cbn [vx vy vbool Nat.eqb negb].
  repeat split; repeat (rdec1; cbn [bind]); try reflexivity.
  - replace (10 / 10) with 1 by lra. rewrite atan_1'. reflexivity.
  - replace (-10 / 10) with (-1) by lra. rewrite atan_m1. reflexivity.
  - replace (10 / -10) with (-1) by lra. rewrite atan_m1. f_equal. lra.
  - replace (-10 / -10) with 1 by lra. rewrite atan_1'. f_equal. lra.
Qed.

(** 96-128: the operators; __iadd__ and the like are modelled by their results *)
Example replay_vector_operators :
  vneg (V 10 20) = V (-10) (-20) /\
  vadd (V 10 20) (V 20 30) = V (10 + 20) (20 + 30) /\ vsub (V 10 20) (V 20 30) = V (10 - 20) (20 - 30) /\
  vscale (V 10 20) 10 = V (10 * 10) (20 * 10) /\ vdiv (V 10 20) 10 = Ok (V 1 (20 / 10)).
Proof.
  unfold vneg, vadd, vsub, vscale, vdiv. cbn [vx vy]. rdec1. repeat split; try (f_equal; lra).
  do 2 f_equal. lra.
Qed.

(** 134-154: relations between two vectors *)
Example replay_vector_relations :
  is_orthogonal (V 10 10) (V (-10) 10) = true /\
  is_orthogonal (V 10 10) (rotate (V 10 10) 90 true) = true /\
  is_parallel (V 10 10) (vscale (V 10 10) (-10)) = true /\
  is_parallel (V 10 10) (rotate (V 10 10) 180 true) = true.
Proof.
  rewrite rotate_normal, rotate_parity.
  unfold is_orthogonal, is_parallel, round7_is_zero, dot, cross, normal, parity, vscale. cbn [vx vy].
  repeat split; apply Rleb_true; match goal with |- Rabs ?x <= _ => replace x with 0 by ring end;
    rewrite Rabs_R0; lra.
Qed.

(** for angle2 in range(-160, 180, 10) *)
Example replay_vector_angles : forall i, (i < 34)%nat ->
  let angle1 := 10 in let angle2 := -160 + 10 * INR i in
  let direction := from_angle angle1 in let v2 := from_angle angle2 in
  angle_with v2 direction = Ok (angle2 - angle1) /\
  exists p d, projection_on v2 direction = Ok p /\ deviation_with v2 direction = Ok d /\
    v2 = vadd (vscale direction p) (vscale (rotate direction 90 true) d).
Proof.
  intros i I angle1 angle2 direction v2.
  assert (B : 0 <= INR i <= 33).
  { split; [apply pos_INR|]. replace 33 with (INR 33) by (simpl; lra). apply le_INR. lia. }
  assert (P : forall t, from_angle t = from_polar 1 t).
  { intros t. unfold from_polar, vscale. destruct (from_angle t). cbn. f_equal; ring. }
  split.
  - unfold v2, direction. rewrite !P. apply C13_angle_of_polar; unfold angle1, angle2; lra.
  - apply C13_decomposition. unfold direction. rewrite P. apply C12_orientation_of_polar; unfold angle1; lra.
Qed.

(** ** test_Transformation.py *)
Lemma c90 : cos (radians 90) = 0.
Proof. rewrite radians_rad. replace (rad 90) with (PI / 2) by (unfold rad; field). apply cos_PI2. Qed.
Lemma s90 : sin (radians 90) = 1.
Proof. rewrite radians_rad. replace (rad 90) with (PI / 2) by (unfold rad; field). apply sin_PI2. Qed.

Example replay_transformation :
  (exists t, rotation2 90 = Ok t /\ apply2 t (V 10 0) = V 0 10) /\
  apply (rotation 90) (V 10 0) = V 0 10 /\
  apply (translation (V 10 30)) (V 10 0) = V 20 30 /\
  apply (rotation_at (V 10 10) 90) (V 20 10) = V 10 20 /\
  apply (mul (mul (translation (V 10 10)) (rotation 90)) (translation (vneg (V 10 10)))) (V 20 10) = V 10 20.
Proof.
  split; [|split; [|split; [|split]]].
  - eexists. split; [reflexivity|]. unfold apply2, rotation2. cbn. rewrite c90, s90. f_equal; lra.
  - unfold apply, rotation. cbn. rewrite c90, s90. f_equal; lra.
  - unfold apply, translation. cbn. f_equal; lra.
  - unfold apply, rotation_at, rotation, translation. cbn. rewrite c90, s90. f_equal; lra.
  - unfold apply, rotation, translation. cbn. rewrite c90, s90. f_equal; lra.
Qed.

(** ** test_Line.py *)

(** 36-57 *)
Lemma unit_frame a : let v := from_angle a in
  vx v * vx v + vy v * vy v = 1 /\ magnitude v = 1 /\ magnitude (normal v) = 1.
Proof.
  intros v. assert (E : vx v * vx v + vy v * vy v = 1).
  { unfold v, from_angle. cbn [vx vy]. pose proof (sin2_cos2 (radians a)) as Q. unfold Rsqr in Q. lra. }
  unfold magnitude, magnitude_square, dot, normal. cbn [vx vy].
  split; [exact E|]. rewrite E. replace (- vy v * - vy v + vx v * vx v) with 1 by lra.
  rewrite sqrt_1. auto.
Qed.

Example replay_line : let l0 := Ln (V 10 10) (from_angle 10) in
  (forall x, exists y, get_y_from_x l0 x = Ok y /\ get_x_from_y l0 y = Ok x) /\
  (forall y, exists x, get_x_from_y l0 y = Ok x /\ get_y_from_x l0 x = Ok y) /\
  forall offset, exists l1, shifted_parallel_line l0 offset = Ok l1 /\
    distance_to_line l0 (l_p l1) = Ok offset /\
    forall s, projected_abscissa l1 (line_interpolate l0 s) = Ok s /\
      distance_to_line l1 (line_interpolate l0 s) = Ok (- offset).
Proof.
  intros l0. destruct (unit_frame 10) as (Q & M & Mn). set (v := from_angle 10) in *.
  assert (X : vx v <> 0 /\ vy v <> 0).
  { unfold v. rewrite from_angle_polar. cbn [vx vy]. pose proof PI_RGT_0. unfold rad. split.
    - assert (0 < cos (10 / 180 * PI)) by (apply cos_gt_0; lra). lra.
    - assert (0 < sin (10 / 180 * PI)) by (apply sin_gt_0; lra). lra. }
  destruct X as [X Y]. unfold get_y_from_x, get_x_from_y, vtan, vinverse_tan, fdiv, l0. cbn [l_p l_v vx vy].
  rewrite (Reqb_false _ _ X), (Reqb_false _ _ Y). cbn [bind].
  split; [|split].
  - intros x. eexists. split; [reflexivity|]. f_equal. field. auto.
  - intros y. eexists. split; [reflexivity|]. f_equal. field. auto.
  - intros k. unfold shifted_parallel_line, normalise. cbn [l_v]. rewrite Mn. unfold vdiv.
    rewrite (Reqb_false 1 0) by lra. cbn [bind]. eexists. split; [reflexivity|].
    unfold distance_to_line, projected_abscissa, deviation_with, projection_on, fdiv, line_interpolate.
    cbn [l_p l_v]. rewrite M, (Reqb_false 1 0) by lra.
    unfold cross, dot, vsub, vadd, vscale, normal. cbn [vx vy].
    repeat split; f_equal.
    + transitivity (k * (vx v * vx v + vy v * vy v)); [field|rewrite Q; ring].
    + transitivity (s * (vx v * vx v + vy v * vy v)); [field|rewrite Q; ring].
    + transitivity (- k * (vx v * vx v + vy v * vy v)); [field|rewrite Q; ring].
Qed.

(** 59-92: the orthocenter and the centroid of a triangle *)
Ltac meet :=
  unfold line_intersection, intersection_abscissae, is_parallel_cross, is_parallel, round7_is_zero, fdiv,
    cross, line_from_two_points, vmiddle, vadd, vsub, vscale, normal; cbn [l_p l_v vx vy];
  match goal with |- context [Rabs ?x] => unfold Rabs; destruct (Rcase_abs x); try lra end;
  rdec1; cbn [bind]; rdec1; cbn [bind]; unfold line_interpolate, vadd, vscale; cbn [l_p l_v vx vy];
  do 2 f_equal; f_equal; (lra || (field; lra) || field).

Example replay_line_triangle : let v0 := V 10 10 in let v1 := V 50 50 in let v2 := V 20 60 in
  let lp0 := Ln v2 (rotate (vsub v1 v0) 90 true) in
  let lp1 := Ln v0 (rotate (vsub v2 v1) 90 true) in
  let lp2 := Ln v1 (rotate (vsub v2 v0) 90 true) in
  let lm0 := line_from_two_points v0 (vmiddle v1 v2) in
  let lm1 := line_from_two_points v1 (vmiddle v0 v2) in
  let lm2 := line_from_two_points v2 (vmiddle v0 v1) in
  (exists i, line_intersection lp0 lp1 = Ok (Some i) /\ line_intersection lp1 lp2 = Ok (Some i) /\
             line_intersection lp2 lp0 = Ok (Some i)) /\
  (exists i, line_intersection lm0 lm1 = Ok (Some i) /\ line_intersection lm1 lm2 = Ok (Some i) /\
             line_intersection lm2 lm0 = Ok (Some i)).
Proof.
  cbv zeta. rewrite !rotate_normal. split.
  - exists (V 25 55). repeat split; meet.
  - exists (V (80 / 3) 40). repeat split; meet.
Qed.

(** ** test_Polygon.py *)

(** Arithmetic on integer constants. *)
Ltac zconst :=
  repeat (rewrite <- minus_IZR || rewrite <- mult_IZR || rewrite <- plus_IZR || rewrite <- opp_IZR);
  repeat match goal with |- context [IZR ?z] =>
    let z' := eval compute in z in progress change (IZR z) with (IZR z') end.
Ltac rabs1 :=
  match goal with |- context [Rabs ?x] => first [rewrite (Rabs_pos_eq x) by lra | rewrite (Rabs_left x) by lra] end.

(** Two edges of integer ends meet at a common end only. *)
Ltac pair_ok :=
  unfold simple_pair, segment_intersection, intersection_abscissae, is_parallel_cross, is_parallel,
    round7_is_zero, fdiv, to_line, line_from_two_points, cross, vsub; cbn [l_p l_v s_p0 s_p1 vx vy];
  zconst; rabs1; rdec1; cbn [bind]; try reflexivity;
  rdec1; cbn [bind]; repeat rdec1; cbn [andb]; try reflexivity;
  unfold share_vertex_with, veqb; cbn [s_p0 s_p1 vx vy]; repeat (rdec1; cbn [andb orb]); try reflexivity;
  unfold s_interpolate, interpolate_two_points, vadd, vscale; cbn [vx vy s_p0 s_p1]; zconst; repeat (rdec1; cbn [andb]);
  reflexivity.
Ltac pairs_ok :=
  repeat match goal with |- context [simple_pair ?a ?b] =>
    replace (simple_pair a b) with (Ok true : result bool) by (symmetry; pair_ok);
    cbn [bind] end.

(** 35-85: the points of a rectangle *)
Definition basic : list vec := [V 10 20; V 10 (-20); V (-10) (-20); V (-10) 20].

Example replay_polygon_edges :
  polygon_edges basic = Ok [Seg (V 10 20) (V 10 (-20)); Seg (V 10 (-20)) (V (-10) (-20));
                            Seg (V (-10) (-20)) (V (-10) 20); Seg (V (-10) 20) (V 10 20)].
Proof. reflexivity. Qed.

Example replay_polygon_simple : exists e, polygon_edges basic = Ok e /\ test_is_simple e = Ok true.
Proof.
  eexists. split; [reflexivity|]. unfold test_is_simple. cbn -[simple_pair].
  pairs_ok. reflexivity.
Qed.

Ltac turns_ok :=
  cbn -[Rltb Rleb Reqb IZR sign]; unfold sign, edges_cross, cross, s_vector, vsub; cbn [s_p0 s_p1 vx vy];
  zconst; repeat (rdec1; cbn [bind]).

Example replay_polygon_convex : exists e, polygon_edges basic = Ok e /\ test_is_convex e = Ok true.
Proof. eexists. split; [reflexivity|]. unfold test_is_convex. turns_ok. reflexivity. Qed.

Example replay_polygon_perimeter : exists e, polygon_edges basic = Ok e /\ edges_perimeter e = 4 * (10 + 20).
Proof.
  eexists. split; [reflexivity|].
  unfold edges_perimeter, sum_list, s_length, s_vector, magnitude, magnitude_square, dot, vsub. cbn -[IZR].
  zconst. rewrite !(sqrt_is (IZR 1600) 40), !(sqrt_is (IZR 400) 20) by lra. lra.
Qed.

Example replay_polygon_area : exists m, compute_area_barycenter basic = Ok m /\
  m_area m = 4 * 10 * 20 /\ m_barycenter m = V 0 0 /\ point_barycenter basic = Ok (V 0 0).
Proof.
  unfold compute_area_barycenter, point_barycenter, column_cross, vdiv. cbn -[IZR Reqb sign Rabs].
  unfold sum_list. cbn -[IZR Reqb sign Rabs]. rdec1. eexists. split; [reflexivity|].
  cbn [m_area m_barycenter]. split; [|split].
  - rabs1. lra.
  - f_equal; field; lra.
  - rewrite Reqb_false by lra. do 2 f_equal; field.
Qed.

(** a deviation compared with a threshold, without square roots *)
Lemma deviation_small u v t : 0 < dot v v -> 0 <= t -> cross v u * cross v u <= t * t * dot v v ->
  exists d, deviation_with u v = Ok d /\ Rleb (Rabs d) t = true.
Proof.
  intros P T L. unfold deviation_with, fdiv, magnitude, magnitude_square.
  assert (S : 0 < sqrt (dot v v)) by (apply sqrt_lt_R0; auto).
  rewrite Reqb_false by lra. eexists. split; [reflexivity|]. apply Rleb_true.
  unfold Rdiv. rewrite Rabs_mult, (Rabs_pos_eq (/ sqrt _)) by (left; apply Rinv_0_lt_compat; auto).
  apply Rmult_le_reg_r with (sqrt (dot v v)); auto. rewrite Rmult_assoc, Rinv_l, Rmult_1_r by lra.
  apply Rsqr_incr_0_var; [|nra]. rewrite <- Rsqr_abs. unfold Rsqr.
  replace (t * sqrt (dot v v) * (t * sqrt (dot v v))) with (t * t * (sqrt (dot v v) * sqrt (dot v v))) by ring.
  rewrite sqrt_sqrt by lra. auto.
Qed.
Lemma deviation_large u v t : 0 < dot v v -> 0 <= t -> t * t * dot v v < cross v u * cross v u ->
  exists d, deviation_with u v = Ok d /\ Rleb (Rabs d) t = false.
Proof.
  intros P T L. unfold deviation_with, fdiv, magnitude, magnitude_square.
  assert (S : 0 < sqrt (dot v v)) by (apply sqrt_lt_R0; auto).
  rewrite Reqb_false by lra. eexists. split; [reflexivity|]. apply Rleb_false.
  unfold Rdiv. rewrite Rabs_mult, (Rabs_pos_eq (/ sqrt _)) by (left; apply Rinv_0_lt_compat; auto).
  apply Rmult_lt_reg_r with (sqrt (dot v v)); auto. rewrite (Rmult_assoc (Rabs _)), Rinv_l, Rmult_1_r by lra.
  apply Rsqr_incrst_0; [|nra|apply Rabs_pos]. rewrite <- Rsqr_abs. unfold Rsqr.
  replace (t * sqrt (dot v v) * (t * sqrt (dot v v))) with (t * t * (sqrt (dot v v) * sqrt (dot v v))) by ring.
  rewrite sqrt_sqrt by lra. auto.
Qed.
Ltac edge_pair :=
  match goal with |- context [test_edge_pair ?p ?t ?r ?i ?j] =>
    let b := fresh "b" in
    first [
      replace (test_edge_pair p t r i j) with (Ok true : result bool) by (symmetry;
        unfold test_edge_pair; cbn -[IZR deviation_with Rleb Rabs];
        match goal with |- context [deviation_with ?u ?v] =>
          let d := fresh in let E := fresh in let L := fresh in
          destruct (deviation_small u v t) as (d & E & L);
          [unfold dot, vsub; cbn [vx vy]; lra | lra | unfold dot, cross, vsub; cbn [vx vy]; lra |];
          rewrite E; cbn [bind]; rewrite L; reflexivity end)
    | replace (test_edge_pair p t r i j) with (Ok false : result bool) by (symmetry;
        unfold test_edge_pair; cbn -[IZR deviation_with Rleb Rabs];
        match goal with |- context [deviation_with ?u ?v] =>
          let d := fresh in let E := fresh in let L := fresh in
          destruct (deviation_large u v t) as (d & E & L);
          [unfold dot, vsub; cbn [vx vy]; lra | lra | unfold dot, cross, vsub; cbn [vx vy]; lra |];
          rewrite E; cbn [bind]; rewrite L; reflexivity end) ]
  end.
(** One round of the loop. *)
Lemma loop_step f p t r i j b : Nat.ltb i (length p) = true -> test_edge_pair p t r i j = Ok b ->
  simplify_loop (S f) p t r i j =
    (if Nat.ltb j i then Ok (if b then r ++ [j] else r)
     else k <- py_mod (j + 1) (length p) ;; simplify_loop f p t (if b then r ++ [j] else r) (if b then i else j) k).
Proof. intros L E. cbn [simplify_loop]. rewrite L, E. cbn [bind]. destruct b, (Nat.ltb j i); reflexivity. Qed.
Ltac loop_round :=
  match goal with |- context [simplify_loop (S ?f) ?p ?t ?r ?i ?j] =>
    first [
      rewrite (loop_step f p t r i j true eq_refl) by (edge_pair; reflexivity)
    | rewrite (loop_step f p t r i j false eq_refl) by (edge_pair; reflexivity) ];
    cbn [bind Nat.ltb Nat.leb app length Nat.add py_mod Nat.modulo Nat.divmod fst snd Nat.sub] end.
Ltac simplify_ok :=
  unfold simplify; match goal with |- context [simplify_loop ?n ?p ?t ?r ?i ?j] =>
    let n' := eval cbv in n in change n with n'; 
    let X := fresh "X" in eassert (X : simplify_loop n' p t r i j = _) by (repeat loop_round; reflexivity);
    rewrite X end; reflexivity.

(** 84-85: nothing is removed *)
Example replay_polygon_simplify : simplify basic 1 = Ok (Some basic).
Proof. unfold basic. simplify_ok. Qed.

(** 146-174: test_simplification *)
Example replay_simplification :
  simplify [V (1/10) (101/10); V (-1/10) (109/10); V (1/10) (201/10); V 0 30; V (151/10) (301/10); V 30 30;
            V (299/10) 10; V 30 0; V (151/10) (1/10); V 0 0] 1
  = Ok (Some [V 0 30; V 30 30; V 30 0; V 0 0]).
Proof. simplify_ok. Qed.

Lemma loop_raise f p t r i j e : Nat.ltb i (length p) = true -> test_edge_pair p t r i j = Raise e ->
  simplify_loop (S f) p t r i j = Raise e.
Proof. intros L E. cbn [simplify_loop]. rewrite L, E. reflexivity. Qed.

Example replay_simplification_degenerate :
  simplify [V 0 0; V (1/10) (101/10); V (2/10) (201/10)] 1 = Ok None.
Proof.
  unfold simplify. match goal with |- context [simplify_loop ?n ?p ?t ?r ?i ?j] => change n with 7%nat end.
  loop_round. rewrite loop_raise with (e := ZeroDivisionError); [reflexivity|reflexivity|].
  unfold test_edge_pair. cbn -[IZR deviation_with Rleb Rabs].
  unfold deviation_with, fdiv, magnitude, magnitude_square, dot, vsub. cbn [vx vy].
  replace ((0 - 0) * (0 - 0) + (0 - 0) * (0 - 0)) with 0 by ring. rewrite sqrt_0, Reqb_refl. reflexivity.
Qed.

(** 89-144: test_convex_hull *)
Definition star : list vec :=
  [V 0 0; V (-1) 2; V 0 3; V 2 4; V 1 5; V 4 6; V 3 3; V 5 3; V 7 3; V 7 2; V 6 1; V 3 2; V 2 1].
Definition star_hull : list vec := [V 0 0; V 6 1; V 7 2; V 7 3; V 4 6; V 1 5; V (-1) 2].

(** 120-124: simple, not convex, clockwise *)
Example replay_star_simple : exists e, polygon_edges star = Ok e /\ test_is_simple e = Ok true.
Proof.
  eexists. split; [reflexivity|]. unfold test_is_simple, star. cbn -[simple_pair].
  pairs_ok. reflexivity.
Qed.
Example replay_star_convex : exists e, polygon_edges star = Ok e /\ test_is_convex e = Ok false.
Proof. eexists. split; [reflexivity|]. unfold test_is_convex, star. turns_ok. reflexivity. Qed.

Ltac clockwise_ok :=
  unfold compute_area_barycenter, column_cross; cbn -[IZR Reqb sign Rabs]; unfold sum_list;
  cbn -[IZR Reqb sign Rabs]; rewrite Reqb_false by lra; cbn [map_result]; unfold sign; rdec1; reflexivity.
Definition area_sign (points : list vec) : result (option R) :=
  m <- compute_area_barycenter points ;; Ok (m_sign m).
Example replay_star_clockwise : area_sign star = Ok (Some (-1)) /\ area_sign (rev star) = Ok (Some 1) /\
  area_sign star_hull = Ok (Some 1).
Proof.
  unfold area_sign, star, star_hull. cbn [rev app]. repeat split; clockwise_ok.
Qed.

(** the angles of the points seen from the lowest one *)
Lemma orientation_right x y : 0 < x -> 0 < y -> orientation (V x y) = Ok (degrees (atan (y / x))).
Proof.
  intros X Y. unfold orientation, vtan, fdiv. cbn [vx vy vbool Nat.eqb negb].
  rewrite (Reqb_false x), (Reqb_false y) by lra. cbn [bind]. rewrite Rltb_false by lra. reflexivity.
Qed.
Lemma orientation_left x y : x < 0 -> 0 < y -> orientation (V x y) = Ok (degrees (atan (y / x)) + 180).
Proof.
  intros X Y. unfold orientation, vtan, fdiv. cbn [vx vy vbool Nat.eqb negb].
  rewrite (Reqb_false x), (Reqb_false y) by lra. cbn [bind]. rewrite (Rltb_true x), (Rltb_true 0 y) by lra. reflexivity.
Qed.
Lemma orientation_up y : 0 < y -> orientation (V 0 y) = Ok 90.
Proof.
  intros Y. unfold orientation. cbn [vx vy vbool Nat.eqb negb].
  rewrite Reqb_refl, Rltb_false by lra. reflexivity.
Qed.
Lemma degrees_lt a b : a < b -> degrees a < degrees b.
Proof. intros L. unfold degrees. pose proof PI_RGT_0. assert (0 < / PI) by (apply Rinv_0_lt_compat; auto). unfold Rdiv. nra. Qed.
Lemma slope_lt a b : a < b -> degrees (atan a) < degrees (atan b).
Proof. intros L. apply degrees_lt, atan_increasing, L. Qed.

(** the order of the slopes of the points of the star *)
Lemma star_angles :
  degrees (atan (1 / 6)) < degrees (atan (2 / 7)) < degrees (atan (3 / 7)) /\
  degrees (atan (3 / 7)) < degrees (atan (1 / 2)) < degrees (atan (3 / 5)) /\
  degrees (atan (3 / 5)) < degrees (atan (2 / 3)) < degrees (atan (3 / 3)) /\
  degrees (atan (3 / 3)) < degrees (atan (6 / 4)) < degrees (atan (4 / 2)) /\
  degrees (atan (4 / 2)) < degrees (atan (5 / 1)) < 90 /\ 90 < degrees (atan (2 / -1)) + 180 < 180.
Proof.
  repeat split; try (apply slope_lt; lra).
  - apply atan_deg_bound.
  - destruct (atan_deg_bound (2 / -1)). lra.
  - assert (degrees (atan (2 / -1)) < 0) by (apply atan_deg_neg; lra). lra.
Qed.

Ltac sort_by_y :=
  repeat (cbn [insert_sorted]; match goal with |- context [y_le (V ?a ?b) (V ?c ?d)] =>
    first [ replace (y_le (V a b) (V c d)) with true by (symmetry; unfold y_le; cbn [vx vy]; repeat rdec1; reflexivity)
          | replace (y_le (V a b) (V c d)) with false by (symmetry; unfold y_le; cbn [vx vy]; repeat rdec1; reflexivity) ] end).
Lemma star_by_y : stable_sort y_le star =
  [V 0 0; V 2 1; V 6 1; V (-1) 2; V 3 2; V 7 2; V 0 3; V 3 3; V 5 3; V 7 3; V 2 4; V 1 5; V 4 6].
Proof. unfold stable_sort, star. cbn [fold_right]. sort_by_y. reflexivity. Qed.
Lemma reversed_star_by_y : stable_sort y_le (rev star) = stable_sort y_le star.
Proof. rewrite star_by_y. unfold stable_sort, star. cbn [rev app fold_right]. sort_by_y. reflexivity. Qed.

Definition angle_le (a b : vec * R) : bool := Rleb (snd a) (snd b).
Definition star_by_angle : list (vec * R) :=
  let g q := degrees (atan q) in
  [(V 6 1, g (1 / 6)); (V 7 2, g (2 / 7)); (V 7 3, g (3 / 7)); (V 2 1, g (1 / 2)); (V 5 3, g (3 / 5));
   (V 3 2, g (2 / 3)); (V 3 3, g (3 / 3)); (V 4 6, g (6 / 4)); (V 2 4, g (4 / 2)); (V 1 5, g (5 / 1));
   (V 0 3, 90); (V (-1) 2, g (2 / -1) + 180)].
Definition star_data : list (vec * R) :=
  let g q := degrees (atan q) in
  [(V 2 1, g (1 / 2)); (V 6 1, g (1 / 6)); (V (-1) 2, g (2 / -1) + 180); (V 3 2, g (2 / 3)); (V 7 2, g (2 / 7));
   (V 0 3, 90); (V 3 3, g (3 / 3)); (V 5 3, g (3 / 5)); (V 7 3, g (3 / 7)); (V 2 4, g (4 / 2)); (V 1 5, g (5 / 1));
   (V 4 6, g (6 / 4))].
Lemma vsub_0 x y : vsub (V x y) (V 0 0) = V x y.
Proof. unfold vsub. cbn. f_equal; ring. Qed.
Lemma star_data_ok : graham_data (V 0 0) (map fst star_data) = Ok star_data.
Proof.
  unfold graham_data, star_data. cbn [map fst]. cbn [traverse]. rewrite !vsub_0.
  rewrite (orientation_left (-1) 2), (orientation_up 3) by lra. repeat (rewrite orientation_right by lra). reflexivity.
Qed.
Lemma star_sorted : stable_sort angle_le star_data = star_by_angle.
Proof.
  destruct star_angles as ((A1&A2)&(A3&A4)&(A5&A6)&(A7&A8)&(A9&A10)&(A11&A12)).
  unfold stable_sort, star_data, star_by_angle. cbv zeta.
  set (a1 := degrees (atan (1 / 6))) in *. set (a2 := degrees (atan (2 / 7))) in *.
  set (a3 := degrees (atan (3 / 7))) in *. set (a4 := degrees (atan (1 / 2))) in *.
  set (a5 := degrees (atan (3 / 5))) in *. set (a6 := degrees (atan (2 / 3))) in *.
  set (a7 := degrees (atan (3 / 3))) in *. set (a8 := degrees (atan (6 / 4))) in *.
  set (a9 := degrees (atan (4 / 2))) in *. set (a10 := degrees (atan (5 / 1))) in *.
  set (a11 := degrees (atan (2 / -1))) in *. clearbody a1 a2 a3 a4 a5 a6 a7 a8 a9 a10 a11.
  cbn [fold_right].
  repeat (cbn [insert_sorted]; match goal with |- context [angle_le ?x ?y] =>
    first [ replace (angle_le x y) with true by (symmetry; unfold angle_le; cbn [snd]; apply Rleb_true; lra)
          | replace (angle_le x y) with false by (symmetry; unfold angle_le; cbn [snd]; apply Rleb_false; lra) ] end).
  reflexivity.
Qed.
Lemma star_no_same : same_angle star_by_angle = false.
Proof.
  destruct star_angles as ((A1&A2)&(A3&A4)&(A5&A6)&(A7&A8)&(A9&A10)&(A11&A12)).
  unfold star_by_angle. cbv zeta. cbn [same_angle snd]. rewrite !Reqb_false by lra. reflexivity.
Qed.

Lemma star_graham points : stable_sort y_le points = V 0 0 :: map fst star_data ->
  sort_point_for_graham_scan points = Ok (V 0 0 :: map fst star_by_angle).
Proof.
  intros E. unfold sort_point_for_graham_scan. rewrite E, star_data_ok. cbn [bind].
  change (fun a b : vec * R => Rleb (snd a) (snd b)) with angle_le.
  rewrite star_sorted, star_no_same. reflexivity.
Qed.

Lemma star_scan points : stable_sort y_le points = V 0 0 :: map fst star_data -> convex_hull points = Ok star_hull.
Proof.
  intros E. unfold convex_hull. rewrite (star_graham points E). cbn [bind]. unfold star_by_angle. cbv zeta.
  cbn [map fst].
  repeat (match goal with |- context [fold_left ?f (?p :: ?ps) ?st] =>
    change (fold_left f (p :: ps) st) with (fold_left f ps (p :: graham_pop st p)) end;
    cbn [graham_pop]; repeat match goal with |- context [Rltb (ccw (V ?a ?b) (V ?c ?d) (V ?e ?f)) 0] =>
    first [ rewrite (Rltb_true (ccw (V a b) (V c d) (V e f))) by (unfold ccw; cbn [vx vy]; lra)
          | rewrite (Rltb_false (ccw (V a b) (V c d) (V e f))) by (unfold ccw; cbn [vx vy]; lra) ]; cbn [graham_pop] end).
  reflexivity.
Qed.

(** 126-138: the hull, of the points in both orders *)
Example replay_star_hull : convex_hull star = Ok star_hull /\ convex_hull (rev star) = Ok star_hull.
Proof.
  split; apply star_scan; [|rewrite reversed_star_by_y]; rewrite star_by_y; reflexivity.
Qed.

(** 140-142: simplifying the hull changes nothing *)
Example replay_hull_simplify : simplify star_hull (1 / 10) = Ok (Some star_hull).
Proof. unfold star_hull. simplify_ok. Qed.
