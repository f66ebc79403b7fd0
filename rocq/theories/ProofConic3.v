(** Circles (the rest) and ellipses. *)
From Coq Require Import Reals List Lra Lia Psatz ZArith Bool.
From Verif Require Import Base ModelVector ModelTransformation ModelLine ModelBezier ModelConic.
From Verif Require Import SpecVector SpecLine SpecConic GlueConic ProofVector ProofSegment ProofConic ProofConic2.
Import ListNotations.
Local Open Scope R_scope.
Local Open Scope result_scope.

Lemma rad_0 : rad 0 = 0. Proof. unfold rad. field. Qed.
Lemma rad_90 : rad 90 = PI / 2. Proof. unfold rad. field. Qed.
Lemma rad_180 : rad 180 = PI. Proof. unfold rad. field. Qed.
Lemma rad_m a : rad (- a) = - rad a. Proof. unfold rad. field. Qed.

(** ** Circle *)
Lemma circle_inverse_ok c a : 0 < c_radius c -> 0 <= a < 360 ->
  angle_for_point c (circle_point_at_angle c a) = Ok a.
Proof.
  intros R0 A. set (q := circle_point_at_angle c a).
  pose proof (circle_point_ok c a) as P. fold q in P.
  assert (D : dist (c_center c) q = c_radius c) by (apply (polar_on_circle _ _ a); [lra|exact P]).
  destruct (angle_for_point_ok c q) as (b & E & B & Q).
  { intro Z. rewrite Z in D. unfold dist in D. rewrite !Rminus_diag_eq in D by reflexivity. replace (0 * 0 + 0 * 0) with 0 in D by ring. rewrite sqrt_0 in D. lra. }
  rewrite D in Q. rewrite E. f_equal. destruct P as [X Y], Q as [X' Y'].
  assert (CC : cos (rad a) = cos (rad b)) by (apply (Rmult_eq_reg_l (c_radius c)); lra).
  assert (SS : sin (rad a) = sin (rad b)) by (apply (Rmult_eq_reg_l (c_radius c)); lra).
  pose proof PI_RGT_0 as HP.
  assert (Ra : 0 <= rad a < 2 * PI) by (unfold rad; split; [apply Rmult_le_pos; lra|nra]).
  assert (Rb : 0 <= rad b < 2 * PI) by (unfold rad; split; [apply Rmult_le_pos; lra|nra]).
  assert (EQ : rad a = rad b).
  { destruct (Rle_dec (rad a) PI) as [La|La], (Rle_dec (rad b) PI) as [Lb|Lb].
    - apply cos_inj; lra.
    - exfalso. assert (0 <= sin (rad a)) by (apply sin_ge_0; lra). assert (sin (rad b) < 0) by (apply sin_lt_0; lra). lra.
    - exfalso. assert (0 <= sin (rad b)) by (apply sin_ge_0; lra). assert (sin (rad a) < 0) by (apply sin_lt_0; lra). lra.
    - assert (T : 2 * PI - rad a = 2 * PI - rad b); [|lra]. apply cos_inj; try lra.
      rewrite !cos_minus, cos_2PI, sin_2PI. lra. }
  unfold rad in EQ. apply Rmult_eq_reg_r in EQ; lra.
Qed.

Lemma tangent_ok c a : let l := tangent_at_angle c a in
  l_p l = circle_point_at_angle c a /\ dot (l_v l) (vsub (l_p l) (c_center c)) = 0 /\
  len (l_v l) = Rabs (c_radius c) /\ 0 <= cross (vsub (l_p l) (c_center c)) (l_v l).
Proof.
  cbn zeta. unfold tangent_at_angle. cbn zeta. cbn [l_p l_v]. set (w := vsub (circle_point_at_angle c a) (c_center c)).
  split; [reflexivity|]. split; [unfold dot, normal; cbn; ring|]. split.
  - destruct (circle_point_ok c a) as [X Y].
    assert (Wx : vx w = c_radius c * cos (rad a)) by (unfold w, vsub; cbn [vx]; lra).
    assert (Wy : vy w = c_radius c * sin (rad a)) by (unfold w, vsub; cbn [vy]; lra).
    unfold len, normal. cbn [vx vy]. rewrite Wx, Wy. rewrite <- sqrt_Rsqr_abs. f_equal. unfold Rsqr.
    pose proof (sin2_cos2 (rad a)) as T. unfold Rsqr in T.
    transitivity (c_radius c * c_radius c * (sin (rad a) * sin (rad a) + cos (rad a) * cos (rad a))); [ring|]. rewrite T. ring.
  - unfold cross, normal. cbn [vx vy]. nra.
Qed.

(** An arc built from its start angle and its length. *)
Lemma circle_distance_arc_ok o r s l : 0 < r -> 0 <= l <= 2 * PI * r ->
  exists e, new_circle o r None false (Some (s, l)) = Ok (Circ o r (Some (Dom s e))) /\ s <= e /\ e - s <= 360 /\
    rad (e - s) * r = l.
Proof.
  intros R0 L. unfold new_circle. cbn [andb]. rewrite Rltb_false by lra. rewrite fdiv_ok by lra. cbn [bind].
  pose proof PI_RGT_0 as HP.
  assert (Q : 0 <= l / r <= 2 * PI).
  { split; [apply Rmult_le_pos; [lra|apply Rlt_le, Rinv_0_lt_compat; lra]|].
    apply (Rmult_le_reg_r r); [lra|]. unfold Rdiv. rewrite Rmult_assoc, Rinv_l by lra. lra. }
  exists (s + degrees (l / r)). split; [reflexivity|].
  assert (E : rad (s + degrees (l / r) - s) = l / r).
  { replace (s + degrees (l / r) - s) with (degrees (l / r)) by ring. apply rad_degrees. }
  assert (D : degrees (l / r) = (l / r) * 180 / PI).
  { rewrite <- E at 2. unfold rad. field. lra. }
  split; [|split].
  - assert (0 <= degrees (l / r)); [|lra]. rewrite D. apply Rmult_le_pos; [nra|apply Rlt_le, Rinv_0_lt_compat; lra].
  - assert (degrees (l / r) <= 360); [|lra]. rewrite D. apply (Rmult_le_reg_r PI); [lra|]. unfold Rdiv at 1. rewrite Rmult_assoc, Rinv_l by lra. lra.
  - rewrite E. field. lra.
Qed.

Lemma circle_at_distance_ok c l : 0 < c_radius c -> exists q,
  circle_point_at_distance c l = Ok q /\ vx q = vx (c_center c) + c_radius c * cos (l / c_radius c) /\
  vy q = vy (c_center c) + c_radius c * sin (l / c_radius c).
Proof.
  intro R0. unfold circle_point_at_distance. rewrite fdiv_ok by lra. cbn [bind]. eexists. split; [reflexivity|].
  destruct (circle_point_ok c (degrees (l / c_radius c))) as [X Y]. rewrite rad_degrees in X, Y. auto.
Qed.

Lemma circle_inside_ok c q : 0 <= c_radius c ->
  (circle_is_point_inside c q = true <-> dist (c_center c) q <= c_radius c).
Proof.
  intro R0. unfold circle_is_point_inside.
  assert (E : magnitude_square (vsub q (c_center c)) = dist (c_center c) q * dist (c_center c) q).
  { rewrite dist_sq. unfold magnitude_square, dot, vsub. cbn. ring. }
  rewrite E. destruct (Rleb_spec (dist (c_center c) q * dist (c_center c) q) (c_radius c ^ 2)) as [L|L]; split; intro H; try reflexivity; try discriminate.
  - apply sq_le_nonneg; [exact R0|]. lra.
  - pose proof (dist_nonneg (c_center c) q). nra.
Qed.

Lemma circle_box_ok c : 0 <= c_radius c ->
  (forall q, on_circle (c_center c) (c_radius c) q -> in_box (circle_bounding_box c) q) /\
  (exists q, on_circle (c_center c) (c_radius c) q /\ vx q = inf (bx (circle_bounding_box c))) /\
  (exists q, on_circle (c_center c) (c_radius c) q /\ vx q = sup (bx (circle_bounding_box c))) /\
  (exists q, on_circle (c_center c) (c_radius c) q /\ vy q = inf (by_ (circle_bounding_box c))) /\
  (exists q, on_circle (c_center c) (c_radius c) q /\ vy q = sup (by_ (circle_bounding_box c))).
Proof.
  intro R0. assert (EQ : forall q, on_circle (c_center c) (c_radius c) q <-> (vx q - vx (c_center c)) ^ 2 + (vy q - vy (c_center c)) ^ 2 = c_radius c ^ 2).
  { intro q. rewrite <- circle_equation, Rabs_pos_eq by exact R0. reflexivity. }
  unfold circle_bounding_box. cbn zeta. cbn [bx by_ enlarge inf sup vbox]. split.
  - intros q H. apply EQ in H. unfold in_box. cbn. set (a := vx q - vx (c_center c)) in *. set (b := vy q - vy (c_center c)) in *.
    assert (A : Rabs a <= c_radius c).
    { apply sq_le_nonneg; [exact R0|]. rewrite <- Rabs_mult, Rabs_pos_eq by apply Rle_0_sqr. nra. }
    assert (B : Rabs b <= c_radius c).
    { apply sq_le_nonneg; [exact R0|]. rewrite <- Rabs_mult, Rabs_pos_eq by apply Rle_0_sqr. nra. }
    pose proof (Rle_abs a). pose proof (Rle_abs (- a)). rewrite Rabs_Ropp in *. pose proof (Rle_abs b). pose proof (Rle_abs (- b)). rewrite Rabs_Ropp in *. unfold a, b in *. lra.
  - repeat split.
    + exists (V (vx (c_center c) - c_radius c) (vy (c_center c))). split; [apply EQ; cbn; ring|reflexivity].
    + exists (V (vx (c_center c) + c_radius c) (vy (c_center c))). split; [apply EQ; cbn; ring|reflexivity].
    + exists (V (vx (c_center c)) (vy (c_center c) - c_radius c)). split; [apply EQ; cbn; ring|reflexivity].
    + exists (V (vx (c_center c)) (vy (c_center c) + c_radius c)). split; [apply EQ; cbn; ring|reflexivity].
Qed.
(** The box of an arc is that of the whole circle. *)
Lemma arc_box_refuted : let c := Circ (V 0 0) 1 (Some (Dom 0 90)) in
  inf (bx (circle_bounding_box c)) = -1 /\ forall q, on_arc (V 0 0) 1 0 90 q -> 0 <= vx q.
Proof.
  cbn zeta. split; [cbn; ring|]. intros q (a & A & X & Y). rewrite X. cbn. 
  assert (0 <= cos (rad a)); [|lra]. apply cos_ge_0; unfold rad; pose proof PI_RGT_0; nra.
Qed.

Lemma perimeter_refuted : circle_perimeter (Circ (V 0 0) 1 None) = Raise AttributeError /\
  circle_perimeter (Circ (V 0 0) 1 (Some (Dom 0 90))) = Ok (rad 360 * 1).
Proof. split; [reflexivity|]. unfold circle_perimeter. cbn [c_domain c_radius]. f_equal. rewrite rad_360. reflexivity. Qed.

(** An arc whose start angle is negative: the point (1, 0) is in the middle of the arc (from -90 to 90), the
    answer for the point (2, -1) is measured from the end points. *)
Lemma arc_negative_refuted : let c := Circ (V 0 0) 1 (Some (Dom (-90) 90)) in
  exists d, circle_distance_to_point c (V 2 (-1)) = Ok d /\ d = 2 /\
    exists q, on_arc (V 0 0) 1 (-90) 90 q /\ dist (V 2 (-1)) q < d.
Proof.
  cbn zeta. set (c := Circ _ _ _). destruct (angle_for_point_ok c (V 2 (-1))) as (a & E & A & P).
  { cbn. intro H. injection H. lra. }
  unfold circle_distance_to_point. cbn [c c_domain]. fold c. rewrite E. cbn [bind d_start d_stop].
  assert (A90 : 90 < a).
  { destruct (Rle_dec a 90) as [L|L]; [|lra]. exfalso. destruct P as [_ Y]. cbn in Y.
    assert (0 <= sin (rad a)) by (apply sin_ge_0; unfold rad; pose proof PI_RGT_0; nra).
    pose proof (dist_nonneg (V 0 0) (V 2 (-1))). nra. }
  unfold d_is_inside, d_is_counterclockwise. cbn [d_start d_stop]. rewrite (Rleb_true (-90) 90) by lra. rewrite (Rleb_false a) by lra. rewrite andb_false_r.
  eexists. split; [reflexivity|].
  destruct (circle_point_ok c (-90)) as [X1 Y1]. destruct (circle_point_ok c 90) as [X2 Y2]. cbn [c c_center c_radius vx vy] in *.
  replace (rad (-90)) with (- (PI / 2)) in * by (unfold rad; field). rewrite rad_90 in *.
  rewrite cos_neg, cos_PI2 in *. rewrite sin_neg, sin_PI2 in *. fold c in X1, X2, Y1, Y2.
  assert (M1 : magnitude (vsub (V 2 (-1)) (circle_point_at_angle c (-90))) = 2).
  { unfold magnitude, magnitude_square, dot, vsub. cbn [vx vy]. rewrite X1, Y1.
    replace ((2 - (0 + 1 * 0)) * (2 - (0 + 1 * 0)) + (-1 - (0 + 1 * - (1))) * (-1 - (0 + 1 * - (1)))) with (2 * 2) by ring. apply sqrt_square. lra. }
  assert (M2 : 2 <= magnitude (vsub (V 2 (-1)) (circle_point_at_angle c 90))).
  { unfold magnitude, magnitude_square, dot, vsub. cbn [vx vy]. rewrite X2, Y2. rewrite <- (sqrt_square 2) at 1 by lra. apply sqrt_le_1; lra. }
  rewrite M1, Rmin_left by exact M2. split; [reflexivity|].
  exists (V 1 0). split.
  - exists 0. split; [lra|]. unfold polar. cbn [vx vy]. rewrite rad_0, cos_0, sin_0. split; ring.
  - unfold dist. cbn [vx vy]. apply Rlt_le_trans with (sqrt (2 * 2)); [apply sqrt_lt_1; lra|rewrite sqrt_square; lra].
Qed.

(** Two circles that touch from the other side. *)
Lemma touching_refuted : let c1 := Circ (V 0 0) 1 None in let c2 := Circ (V (-2) 0) 1 None in
  intersect_circle c1 c2 = Ok (MOne (V 1 0)) /\ on_circle (V (-2) 0) 1 (V (-1) 0) /\ on_circle (V 0 0) 1 (V (-1) 0) /\
  ~ on_circle (V (-2) 0) 1 (V 1 0).
Proof.
  cbn zeta. set (c1 := Circ (V 0 0) 1 None). set (c2 := Circ (V (-2) 0) 1 None).
  assert (O : forall x y x' y', on_circle (V x y) 1 (V x' y') <-> (x' - x) ^ 2 + (y' - y) ^ 2 = 1 ^ 2).
  { intros. pose proof (circle_equation (V x y) 1 (V x' y')) as H. rewrite (Rabs_pos_eq 1) in H by lra. exact H. }
  assert (I : on_circle (V (-2) 0) 1 (V (-1) 0)) by (apply O; ring).
  assert (J : on_circle (V 0 0) 1 (V (-1) 0)) by (apply O; ring).
  split; [|split; [exact I|split; [exact J|rewrite O; lra]]].
  destruct (intersect_circle_ok c1 c2) as [[_ H]|[(p & q & E & U & _ & H)|(_ & p & q & N & P & Q)]].
  - cbn. intro H. injection H. lra.
  - exfalso. apply (H (V (-1) 0)). cbn. rewrite Rabs_pos_eq by lra. auto.
  - cbn [c1 c2 c_center vx] in H. rewrite E, H by lra. assert (q = V (-1) 0) as ->.
    { symmetry. apply U. cbn. rewrite Rabs_pos_eq by lra. auto. }
    do 2 f_equal. apply vec_eq; cbn; ring.
  - exfalso. cbn in P, Q. rewrite !Rabs_pos_eq in P, Q by lra. destruct p as [px py], q as [qx qy]. rewrite !O in P, Q.
    assert (px = -1) by lra. assert (qx = -1) by lra. subst. assert (py = 0) by nra. assert (qy = 0) by nra. subst. apply N. reflexivity.
Qed.
Lemma crossing_refuted : let c1 := Circ (V 0 0) 5 None in let c2 := Circ (V 6 0) 5 None in
  intersect_circle c1 c2 = Raise TypeError /\
  (on_circle (V 0 0) 5 (V 3 4) /\ on_circle (V 6 0) 5 (V 3 4)) /\ (on_circle (V 0 0) 5 (V 3 (-4)) /\ on_circle (V 6 0) 5 (V 3 (-4))).
Proof.
  cbn zeta. set (c1 := Circ (V 0 0) 5 None). set (c2 := Circ (V 6 0) 5 None).
  assert (O : forall x y x' y', on_circle (V x y) 5 (V x' y') <-> (x' - x) ^ 2 + (y' - y) ^ 2 = 5 ^ 2).
  { intros. pose proof (circle_equation (V x y) 5 (V x' y')) as H. rewrite (Rabs_pos_eq 5) in H by lra. exact H. }
  assert (A : (on_circle (V 0 0) 5 (V 3 4) /\ on_circle (V 6 0) 5 (V 3 4)) /\ (on_circle (V 0 0) 5 (V 3 (-4)) /\ on_circle (V 6 0) 5 (V 3 (-4)))).
  { rewrite !O. lra. }
  split; [|exact A]. destruct A as [P Q].
  destruct (intersect_circle_ok c1 c2) as [[_ H]|[(p & q & E & U & _ & H)|(E & _)]].
  - cbn. intro H. injection H. lra.
  - exfalso. apply (H (V 3 4)). cbn. rewrite Rabs_pos_eq by lra. exact P.
  - exfalso. cbn in U. rewrite Rabs_pos_eq in U by lra. apply U in P. apply U in Q. rewrite <- P in Q. injection Q. lra.
  - exact E.
Qed.

(** Transformations of a circle *)
Lemma transform_circle_ok t c k : scalar t (c_radius c) = Ok (k * c_radius c) ->
  (forall p q, dist (apply t p) (apply t q) = k * dist p q) ->
  exists c', transform_circle t c = Ok c' /\
   forall q, on_circle (c_center c) (c_radius c) q -> on_circle (c_center c') (c_radius c') (apply t q).
Proof.
  intros E D. unfold transform_circle. rewrite E. cbn [bind]. eexists. split; [reflexivity|].
  intros q H. unfold on_circle in *. cbn [c_center c_radius]. rewrite D, H. reflexivity.
Qed.

(** ** Ellipse *)
Lemma frame_in e q : frame (e_center e) (e_angle e) q (vx (point_in_ellipse_frame e q)) (vy (point_in_ellipse_frame e q)).
Proof.
  unfold frame, point_in_ellipse_frame, rotate. cbn [negb vx vy vsub]. rewrite radians_rad, rad_m, cos_neg, sin_neg.
  pose proof (sin2_cos2 (rad (e_angle e))) as T. unfold Rsqr in T. set (s := sin (rad (e_angle e))) in *. set (c := cos (rad (e_angle e))) in *.
  set (x := vx q - vx (e_center e)). set (y := vy q - vy (e_center e)). split.
  - replace (vx q) with (vx (e_center e) + (s * s + c * c) * x) by (rewrite T; unfold x; ring). ring.
  - replace (vy q) with (vy (e_center e) + (s * s + c * c) * y) by (rewrite T; unfold y; ring). ring.
Qed.
Lemma frame_from e p : frame (e_center e) (e_angle e) (point_from_ellipse_frame e p) (vx p) (vy p).
Proof. unfold frame, point_from_ellipse_frame, rotate, vadd. cbn [negb vx vy]. rewrite radians_rad. split; ring. Qed.
Lemma frame_unique c phi q u v u' v' : frame c phi q u v -> frame c phi q u' v' -> u = u' /\ v = v'.
Proof.
  intros [A B] [C D]. pose proof (sin2_cos2 (rad phi)) as T. unfold Rsqr in T.
  set (s := sin (rad phi)) in *. set (k := cos (rad phi)) in *.
  assert (E1 : (u - u') * k = (v - v') * s) by lra. assert (E2 : (u - u') * s = - (v - v') * k) by lra.
  assert (U : u - u' = 0).
  { transitivity ((s * s + k * k) * (u - u')); [rewrite T; ring|]. 
    replace ((s * s + k * k) * (u - u')) with (s * ((u - u') * s) + k * ((u - u') * k)) by ring. rewrite E1, E2. ring. }
  assert (W : v - v' = 0).
  { transitivity ((s * s + k * k) * (v - v')); [rewrite T; ring|].
    replace ((s * s + k * k) * (v - v')) with (s * ((v - v') * s) - k * (- (v - v') * k)) by ring. rewrite <- E1, <- E2. ring. }
  lra.
Qed.
Lemma frame_point c phi q q' u v : frame c phi q u v -> frame c phi q' u v -> q = q'.
Proof. intros [A B] [C D]. apply vec_eq; lra. Qed.
Lemma frames_inverse e q : point_from_ellipse_frame e (point_in_ellipse_frame e q) = q /\
  point_in_ellipse_frame e (point_from_ellipse_frame e q) = q.
Proof.
  split.
  - apply (frame_point (e_center e) (e_angle e) _ _ _ _ (frame_from e _) (frame_in e q)).
  - destruct (frame_unique _ _ _ _ _ _ _ (frame_in e (point_from_ellipse_frame e q)) (frame_from e q)). apply vec_eq; assumption.
Qed.

Lemma turn_frame e w : (if Reqb (e_angle e) 0 then w else rotate w (e_angle e) true) =
  V (vx w * cos (rad (e_angle e)) - vy w * sin (rad (e_angle e))) (vx w * sin (rad (e_angle e)) + vy w * cos (rad (e_angle e))).
Proof.
  destruct (Reqb_spec (e_angle e) 0) as [Z|Z].
  - rewrite Z, rad_0, cos_0, sin_0. apply vec_eq; cbn [vx vy]; ring.
  - unfold rotate. cbn [negb]. rewrite radians_rad. apply vec_eq; cbn [vx vy]; ring.
Qed.
Lemma ellipse_point_ok e a : ellipse_polar (e_center e) (e_rx e) (e_ry e) (e_angle e) a (ellipse_point_at_angle e a).
Proof.
  unfold ellipse_point_at_angle. cbn zeta. rewrite turn_frame. unfold ellipse_polar, frame, from_ellipse. cbn [vadd vx vy]. rewrite radians_rad. split; ring.
Qed.
Lemma ellipse_polar_on c rx ry phi a q : rx <> 0 -> ry <> 0 -> ellipse_polar c rx ry phi a q -> on_ellipse c rx ry phi q.
Proof.
  intros X Y P. exists (rx * cos (rad a)), (ry * sin (rad a)). split; [exact P|].
  pose proof (sin2_cos2 (rad a)) as T. unfold Rsqr in T. rewrite <- T. field. split; assumption.
Qed.
Lemma on_ellipse_polar c rx ry phi q : rx <> 0 -> ry <> 0 -> on_ellipse c rx ry phi q ->
  exists a, -180 < a <= 180 /\ ellipse_polar c rx ry phi a q.
Proof.
  intros X Y (u & v & F & E).
  assert (L1 : len (V (u / rx) (v / ry)) = 1).
  { unfold len. cbn [vx vy]. replace (u / rx * (u / rx) + v / ry * (v / ry)) with 1 by (rewrite <- E; ring). apply sqrt_1. }
  destruct (orientation_ok (V (u / rx) (v / ry))) as (a & _ & A & C & S).
  { intros [Z1 Z2]. cbn in Z1, Z2. rewrite Z1, Z2 in E. lra. }
  rewrite L1 in C, S. cbn [vx vy] in C, S. exists a. split; [exact A|]. unfold ellipse_polar.
  replace (rx * cos (rad a)) with u by (rewrite <- (Rmult_1_l (cos (rad a))), <- C; field; exact X).
  replace (ry * sin (rad a)) with v by (rewrite <- (Rmult_1_l (sin (rad a))), <- S; field; exact Y). exact F.
Qed.

(** The line through two points in the frame of the ellipse, with the second axis scaled. *)
Lemma aligned_frame e k a b q : k <> 0 -> let f p := let w := point_in_ellipse_frame e p in V (vx w) (vy w * k) in
  (aligned a b q <-> aligned (f a) (f b) (f q)).
Proof.
  intros K f. split.
  - intros (t & X & Y). exists t. unfold f, point_in_ellipse_frame, rotate, vsub. cbn [negb vx vy]. rewrite X, Y. split; ring.
  - intros (t & X & Y). unfold f in X, Y. cbn [vx vy] in X, Y.
    destruct (frame_in e a) as [A1 A2]. destruct (frame_in e b) as [B1 B2]. destruct (frame_in e q) as [Q1 Q2].
    assert (Y' : vy (point_in_ellipse_frame e q) = vy (point_in_ellipse_frame e a) + t * (vy (point_in_ellipse_frame e b) - vy (point_in_ellipse_frame e a))).
    { apply (Rmult_eq_reg_r k); [|exact K]. rewrite Y. ring. }
    exists t. rewrite Q1, Q2, X, Y'. rewrite A1, A2, B1, B2. split; ring.
Qed.
Lemma scaled_circle e q : e_rx e <> 0 -> e_ry e <> 0 ->
  (on_ellipse (e_center e) (e_rx e) (e_ry e) (e_angle e) q <->
   on_circle (V 0 0) (Rabs (e_rx e)) (let w := point_in_ellipse_frame e q in V (vx w) (vy w * (e_rx e / e_ry e)))).
Proof.
  intros X Y. unfold on_circle. rewrite circle_equation. cbn zeta. cbn [vx vy]. set (w := point_in_ellipse_frame e q).
  assert (E : forall u v, (u / e_rx e) ^ 2 + (v / e_ry e) ^ 2 = 1 <-> (u - 0) ^ 2 + (v * (e_rx e / e_ry e) - 0) ^ 2 = e_rx e ^ 2).
  { intros u v. replace ((u - 0) ^ 2 + (v * (e_rx e / e_ry e) - 0) ^ 2) with (((u / e_rx e) ^ 2 + (v / e_ry e) ^ 2) * e_rx e ^ 2) by (field; split; assumption).
    split; [intros ->; ring|]. intro H. apply (Rmult_eq_reg_r (e_rx e ^ 2)); [lra|]. apply pow_nonzero. exact X. }
  rewrite <- E. split.
  - intros (u & v & F & H). destruct (frame_unique _ _ _ _ _ _ _ F (frame_in e q)) as [-> ->]. exact H.
  - intro H. exists (vx w), (vy w). split; [apply frame_in|exact H].
Qed.

Lemma ellipse_intersect_ok e s : e_rx e <> 0 -> e_ry e <> 0 -> s_p0 s <> s_p1 s ->
  let common q := on_ellipse (e_center e) (e_rx e) (e_ry e) (e_angle e) q /\ aligned (s_p0 s) (s_p1 s) q in
  (exists p q, ellipse_intersect_segment e s = Ok [p; q] /\ p <> q /\ forall x, common x <-> x = p \/ x = q) \/
  (ellipse_intersect_segment e s = Raise AttributeError /\ exists p, forall x, common x <-> x = p) \/
  (ellipse_intersect_segment e s = Raise TypeError /\ forall x, ~ common x).
Proof.
  intros X Y N common. unfold ellipse_intersect_segment. rewrite fdiv_ok by exact Y. cbn [bind]. cbn zeta. set (k := e_rx e / e_ry e).
  assert (K : k <> 0) by (unfold k, Rdiv; apply Rmult_integral_contrapositive; split; [exact X|apply Rinv_neq_0_compat; exact Y]).
  set (f := fun p : vec => V (vx (point_in_ellipse_frame e p)) (vy (point_in_ellipse_frame e p) * k)).
  set (g := fun p : vec => point_from_ellipse_frame e (V (vx p) (vy p / k))).
  assert (GF : forall p, g (f p) = p).
  { intro p. unfold g, f. cbn [vx vy]. rewrite <- (proj1 (frames_inverse e p)) at 3. f_equal. apply vec_eq; cbn [vx vy]; [reflexivity|field; exact K]. }
  assert (FG : forall p, f (g p) = p).
  { intro p. unfold f, g. rewrite (proj2 (frames_inverse e _)). apply vec_eq; cbn [vx vy]; [reflexivity|field; exact K]. }
  change (V (vx (point_in_ellipse_frame e (s_p0 s))) (vy (point_in_ellipse_frame e (s_p0 s)) * k)) with (f (s_p0 s)).
  change (V (vx (point_in_ellipse_frame e (s_p1 s))) (vy (point_in_ellipse_frame e (s_p1 s)) * k)) with (f (s_p1 s)).
  destruct (intersect_segment_ok (Circ (V 0 0) (e_rx e) None) (Seg (f (s_p0 s)) (f (s_p1 s)))) as (m & E & M & Dis).
  { cbn [s_p0 s_p1]. intro Z. apply N. rewrite <- (GF (s_p0 s)), <- (GF (s_p1 s)), Z. reflexivity. }
  rewrite E. cbn [bind]. cbn [c_center c_radius s_p0 s_p1] in M.
  assert (Key : forall x, common x <-> met m (f x)).
  { intro x. rewrite M. unfold common. rewrite (scaled_circle e x X Y), (aligned_frame e k _ _ x K). reflexivity. }
  destruct m as [|p|p q]; cbn [met] in Key.
  - right. right. split; [reflexivity|]. intros x H. apply Key in H. exact H.
  - right. left. split; [reflexivity|]. exists (g p). intro x. rewrite Key. split; [intros <-; symmetry; apply GF|intros ->; apply FG].
  - left. exists (g p), (g q). cbn [traverse]. rewrite !fdiv_ok by exact K. cbn [bind map_result map]. split; [reflexivity|]. split.
    + intro Z. apply (Dis p q eq_refl). rewrite <- (FG p), <- (FG q), Z. reflexivity.
    + intro x. rewrite Key. split; (intros [H|H]; [left|right]).
      * rewrite <- H. symmetry. apply GF.
      * rewrite <- H. symmetry. apply GF.
      * rewrite H. apply FG.
      * rewrite H. apply FG.
Qed.
