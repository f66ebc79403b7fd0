(** Lemmas on lines, segments, triangles. *)
From Coq Require Import Bool Reals List ZArith Lra Lia Psatz.
From Verif Require Import Base ModelVector SpecVector ProofVector ModelRoot ModelLine SpecLine.
Import ListNotations.
Local Open Scope R_scope.

(** ** Intersection of lines *)


Lemma intersection_abscissae_ok l1 l2 :
  5 / 10 ^ 8 < Rabs (crossv (l_v l1) (l_v l2)) ->
  exists s1 s2, intersection_abscissae l1 l2 = Ok (Some (s1, s2)) /\
    line_interpolate l1 s1 = line_interpolate l2 s2.
Proof.
  intros H. unfold intersection_abscissae, is_parallel_cross.
  destruct (is_parallel (l_v l1) (l_v l2)) eqn:E.
  - apply is_parallel_true in E. unfold crossv in H. lra.
  - assert (C : cross (l_v l1) (l_v l2) <> 0).
    { unfold crossv in H. unfold cross. intros C. rewrite C, Rabs_R0 in H. lra. }
    rewrite fdiv_ok by exact C. cbn [bind]. do 2 eexists. split; [reflexivity|].
    destruct l1 as [[x1 y1] [u1 v1]], l2 as [[x2 y2] [u2 v2]]. unfold cross in *. simpl in *.
    apply vec_eq; simpl; field; assumption.
Qed.

Lemma line_intersection_ok l1 l2 :
  5 / 10 ^ 8 < Rabs (crossv (l_v l1) (l_v l2)) ->
  exists q, line_intersection l1 l2 = Ok (Some q) /\
    forall p, (on_line l1 p /\ on_line l2 p) <-> p = q.
Proof.
  intros H. destruct (intersection_abscissae_ok l1 l2 H) as (s1 & s2 & E & I).
  unfold line_intersection. rewrite E. cbn [bind]. eexists. split; [reflexivity|].
  assert (C : crossv (l_v l1) (l_v l2) <> 0).
  { intros C. rewrite C, Rabs_R0 in H. lra. }
  intros p. split.
  - intros [[a [Ax Ay]] [b [Bx By]]].
    apply (f_equal vx) in I as Ix. apply (f_equal vy) in I as Iy.
    unfold line_interpolate, vadd, vscale in *. simpl in *.
    assert (a = s1).
    { apply Rmult_eq_reg_r with (crossv (l_v l1) (l_v l2)); [|exact C]. unfold crossv.
      apply Rminus_diag_uniq.
      assert (Ex : (a - s1) * vx (l_v l1) = (b - s2) * vx (l_v l2)) by lra.
      assert (Ey : (a - s1) * vy (l_v l1) = (b - s2) * vy (l_v l2)) by lra.
      transitivity (((a - s1) * vx (l_v l1)) * vy (l_v l2) - ((a - s1) * vy (l_v l1)) * vx (l_v l2)); [ring|].
      rewrite Ex, Ey. ring. }
    subst a. apply vec_eq; simpl; lra.
  - intros ->. split.
    + exists s1. unfold line_interpolate, vadd, vscale; simpl. split; ring.
    + rewrite I. exists s2. unfold line_interpolate, vadd, vscale; simpl. split; ring.
Qed.

Lemma line_intersection_parallel l1 l2 : collinear (l_v l1) (l_v l2) ->
  line_intersection l1 l2 = Ok None.
Proof.
  intros H. unfold line_intersection, intersection_abscissae, is_parallel_cross.
  rewrite (collinear_is_parallel _ _ H). reflexivity.
Qed.

Lemma line_intersection_refuted :
  ~ (forall l1 l2, ~ collinear (l_v l1) (l_v l2) -> exists q, line_intersection l1 l2 = Ok (Some q)).
Proof.
  intros H. specialize (H (Ln (V 0 0) (V (1/10^4) 0)) (Ln (V 1 0) (V 0 (1/10^4)))).
  destruct H as [q H].
  - intros C. apply cross_collinear in C. unfold cross in C; simpl in C. lra.
  - unfold line_intersection, intersection_abscissae, is_parallel_cross in H.
    assert (E : is_parallel (V (1/10^4) 0) (V 0 (1/10^4)) = true).
    { apply is_parallel_true. simpl. rewrite Rabs_right; lra. }
    cbn [l_v] in H. rewrite E in H. discriminate.
Qed.

(** ** Projection on a line *)

Lemma line_distance_ok l p : ~ null (l_v l) -> exists d, distance_to_line l p = Ok d /\
  min_distance (on_line l) p (Rabs d).
Proof.
  intros N. destruct (projection_deviation (vsub p (l_p l)) (l_v l) N)
    as (s & d & Es & Ed & Hx & Hy & Hs).
  pose proof (len_pos _ N) as L. pose proof (len_sq (l_v l)) as S.
  exists d. split; [exact Ed|].
  destruct l as [[px py] [a b]], p as [x y]; unfold vsub in *; simpl in *.
  set (n := len {| vx := a; vy := b |}) in *. clearbody n.
  assert (K : forall q k, vx q = px + k * a -> vy q = py + k * b ->
    (x - vx q) * (x - vx q) + (y - vy q) * (y - vy q) = (s - k * n) * (s - k * n) + d * d).
  { intros q k Qx Qy. rewrite Qx, Qy.
    replace (x - (px + k * a)) with ((s * a - d * b) / n - k * a) by lra.
    replace (y - (py + k * b)) with ((s * b + d * a) / n - k * b) by lra.
    transitivity (((s - k * n) * (s - k * n) + d * d) * ((a * a + b * b) / (n * n))); [field; lra|].
    rewrite <- S. field. lra. }
  split.
  - exists (V (px + s / n * a) (py + s / n * b)). split; [exists (s / n); simpl; auto|].
    unfold dist. rewrite (K _ (s / n)) by reflexivity. simpl.
    replace ((s - s / n * n) * (s - s / n * n) + d * d) with (d * d) by (field; lra).
    rewrite <- sqrt_Rsqr_abs. reflexivity.
  - intros q [k [Qx Qy]]. simpl in *. unfold dist. simpl. rewrite (K q k Qx Qy).
    rewrite <- sqrt_Rsqr_abs. apply sqrt_le_1_alt. pose proof (Rle_0_sqr (s - k * n)). unfold Rsqr in *. lra.
Qed.

Lemma projected_point_unit l p : len (l_v l) = 1 -> exists q, projected_point l p = Ok q /\
  on_line l q /\ perpendicular (V (vx p - vx q) (vy p - vy q)) (l_v l) /\
  min_distance (on_line l) p (dist p q).
Proof.
  intros U.
  assert (N : ~ null (l_v l)). { intros N. apply len_zero in N. lra. }
  destruct (projection_deviation (vsub p (l_p l)) (l_v l) N)
    as (s & d & Es & Ed & Hx & Hy & Hs).
  destruct (line_distance_ok l p N) as (d' & Ed' & M).
  unfold distance_to_line in Ed'. rewrite Ed in Ed'. injection Ed' as <-.
  unfold projected_point, projected_abscissa. rewrite Es. cbn [bind].
  eexists. split; [reflexivity|]. pose proof (len_sq (l_v l)) as S. rewrite U in *.
  destruct l as [[px py] [a b]], p as [x y]; unfold line_interpolate, vadd, vscale, vsub in *; simpl in *.
  split; [exists s; simpl; split; ring|]. split.
  { unfold perpendicular; simpl. 
    replace (x - (px + s * a)) with (- d * b) by lra. replace (y - (py + s * b)) with (d * a) by lra. ring. }
  assert (E : dist {| vx := x; vy := y |} {| vx := px + s * a; vy := py + s * b |} = Rabs d).
  { unfold dist; simpl. replace (x - (px + s * a)) with (- d * b) by lra.
    replace (y - (py + s * b)) with (d * a) by lra.
    replace (- d * b * (- d * b) + d * a * (d * a)) with (d * d * (a * a + b * b)) by ring.
    rewrite <- S. rewrite <- sqrt_Rsqr_abs. unfold Rsqr. f_equal. ring. }
  rewrite E. exact M.
Qed.

Lemma projected_point_refuted :
  ~ (forall l p, ~ null (l_v l) -> exists q, projected_point l p = Ok q /\
       perpendicular (V (vx p - vx q) (vy p - vy q)) (l_v l)).
Proof.
  intros H. specialize (H (Ln (V 0 0) (V 2 0)) (V 1 1)).
  destruct H as (q & E & P). { intros [H _]; simpl in H; lra. }
  unfold projected_point, projected_abscissa, projection_on in E. simpl in E.
  assert (M : magnitude (V 2 0) = 2).
  { unfold magnitude, magnitude_square, dot; simpl. replace (2*2+0*0) with (2*2) by ring. apply sqrt_square; lra. }
  rewrite M, fdiv_ok in E by lra. cbn [bind] in E. injection E as <-.
  unfold perpendicular, line_interpolate, vadd, vscale, dot in P; simpl in P. lra.
Qed.

(** Every line parallel to a given one, at a signed distance. *)
Lemma shifted_parallel_ok l k : ~ null (l_v l) -> exists l', shifted_parallel_line l k = Ok l' /\
  l_v l' = l_v l /\ forall q, on_line l' q -> distance_to_line l q = Ok k.
Proof.
  intros N.
  assert (N' : ~ null (normal (l_v l))).
  { intros [H1 H2]. apply N. unfold normal in *; simpl in *. split; lra. }
  unfold shifted_parallel_line.
  destruct (normalise_ok _ N') as (w & Ew & U & Wx & Wy). rewrite Ew. cbn [bind].
  eexists. split; [reflexivity|]. split; [reflexivity|].
  intros q [t [Qx Qy]]. unfold distance_to_line, deviation_with.
  pose proof (len_pos _ N) as L. rewrite magnitude_len, fdiv_ok by lra. f_equal.
  assert (En : len (normal (l_v l)) = len (l_v l)).
  { unfold len, normal; simpl. f_equal. ring. }
  rewrite En in *. pose proof (len_sq w) as S. rewrite U in S.
  unfold cross, vsub, normal in *. simpl in *. rewrite Qx, Qy.
  set (n := len (l_v l)) in *. clearbody n.
  apply Rmult_eq_reg_r with n; [|lra].
  transitivity (vx (l_v l) * (k * vy w) - vy (l_v l) * (k * vx w)); [field; lra|].
  rewrite Wy. replace (vy (l_v l)) with (- (n * vx w)) by lra.
  transitivity (k * n * (vx w * vx w + vy w * vy w)); [ring|]. rewrite <- S. ring.
Qed.

Lemma get_y_from_x_ok l x : vx (l_v l) <> 0 -> exists y, get_y_from_x l x = Ok y /\ on_line l (V x y).
Proof.
  intros H. unfold get_y_from_x, vtan. rewrite fdiv_ok by auto. cbn [bind].
  eexists; split; [reflexivity|]. exists ((x - vx (l_p l)) / vx (l_v l)). simpl. split; field; auto.
Qed.
Lemma get_x_from_y_ok l y : vy (l_v l) <> 0 -> exists x, get_x_from_y l y = Ok x /\ on_line l (V x y).
Proof.
  intros H. unfold get_x_from_y, vinverse_tan. rewrite fdiv_ok by auto. cbn [bind].
  eexists; split; [reflexivity|]. exists ((y - vy (l_p l)) / vy (l_v l)). simpl. split; field; auto.
Qed.

(** ** Segments: orientation and intersection test *)

Ltac rb := repeat (rcase; simpl in * ).

Lemma triangle_orientation_zero p0 p1 p2 :
  triangle_orientation p0 p1 p2 = 0%Z <-> between p0 p1 p2.
Proof.
  destruct p0 as [x0 y0], p1 as [x1 y1], p2 as [x2 y2].
  unfold triangle_orientation, between; simpl.
  set (a := x1 - x0). set (b := y1 - y0).
  replace x2 with (x0 + (x2 - x0)) by ring. replace y2 with (y0 + (y2 - y0)) by ring.
  set (c := x2 - x0). set (d := y2 - y0).
  replace (x0 + c - x0) with c by ring. replace (y0 + d - y0) with d by ring. clearbody a b c d.
  split.
  - intros H. destruct (Rltb_spec (c * b) (a * d)) as [|G1]; [discriminate|].
    destruct (Rltb_spec (a * d) (c * b)) as [|G2]; [discriminate|].
    destruct (Rltb_spec (a * c) 0) as [|G3]; [discriminate|].
    destruct (Rltb_spec (b * d) 0) as [|G4]; [discriminate|]. cbn [orb] in H.
    destruct (Rleb_spec (c * c + d * d) (a * a + b * b)) as [G5|]; [|discriminate].
    assert (E : a * d = b * c) by lra.
    destruct (Req_dec (a * a + b * b) 0) as [Z|Z].
    + assert (a = 0) by (apply Rsqr_0_uniq; unfold Rsqr; nra).
      assert (b = 0) by (apply Rsqr_0_uniq; unfold Rsqr; nra).
      assert (c = 0) by (apply Rsqr_0_uniq; unfold Rsqr; nra).
      assert (d = 0) by (apply Rsqr_0_uniq; unfold Rsqr; nra).
      subst. exists 0. repeat split; lra.
    + set (n := a * a + b * b) in *. assert (P : 0 < n) by (unfold n in *; nra).
      set (m := a * c + b * d). assert (M : 0 <= m) by (unfold m; nra).
      assert (Hc : c * n = m * a).
      { transitivity (m * a + b * (b * c - a * d)); [unfold n, m; ring|]. rewrite E. ring. }
      assert (Hd : d * n = m * b).
      { transitivity (m * b + a * (a * d - b * c)); [unfold n, m; ring|]. rewrite E. ring. }
      assert (MM : m * m = n * (c * c + d * d)).
      { unfold m, n. transitivity ((a*c+b*d)*(a*c+b*d) + (a*d-b*c)*(a*d-b*c)); [|ring].
        replace (a*d-b*c) with 0 by lra. ring. }
      assert (MN : m <= n) by (apply sq_le_nonneg; nra).
      exists (m / n). repeat split.
      * apply Rmult_le_pos; [exact M|left; apply Rinv_0_lt_compat; lra].
      * apply Rmult_le_reg_r with n; [lra|]. replace (m / n * n) with m by (field; lra). lra.
      * f_equal. apply Rmult_eq_reg_r with n; [|lra]. rewrite Hc. field. lra.
      * f_equal. apply Rmult_eq_reg_r with n; [|lra]. rewrite Hd. field. lra.
  - intros (t & Ht & Hx & Hy). assert (Ec : c = t * a) by lra. assert (Ed : d = t * b) by lra.
    subst c d. rewrite !Rltb_false by nra. cbn [orb]. rewrite Rleb_true; [reflexivity|].
    assert (t * t <= 1) by nra.
    replace (t * a * (t * a) + t * b * (t * b)) with ((t * t) * (a * a + b * b)) by ring. nra.
Qed.

Lemma triangle_orientation_values p0 p1 p2 :
  triangle_orientation p0 p1 p2 = 0%Z \/ triangle_orientation p0 p1 p2 = 1%Z
  \/ triangle_orientation p0 p1 p2 = (-1)%Z.
Proof.
  unfold triangle_orientation.
  repeat (match goal with |- context [if ?b then _ else _] => destruct b end); auto.
Qed.

(** the cross product of the three points *)
Definition c3 (p0 p1 p2 : vec) : R :=
  (vx p1 - vx p0) * (vy p2 - vy p0) - (vx p2 - vx p0) * (vy p1 - vy p0).

Lemma orientation_pos p0 p1 p2 : 0 < c3 p0 p1 p2 -> triangle_orientation p0 p1 p2 = 1%Z.
Proof. unfold c3, triangle_orientation. intros. rewrite Rltb_true by lra. reflexivity. Qed.
Lemma orientation_neg p0 p1 p2 : c3 p0 p1 p2 < 0 -> triangle_orientation p0 p1 p2 = (-1)%Z.
Proof.
  unfold c3, triangle_orientation. intros. rewrite Rltb_false by lra. rewrite Rltb_true by lra. reflexivity.
Qed.

(** collinear point given by its parameter on a non null segment *)
Lemma orientation_param p0 p1 p2 k : ~ (vx p1 = vx p0 /\ vy p1 = vy p0) ->
  vx p2 = vx p0 + k * (vx p1 - vx p0) -> vy p2 = vy p0 + k * (vy p1 - vy p0) ->
  (k < 0 /\ triangle_orientation p0 p1 p2 = (-1)%Z) \/
  (0 <= k <= 1 /\ triangle_orientation p0 p1 p2 = 0%Z) \/
  (1 < k /\ triangle_orientation p0 p1 p2 = 1%Z).
Proof.
  intros N Hx Hy.
  assert (G : triangle_orientation p0 p1 p2 =
    (if Rlt_dec k 0 then (-1)%Z else if Rle_dec k 1 then 0%Z else 1%Z)).
  2:{ rewrite G. destruct (Rlt_dec k 0); auto. destruct (Rle_dec k 1); [|right; right; split; [lra|auto]].
      right; left. split; [lra|auto]. }
  unfold triangle_orientation.
  set (a := vx p1 - vx p0) in *. set (b := vy p1 - vy p0) in *.
  replace (vx p2 - vx p0) with (k * a) by lra. replace (vy p2 - vy p0) with (k * b) by lra.
  assert (P : 0 < a * a + b * b).
  { destruct (Req_dec a 0) as [Ea|Ea]; [destruct (Req_dec b 0) as [Eb|Eb]|].
    - exfalso. apply N. unfold a, b in *. split; lra.
    - rewrite Ea. assert (0 < b * b) by (apply Rlt_0_sqr; auto). lra.
    - assert (0 < a * a) by (apply Rlt_0_sqr; auto). nra. }
  clearbody a b. rewrite (Rltb_false (k * a * b)) by lra. rewrite (Rltb_false (a * (k * b))) by lra.
  destruct (Rlt_dec k 0) as [Hk|Hk].
  - assert (orb (Rltb (a * (k * a)) 0) (Rltb (b * (k * b)) 0) = true) as ->; [|reflexivity].
    apply orb_true_iff. destruct (Req_dec a 0) as [Ea|Ea].
    + right. apply Rltb_true. subst a. nra.
    + left. apply Rltb_true. assert (0 < a * a) by (apply Rlt_0_sqr; auto). nra.
  - rewrite !Rltb_false by nra. cbn [orb].
    destruct (Rle_dec k 1).
    + rewrite Rleb_true; [reflexivity|]. assert (k * k <= 1) by nra.
      replace (k * a * (k * a) + k * b * (k * b)) with ((k * k) * (a * a + b * b)) by ring. nra.
    + rewrite Rleb_false; [reflexivity|]. assert (1 < k * k) by nra.
      replace (k * a * (k * a) + k * b * (k * b)) with ((k * k) * (a * a + b * b)) by ring. nra.
Qed.

(** a null segment *)
Lemma orientation_null_segment p0 p1 p2 : vx p1 = vx p0 -> vy p1 = vy p0 ->
  triangle_orientation p0 p1 p2 = 0%Z \/ triangle_orientation p0 p1 p2 = 1%Z.
Proof.
  intros Hx Hy. unfold triangle_orientation. rewrite Hx, Hy.
  replace (vx p0 - vx p0) with 0 by ring. replace (vy p0 - vy p0) with 0 by ring.
  rewrite !Rltb_false by lra. cbn [orb]. destruct (Rleb _ _); auto.
Qed.

Lemma mul_neg_cases a b : (a = 0 \/ a = 1 \/ a = -1)%Z -> (b = 0 \/ b = 1 \/ b = -1)%Z ->
  (a * b < 0)%Z -> (a = 1 /\ b = -1)%Z \/ (a = -1 /\ b = 1)%Z.
Proof. intros [-> | [-> | ->]] [-> | [-> | ->]]; simpl; lia. Qed.

Lemma not_same a b : {vx a = vx b /\ vy a = vy b} + {~ (vx a = vx b /\ vy a = vy b)}.
Proof.
  destruct (Req_EM_T (vx a) (vx b)), (Req_EM_T (vy a) (vy b)); auto; right; tauto.
Qed.

Lemma orientation_c3 p0 p1 p2 : c3 p0 p1 p2 <> 0 ->
  (0 < c3 p0 p1 p2 /\ triangle_orientation p0 p1 p2 = 1%Z) \/
  (c3 p0 p1 p2 < 0 /\ triangle_orientation p0 p1 p2 = (-1)%Z).
Proof.
  intros. destruct (Rlt_dec 0 (c3 p0 p1 p2)).
  - left. split; [lra|now apply orientation_pos].
  - right. split; [lra|apply orientation_neg; lra].
Qed.

(** a point whose cross product is null has a parameter *)
Lemma c3_param p0 p1 p2 : ~ (vx p1 = vx p0 /\ vy p1 = vy p0) -> c3 p0 p1 p2 = 0 ->
  exists k, vx p2 = vx p0 + k * (vx p1 - vx p0) /\ vy p2 = vy p0 + k * (vy p1 - vy p0).
Proof.
  intros N H. unfold c3 in H.
  destruct (Req_dec (vx p1 - vx p0) 0) as [Ea|Ea].
  - assert (Eb : vy p1 - vy p0 <> 0) by (intros Eb; apply N; split; lra).
    exists ((vy p2 - vy p0) / (vy p1 - vy p0)). split; [|field; auto].
    rewrite Ea in *. assert (vx p2 - vx p0 = 0); [|lra].
    apply Rmult_eq_reg_r with (vy p1 - vy p0); [lra|auto].
  - exists ((vx p2 - vx p0) / (vx p1 - vx p0)). split; [field; auto|].
    apply Rmult_eq_reg_r with (vx p1 - vx p0); [|auto].
    transitivity (vy p0 * (vx p1 - vx p0) + (vx p2 - vx p0) * (vy p1 - vy p0)); [lra|field; auto].
Qed.

Lemma intersect_with_sound s1 s2 : intersect_with s1 s2 = true ->
  exists q, on_segment s1 q /\ on_segment s2 q.
Proof.
  destruct s1 as [p0 p1], s2 as [q0 q1]. unfold intersect_with, on_segment; simpl. intros H.
  destruct (Z.eq_dec (triangle_orientation p0 p1 q0) 0) as [Z1|Z1].
  { apply triangle_orientation_zero in Z1. exists q0. split; auto. exists 0. repeat split; lra. }
  destruct (Z.eq_dec (triangle_orientation p0 p1 q1) 0) as [Z2|Z2].
  { apply triangle_orientation_zero in Z2. exists q1. split; auto. exists 1. repeat split; lra. }
  destruct (Z.eq_dec (triangle_orientation q0 q1 p0) 0) as [Z3|Z3].
  { apply triangle_orientation_zero in Z3. exists p0. split; auto. exists 0. repeat split; lra. }
  destruct (Z.eq_dec (triangle_orientation q0 q1 p1) 0) as [Z4|Z4].
  { apply triangle_orientation_zero in Z4. exists p1. split; auto. exists 1. repeat split; lra. }
  apply orb_true_iff in H. destruct H as [H|H].
  2:{ exfalso. apply Z.eqb_eq in H. repeat (apply Z.mul_eq_0 in H; destruct H as [H|H]); contradiction. }
  apply andb_true_iff in H. destruct H as [H1 H2]. apply Z.ltb_lt in H1, H2.
  pose proof (mul_neg_cases _ _ (triangle_orientation_values _ _ _) (triangle_orientation_values _ _ _) H1) as K1.
  pose proof (mul_neg_cases _ _ (triangle_orientation_values _ _ _) (triangle_orientation_values _ _ _) H2) as K2.
  clear H1 H2.
  assert (N1 : ~ (vx p1 = vx p0 /\ vy p1 = vy p0)).
  { intros [E1 E2]. pose proof (orientation_null_segment p0 p1 q0 E1 E2). pose proof (orientation_null_segment p0 p1 q1 E1 E2). lia. }
  assert (N2 : ~ (vx q1 = vx q0 /\ vy q1 = vy q0)).
  { intros [E1 E2]. pose proof (orientation_null_segment q0 q1 p0 E1 E2). pose proof (orientation_null_segment q0 q1 p1 E1 E2). lia. }
  set (X := (vx p1 - vx p0) * (vy q1 - vy q0) - (vy p1 - vy p0) * (vx q1 - vx q0)).
  assert (Id1 : c3 p0 p1 q1 - c3 p0 p1 q0 = X) by (unfold c3, X; ring).
  assert (Id2 : c3 q0 q1 p1 - c3 q0 q1 p0 = - X) by (unfold c3, X; ring).
  (* a collinear end point leads to a contradiction *)
  assert (Col : forall a0 a1 b0 b1, ~ (vx a1 = vx a0 /\ vy a1 = vy a0) ->
    ~ (vx b1 = vx b0 /\ vy b1 = vy b0) ->
    (triangle_orientation a0 a1 b0 = 1 /\ triangle_orientation a0 a1 b1 = -1 \/
     triangle_orientation a0 a1 b0 = -1 /\ triangle_orientation a0 a1 b1 = 1)%Z ->
    (triangle_orientation b0 b1 a0 = 1 /\ triangle_orientation b0 b1 a1 = -1 \/
     triangle_orientation b0 b1 a0 = -1 /\ triangle_orientation b0 b1 a1 = 1)%Z ->
    c3 a0 a1 b0 <> 0).
  { intros a0 a1 b0 b1 M1 M2 L1 L2 Z.
    destruct (c3_param a0 a1 b0 M1 Z) as (k & Kx & Ky).
    pose proof (orientation_param a0 a1 b0 k M1 Kx Ky) as Ok.
    destruct (Req_dec (c3 a0 a1 b1) 0) as [Z'|Z'].
    - (* all collinear *)
      destruct (c3_param a0 a1 b1 M1 Z') as (l & Lx & Ly).
      pose proof (orientation_param a0 a1 b1 l M1 Lx Ly) as Ol.
      assert (B : between b0 b1 a0).
      { assert (KL : k < 0 < l \/ l < 0 < k).
        { destruct Ok as [[]|[[]|[]]], Ol as [[]|[[]|[]]]; first [lia | left; lra | right; lra]. }
        assert (D : l - k <> 0) by lra.
        exists ((0 - k) / (l - k)). repeat split.
        - destruct KL.
          + apply Rmult_le_pos; [lra|left; apply Rinv_0_lt_compat; lra].
          + replace ((0 - k) / (l - k)) with (k / (k - l)) by (field; lra).
            apply Rmult_le_pos; [lra|left; apply Rinv_0_lt_compat; lra].
        - destruct KL.
          + apply Rmult_le_reg_r with (l - k); [lra|]. replace ((0 - k) / (l - k) * (l - k)) with (- k) by (field; lra). lra.
          + apply Rmult_le_reg_r with (k - l); [lra|]. replace ((0 - k) / (l - k) * (k - l)) with k by (field; lra). lra.
        - rewrite Kx, Lx. field. lra.
        - rewrite Ky, Ly. field. lra. }
      apply triangle_orientation_zero in B. lia.
    - (* the line of b crosses the line of a outside of a *)
      assert (C1 : c3 b0 b1 a0 = k * c3 a0 a1 b1).
      { unfold c3. rewrite Kx, Ky. ring. }
      assert (C2 : c3 b0 b1 a1 = (k - 1) * c3 a0 a1 b1).
      { unfold c3. rewrite Kx, Ky. ring. }
      assert (KK : k < 0 \/ 1 < k).
      { destruct Ok as [[]|[[]|[]]]; auto; lia. }
      destruct (Rlt_dec 0 (c3 a0 a1 b1)) as [S|S].
      + destruct KK.
        * rewrite (orientation_neg b0 b1 a0), (orientation_neg b0 b1 a1) in L2 by (rewrite ?C1, ?C2; nra). lia.
        * rewrite (orientation_pos b0 b1 a0), (orientation_pos b0 b1 a1) in L2 by (rewrite ?C1, ?C2; nra). lia.
      + assert (c3 a0 a1 b1 < 0) by lra. destruct KK.
        * rewrite (orientation_pos b0 b1 a0), (orientation_pos b0 b1 a1) in L2 by (rewrite ?C1, ?C2; nra). lia.
        * rewrite (orientation_neg b0 b1 a0), (orientation_neg b0 b1 a1) in L2 by (rewrite ?C1, ?C2; nra). lia. }
  pose proof (Col p0 p1 q0 q1 N1 N2 K1 K2) as C1.
  pose proof (Col q0 q1 p0 p1 N2 N1 K2 K1) as C3.
  assert (C2 : c3 p0 p1 q1 <> 0).
  { assert (N2' : ~ (vx q0 = vx q1 /\ vy q0 = vy q1)) by (intros [? ?]; apply N2; split; auto).
    intros C2. destruct (c3_param p0 p1 q1 N1 C2) as (k & Kx & Ky).
    pose proof (orientation_param p0 p1 q1 k N1 Kx Ky) as Ok.
    assert (KK : k < 0 \/ 1 < k).
    { destruct Ok as [[]|[[]|[]]]; auto; lia. }
    assert (D1 : c3 q0 q1 p0 = - k * c3 p0 p1 q0) by (unfold c3; rewrite Kx, Ky; ring).
    assert (D2 : c3 q0 q1 p1 = (1 - k) * c3 p0 p1 q0) by (unfold c3; rewrite Kx, Ky; ring).
    destruct (Rlt_dec 0 (c3 p0 p1 q0)) as [S|S].
    - destruct KK.
      + rewrite (orientation_pos q0 q1 p0), (orientation_pos q0 q1 p1) in K2 by (rewrite ?D1, ?D2; nra). lia.
      + rewrite (orientation_neg q0 q1 p0), (orientation_neg q0 q1 p1) in K2 by (rewrite ?D1, ?D2; nra). lia.
    - assert (c3 p0 p1 q0 < 0) by lra. destruct KK.
      + rewrite (orientation_neg q0 q1 p0), (orientation_neg q0 q1 p1) in K2 by (rewrite ?D1, ?D2; nra). lia.
      + rewrite (orientation_pos q0 q1 p0), (orientation_pos q0 q1 p1) in K2 by (rewrite ?D1, ?D2; nra). lia. }
  assert (C4 : c3 q0 q1 p1 <> 0).
  { intros C4. destruct (c3_param q0 q1 p1 N2 C4) as (k & Kx & Ky).
    pose proof (orientation_param q0 q1 p1 k N2 Kx Ky) as Ok.
    assert (KK : k < 0 \/ 1 < k).
    { destruct Ok as [[]|[[]|[]]]; auto; lia. }
    assert (D1 : c3 p0 p1 q0 = - k * c3 q0 q1 p0) by (unfold c3; rewrite Kx, Ky; ring).
    assert (D2 : c3 p0 p1 q1 = (1 - k) * c3 q0 q1 p0) by (unfold c3; rewrite Kx, Ky; ring).
    destruct (Rlt_dec 0 (c3 q0 q1 p0)) as [S|S].
    - destruct KK.
      + rewrite (orientation_pos p0 p1 q0), (orientation_pos p0 p1 q1) in K1 by (rewrite ?D1, ?D2; nra). lia.
      + rewrite (orientation_neg p0 p1 q0), (orientation_neg p0 p1 q1) in K1 by (rewrite ?D1, ?D2; nra). lia.
    - assert (c3 q0 q1 p0 < 0) by lra. destruct KK.
      + rewrite (orientation_neg p0 p1 q0), (orientation_neg p0 p1 q1) in K1 by (rewrite ?D1, ?D2; nra). lia.
      + rewrite (orientation_pos p0 p1 q0), (orientation_pos p0 p1 q1) in K1 by (rewrite ?D1, ?D2; nra). lia. }
  pose proof (orientation_c3 _ _ _ C1) as O1. pose proof (orientation_c3 _ _ _ C2) as O2.
  pose proof (orientation_c3 _ _ _ C3) as O3. pose proof (orientation_c3 _ _ _ C4) as O4.
  (* proper crossing *)
  assert (S1 : c3 p0 p1 q0 * c3 p0 p1 q1 < 0).
  { destruct O1 as [[]|[]], O2 as [[]|[]]; try lia; nra. }
  assert (S2 : c3 q0 q1 p0 * c3 q0 q1 p1 < 0).
  { destruct O3 as [[]|[]], O4 as [[]|[]]; try lia; nra. }
  assert (XN : X <> 0).
  { intros E. rewrite E in Id1. assert (c3 p0 p1 q0 = c3 p0 p1 q1) as G by lra. rewrite G in S1.
    pose proof (Rle_0_sqr (c3 p0 p1 q1)). unfold Rsqr in *. lra. }
  (* parameters: s = c3 q0 q1 p0 / X, t = - c3 p0 p1 q0 / X *)
  assert (T : forall u v w, u * v < 0 -> w = v - u -> 0 <= - u / w <= 1).
  { intros u v w Huv ->. destruct (Rlt_dec u 0).
    - assert (0 < v) by nra. assert (P : 0 < / (v - u)) by (apply Rinv_0_lt_compat; lra). split.
      + apply Rmult_le_pos; lra.
      + apply Rmult_le_reg_r with (v - u); [lra|]. replace (- u / (v - u) * (v - u)) with (- u) by (field; lra). lra.
    - assert (u <> 0) by (intros ->; lra). assert (0 < u) by lra. assert (v < 0) by nra. assert (P : 0 < / (u - v)) by (apply Rinv_0_lt_compat; lra).
      replace (- u / (v - u)) with (u / (u - v)) by (field; lra). split.
      + apply Rmult_le_pos; lra.
      + apply Rmult_le_reg_r with (u - v); [lra|]. replace (u / (u - v) * (u - v)) with u by (field; lra). lra. }
  pose proof (T _ _ X S1 (eq_sym Id1)) as T1.
  pose proof (T _ _ (- X) S2 (eq_sym Id2)) as T2.
  set (s := - c3 q0 q1 p0 / - X) in *. set (t := - c3 p0 p1 q0 / X) in *.
  exists (V (vx p0 + s * (vx p1 - vx p0)) (vy p0 + s * (vy p1 - vy p0))).
  split; [exists s; simpl; auto|]. exists t. split; auto. simpl.
  assert (HX : X <> 0) by exact XN.
  unfold s, t. unfold X in HX. split.
  - unfold c3, X. field. lra.
  - unfold c3, X. field. lra.
Qed.

Lemma intersect_with_complete s1 s2 q : on_segment s1 q -> on_segment s2 q ->
  intersect_with s1 s2 = true.
Proof.
  destruct s1 as [p0 p1], s2 as [q0 q1]. unfold intersect_with, on_segment; simpl.
  intros (s & Hs & Sx & Sy) (t & Ht & Tx & Ty).
  apply orb_true_iff.
  destruct (Z.eq_dec (triangle_orientation p0 p1 q0) 0) as [Z1|Z1].
  { right. rewrite Z1. reflexivity. }
  destruct (Z.eq_dec (triangle_orientation p0 p1 q1) 0) as [Z2|Z2].
  { right. rewrite Z2, Z.mul_0_r. reflexivity. }
  destruct (Z.eq_dec (triangle_orientation q0 q1 p0) 0) as [Z3|Z3].
  { right. rewrite Z3, Z.mul_0_r. reflexivity. }
  destruct (Z.eq_dec (triangle_orientation q0 q1 p1) 0) as [Z4|Z4].
  { right. rewrite Z4, Z.mul_0_r. reflexivity. }
  left.
  assert (B1 : ~ between p0 p1 q0) by (intros B; apply triangle_orientation_zero in B; auto).
  assert (B2 : ~ between p0 p1 q1) by (intros B; apply triangle_orientation_zero in B; auto).
  assert (B3 : ~ between q0 q1 p0) by (intros B; apply triangle_orientation_zero in B; auto).
  assert (B4 : ~ between q0 q1 p1) by (intros B; apply triangle_orientation_zero in B; auto).
  assert (s <> 0) by (intros ->; apply B3; exists t; repeat split; lra).
  assert (s <> 1) by (intros ->; apply B4; exists t; repeat split; lra).
  assert (t <> 0) by (intros ->; apply B1; exists s; repeat split; lra).
  assert (t <> 1) by (intros ->; apply B2; exists s; repeat split; lra).
  set (X := (vx p1 - vx p0) * (vy q1 - vy q0) - (vy p1 - vy p0) * (vx q1 - vx q0)).
  assert (Qx : vx q0 = vx p0 + s * (vx p1 - vx p0) - t * (vx q1 - vx q0)) by lra.
  assert (Qy : vy q0 = vy p0 + s * (vy p1 - vy p0) - t * (vy q1 - vy q0)) by lra.
  assert (C1 : c3 p0 p1 q0 = - t * X).
  { unfold c3, X. transitivity ((vx p1 - vx p0) * (s * (vy p1 - vy p0) - t * (vy q1 - vy q0)) - (s * (vx p1 - vx p0) - t * (vx q1 - vx q0)) * (vy p1 - vy p0)); [|ring].
    f_equal; f_equal; lra. }
  assert (C2 : c3 p0 p1 q1 = (1 - t) * X).
  { transitivity (c3 p0 p1 q0 + X); [unfold c3, X; ring|rewrite C1; ring]. }
  assert (C3 : c3 q0 q1 p0 = s * X).
  { unfold c3, X. transitivity ((vx q1 - vx q0) * (t * (vy q1 - vy q0) - s * (vy p1 - vy p0)) - (t * (vx q1 - vx q0) - s * (vx p1 - vx p0)) * (vy q1 - vy q0)); [|ring].
    f_equal; f_equal; lra. }
  assert (C4 : c3 q0 q1 p1 = (s - 1) * X).
  { transitivity (c3 q0 q1 p0 - X); [unfold c3, X; ring|rewrite C3; ring]. }
  destruct (Req_dec X 0) as [XZ|XN].
  - (* collinear: an end point of one lies in the other *)
    exfalso. rewrite XZ in *.
    destruct (not_same p1 p0) as [[E1 E2]|N1].
    { apply B3. exists t. rewrite E1, E2 in *. repeat split; lra. }
    destruct (c3_param p0 p1 q0 N1) as (k & Kx & Ky); [lra|].
    destruct (c3_param p0 p1 q1 N1) as (l & Lx & Ly); [lra|].
    assert (Hk : k < 0 \/ 1 < k).
    { destruct (Rlt_dec k 0); auto. destruct (Rle_dec k 1); [|lra]. elim B1. exists k. repeat split; lra. }
    assert (Hl : l < 0 \/ 1 < l).
    { destruct (Rlt_dec l 0); auto. destruct (Rle_dec l 1); [|lra]. elim B2. exists l. repeat split; lra. }
    assert (M : s = k + t * (l - k)).
    { destruct (Req_dec (vx p1 - vx p0) 0) as [Ea|Ea].
      - assert (Eb : vy p1 - vy p0 <> 0) by (intros Eb; apply N1; split; lra).
        apply Rmult_eq_reg_r with (vy p1 - vy p0); auto. rewrite Ky, Ly in Ty. lra.
      - apply Rmult_eq_reg_r with (vx p1 - vx p0); auto. rewrite Kx, Lx in Tx. lra. }
    assert (KL : k < 0 /\ 1 < l \/ l < 0 /\ 1 < k) by (destruct Hk, Hl; auto; nra).
    apply B3. exists ((0 - k) / (l - k)). 
    assert (D : l - k <> 0) by lra. repeat split.
    + destruct KL as [KL|KL].
      * apply Rmult_le_pos; [lra|left; apply Rinv_0_lt_compat; lra].
      * replace ((0 - k) / (l - k)) with (k / (k - l)) by (field; lra).
        apply Rmult_le_pos; [lra|left; apply Rinv_0_lt_compat; lra].
    + destruct KL as [KL|KL].
      * apply Rmult_le_reg_r with (l - k); [lra|]. replace ((0 - k) / (l - k) * (l - k)) with (- k) by (field; lra). lra.
      * apply Rmult_le_reg_r with (k - l); [lra|]. replace ((0 - k) / (l - k) * (k - l)) with k by (field; lra). lra.
    + rewrite Kx, Lx. field. lra.
    + rewrite Ky, Ly. field. lra.
  - assert (ST : 0 < s < 1) by lra. assert (TT : 0 < t < 1) by lra.
    destruct (Rlt_dec 0 X) as [XP|XP].
    + rewrite (orientation_neg p0 p1 q0), (orientation_pos p0 p1 q1), (orientation_pos q0 q1 p0),
        (orientation_neg q0 q1 p1) by (rewrite ?C1, ?C2, ?C3, ?C4; nra). reflexivity.
    + assert (XM : X < 0) by lra.
      rewrite (orientation_pos p0 p1 q0), (orientation_neg p0 p1 q1), (orientation_neg q0 q1 p0),
        (orientation_pos q0 q1 p1) by (rewrite ?C1, ?C2, ?C3, ?C4; nra). reflexivity.
Qed.

Lemma intersect_with_exact s1 s2 : intersect_with s1 s2 = true <->
  exists q, on_segment s1 q /\ on_segment s2 q.
Proof.
  split; [apply intersect_with_sound|]. intros (q & H1 & H2). eapply intersect_with_complete; eauto.
Qed.
