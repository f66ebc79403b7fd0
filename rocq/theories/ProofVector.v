(** Lemmas on vectors. *)
From Coq Require Import Bool Reals Lra Psatz.
From Verif Require Import Base ModelVector SpecVector.
Local Open Scope R_scope.

Lemma Rltb_spec a b : reflect (a < b) (Rltb a b).
Proof. unfold Rltb. destruct (Rlt_dec a b); constructor; lra. Qed.
Lemma Rleb_spec a b : reflect (a <= b) (Rleb a b).
Proof. unfold Rleb. destruct (Rle_dec a b); constructor; lra. Qed.
Lemma Reqb_spec a b : reflect (a = b) (Reqb a b).
Proof. unfold Reqb. destruct (Req_EM_T a b); constructor; lra. Qed.

Ltac rcase := match goal with
  | |- context [Rltb ?a ?b] => destruct (Rltb_spec a b)
  | |- context [Rleb ?a ?b] => destruct (Rleb_spec a b)
  | |- context [Reqb ?a ?b] => destruct (Reqb_spec a b)
  end.
Ltac rcase_in H := match type of H with
  | context [Rltb ?a ?b] => destruct (Rltb_spec a b)
  | context [Rleb ?a ?b] => destruct (Rleb_spec a b)
  | context [Reqb ?a ?b] => destruct (Reqb_spec a b)
  end.

Lemma Reqb_false a b : a <> b -> Reqb a b = false.
Proof. intros. destruct (Reqb_spec a b); auto; contradiction. Qed.
Lemma Reqb_refl a : Reqb a a = true.
Proof. destruct (Reqb_spec a a); auto; contradiction. Qed.
Lemma Rltb_true a b : a < b -> Rltb a b = true.
Proof. intros. destruct (Rltb_spec a b); auto; lra. Qed.
Lemma Rltb_false a b : b <= a -> Rltb a b = false.
Proof. intros. destruct (Rltb_spec a b); auto; lra. Qed.
Lemma Rleb_true a b : a <= b -> Rleb a b = true.
Proof. intros. destruct (Rleb_spec a b); auto; lra. Qed.
Lemma Rleb_false a b : b < a -> Rleb a b = false.
Proof. intros. destruct (Rleb_spec a b); auto; lra. Qed.

Lemma fdiv_ok a b : b <> 0 -> fdiv a b = Ok (a / b).
Proof. intros. unfold fdiv. now rewrite Reqb_false. Qed.

Lemma vec_eq a b : vx a = vx b -> vy a = vy b -> a = b.
Proof. destruct a, b; simpl; intros; now subst. Qed.

Lemma veqb_spec a b : reflect (a = b) (veqb a b).
Proof.
  unfold veqb. destruct (Reqb_spec (vx a) (vx b)), (Reqb_spec (vy a) (vy b)); simpl; constructor;
  try (apply vec_eq; auto); intros ->; contradiction.
Qed.

Lemma magnitude_len a : magnitude a = len a.
Proof. reflexivity. Qed.

Lemma len_dist0 a b : len (vsub a b) = dist a b.
Proof. reflexivity. Qed.

Lemma len_nonneg a : 0 <= len a.
Proof. apply sqrt_pos. Qed.

Lemma sumsq_nonneg x y : 0 <= x * x + y * y.
Proof. nra. Qed.

Lemma len_sq a : len a * len a = vx a * vx a + vy a * vy a.
Proof. unfold len. apply sqrt_sqrt. nra. Qed.

Lemma dist_sq a b : dist a b * dist a b =
  (vx a - vx b) * (vx a - vx b) + (vy a - vy b) * (vy a - vy b).
Proof. unfold dist. apply sqrt_sqrt. apply sumsq_nonneg. Qed.

Lemma dist_nonneg a b : 0 <= dist a b.
Proof. apply sqrt_pos. Qed.

Lemma dist_sym a b : dist a b = dist b a.
Proof. unfold dist. f_equal. ring. Qed.

Lemma len_zero a : len a = 0 <-> null a.
Proof.
  unfold null. split.
  - intros H. pose proof (len_sq a). rewrite H in H0. split; apply Rsqr_0_uniq; unfold Rsqr; nra.
  - intros [H1 H2]. unfold len. rewrite H1, H2. replace (0*0+0*0) with 0 by ring. apply sqrt_0.
Qed.

Lemma len_pos a : ~ null a -> 0 < len a.
Proof.
  intros. destruct (Req_dec (len a) 0) as [E|E].
  - apply len_zero in E. contradiction.
  - pose proof (len_nonneg a). lra.
Qed.

Lemma sq_eq_nonneg a b : 0 <= a -> 0 <= b -> a * a = b * b -> a = b.
Proof. intros. nra. Qed.
Lemma sq_le_nonneg a b : 0 <= b -> a * a <= b * b -> a <= b.
Proof. intros. nra. Qed.

Lemma radians_rad d : radians d = rad d.
Proof. unfold radians, rad. field. Qed.
Lemma rad_degrees x : rad (degrees x) = x.
Proof. unfold rad, degrees. field. apply PI_neq0. Qed.

(** Rotation *)
Lemma rotate_ccw a t : turned (rad t) a (rotate a t true).
Proof. unfold turned, rotate. simpl. rewrite radians_rad. split; reflexivity. Qed.
Lemma rotate_cw a t : turned (- rad t) a (rotate a t false).
Proof. unfold turned, rotate. simpl. rewrite radians_rad. split; reflexivity. Qed.

Lemma turned_dot t a b a' b' : turned t a a' -> turned t b b' -> dot a' b' = dot a b.
Proof.
  intros [H1 H2] [H3 H4]. unfold dot. rewrite H1, H2, H3, H4.
  pose proof (sin2_cos2 t). unfold Rsqr in *.
  transitivity ((sin t * sin t + cos t * cos t) * (vx a * vx b + vy a * vy b)). ring.
  rewrite H. ring.
Qed.
Lemma turned_cross t a b a' b' : turned t a a' -> turned t b b' -> cross a' b' = cross a b.
Proof.
  intros [H1 H2] [H3 H4]. unfold cross. rewrite H1, H2, H3, H4.
  pose proof (sin2_cos2 t). unfold Rsqr in *. 
  transitivity ((sin t * sin t + cos t * cos t) * (vx a * vy b - vy a * vx b)). ring.
  rewrite H. ring.
Qed.

Lemma rotate_dot a b t ccw : dot (rotate a t ccw) (rotate b t ccw) = dot a b.
Proof.
  destruct ccw.
  - exact (turned_dot _ _ _ _ _ (rotate_ccw a t) (rotate_ccw b t)).
  - exact (turned_dot _ _ _ _ _ (rotate_cw a t) (rotate_cw b t)).
Qed.
Lemma rotate_cross a b t ccw : cross (rotate a t ccw) (rotate b t ccw) = cross a b.
Proof.
  destruct ccw.
  - exact (turned_cross _ _ _ _ _ (rotate_ccw a t) (rotate_ccw b t)).
  - exact (turned_cross _ _ _ _ _ (rotate_cw a t) (rotate_cw b t)).
Qed.
Lemma rotate_magnitude a t ccw : magnitude (rotate a t ccw) = len a.
Proof. unfold magnitude, magnitude_square. rewrite rotate_dot. reflexivity. Qed.
Lemma rotate_add a s t : rotate (rotate a s true) t true = rotate a (s + t) true.
Proof.
  unfold rotate; simpl. replace (radians (s + t)) with (radians s + radians t)
    by (unfold radians; field).
  rewrite cos_plus, sin_plus. apply vec_eq; simpl; ring.
Qed.
Lemma rotate_cw_ccw a t : rotate (rotate a t true) t false = a.
Proof.
  unfold rotate; simpl. rewrite cos_neg, sin_neg.
  pose proof (sin2_cos2 (radians t)) as H. unfold Rsqr in H. apply vec_eq; simpl.
  - transitivity ((sin (radians t) * sin (radians t) + cos (radians t) * cos (radians t)) * vx a).
    ring. rewrite H. ring.
  - transitivity ((sin (radians t) * sin (radians t) + cos (radians t) * cos (radians t)) * vy a).
    ring. rewrite H. ring.
Qed.
Lemma rotate_normal a : rotate a 90 true = normal a.
Proof.
  unfold rotate; simpl. replace (radians 90) with (PI/2) by (unfold radians; field).
  rewrite cos_PI2, sin_PI2. apply vec_eq; simpl; ring.
Qed.
Lemma rotate_anti_normal a : rotate a 90 false = anti_normal a.
Proof.
  unfold rotate; simpl. replace (radians 90) with (PI/2) by (unfold radians; field).
  rewrite cos_neg, sin_neg, cos_PI2, sin_PI2. apply vec_eq; simpl; ring.
Qed.
Lemma rotate_parity a : rotate a 180 true = parity a.
Proof.
  unfold rotate; simpl. replace (radians 180) with PI by (unfold radians; field).
  rewrite cos_PI, sin_PI. apply vec_eq; simpl; ring.
Qed.

(** Projection *)
Lemma projection_ok u v : ~ null v -> exists p, projection_on u v = Ok p /\
  p * len v = vx u * vx v + vy u * vy v.
Proof.
  intros H. pose proof (len_pos v H). unfold projection_on. rewrite fdiv_ok by (rewrite magnitude_len; lra).
  eexists; split; [reflexivity|]. rewrite magnitude_len. unfold dot. field. lra.
Qed.
Lemma deviation_ok u v : ~ null v -> exists p, deviation_with u v = Ok p /\
  p * len v = vx v * vy u - vy v * vx u.
Proof.
  intros H. pose proof (len_pos v H). unfold deviation_with. rewrite fdiv_ok by (rewrite magnitude_len; lra).
  eexists; split; [reflexivity|]. rewrite magnitude_len. unfold cross. field. lra.
Qed.

Lemma projection_deviation u v : ~ null v -> exists p d,
  projection_on u v = Ok p /\ deviation_with u v = Ok d /\
  vx u = (p * vx v - d * vy v) / len v /\ vy u = (p * vy v + d * vx v) / len v /\
  p * p + d * d = len u * len u.
Proof.
  intros H. pose proof (len_pos v H) as L.
  destruct (projection_ok u v H) as (p & Ep & Hp).
  destruct (deviation_ok u v H) as (d & Ed & Hd).
  exists p, d. split; [exact Ep|]. split; [exact Ed|].
  pose proof (len_sq v) as S.
  assert (Hp' : p = (vx u * vx v + vy u * vy v) / len v) by (rewrite <- Hp; field; lra).
  assert (Hd' : d = (vx v * vy u - vy v * vx u) / len v) by (rewrite <- Hd; field; lra).
  split; [|split].
  - rewrite Hp', Hd'.
    replace (((vx u * vx v + vy u * vy v) / len v * vx v -
      (vx v * vy u - vy v * vx u) / len v * vy v) / len v)
      with (vx u * (vx v * vx v + vy v * vy v) / (len v * len v)) by (field; lra).
    rewrite <- S. field. lra.
  - rewrite Hp', Hd'.
    replace (((vx u * vx v + vy u * vy v) / len v * vy v +
      (vx v * vy u - vy v * vx u) / len v * vx v) / len v)
      with (vy u * (vx v * vx v + vy v * vy v) / (len v * len v)) by (field; lra).
    rewrite <- S. field. lra.
  - rewrite (len_sq u).
    assert ((p * p + d * d) * (len v * len v) = (vx u * vx u + vy u * vy u) * (len v * len v)).
    { transitivity ((p * len v) * (p * len v) + (d * len v) * (d * len v)); [ring|].
      rewrite Hp, Hd, S. ring. }
    apply Rmult_eq_reg_r with (len v * len v); [assumption|nra].
Qed.

Lemma projection_null u v : null v -> projection_on u v = Raise ZeroDivisionError /\
  deviation_with u v = Raise ZeroDivisionError.
Proof.
  intros H. apply len_zero in H. unfold projection_on, deviation_with, fdiv.
  rewrite magnitude_len, H, Reqb_refl. auto.
Qed.

(** cross and collinearity *)
Lemma cross_collinear a b : cross a b = 0 <-> collinear a b.
Proof.
  unfold cross, collinear. split.
  - intros H. destruct (Req_dec (vx a) 0) as [Ea|Ea].
    + destruct (Req_dec (vy a) 0) as [Eb|Eb].
      * exists 1, 0. rewrite Ea, Eb. repeat split; try ring. left; lra.
      * exists (vy b), (vy a). repeat split; [right; auto| |ring]. nra.
    + exists (vx b), (vx a). repeat split; [right; auto|ring|]. nra.
  - intros (k & l & Hkl & H1 & H2).
    destruct Hkl as [Hk|Hl].
    + apply Rmult_eq_reg_l with k; auto.
      transitivity ((k * vx a) * vy b - (k * vy a) * vx b); [ring|]. rewrite H1, H2. ring.
    + apply Rmult_eq_reg_l with l; auto.
      transitivity (vx a * (l * vy b) - vy a * (l * vx b)); [ring|]. rewrite <- H1, <- H2. ring.
Qed.

Lemma is_parallel_true a b : is_parallel a b = true <-> Rabs (vx a * vy b - vy a * vx b) <= 5 / 10 ^ 8.
Proof. unfold is_parallel, round7_is_zero, cross. rcase; split; auto; try discriminate; lra. Qed.

Lemma collinear_is_parallel a b : collinear a b -> is_parallel a b = true.
Proof.
  intros H. apply cross_collinear in H. apply is_parallel_true. unfold cross in H. rewrite H, Rabs_R0. lra.
Qed.

(** cos_with, sin_with *)
Lemma cauchy a b : (vx a * vx b + vy a * vy b) * (vx a * vx b + vy a * vy b) +
  (vx a * vy b - vy a * vx b) * (vx a * vy b - vy a * vx b)
  = (len a * len b) * (len a * len b).
Proof.
  replace ((len a * len b) * (len a * len b)) with ((len a * len a) * (len b * len b)) by ring.
  rewrite !len_sq. ring.
Qed.

Lemma clamp_id x : -1 <= x <= 1 -> trignometric_clamp x = x.
Proof. intros. unfold trignometric_clamp. rewrite !Rltb_false; lra. Qed.

Lemma cos_sin_with u v : ~ null u -> ~ null v -> exists c s,
  cos_with u v = Ok c /\ sin_with u v = Ok s /\
  c * c + s * s = 1 /\
  c * (len v * len u) = vx v * vx u + vy v * vy u /\
  s * (len v * len u) = vx v * vy u - vy v * vx u.
Proof.
  intros Hu Hv. pose proof (len_pos u Hu) as Lu. pose proof (len_pos v Hv) as Lv.
  assert (L : len v * len u <> 0) by nra.
  assert (Lp : 0 < len v * len u) by nra.
  set (c := dot v u / (len v * len u)). set (s := cross v u / (len v * len u)).
  assert (Hc : c * (len v * len u) = vx v * vx u + vy v * vy u) by (unfold c, dot; field; lra).
  assert (Hs : s * (len v * len u) = vx v * vy u - vy v * vx u) by (unfold s, cross; field; lra).
  assert (S : c * c + s * s = 1).
  { apply Rmult_eq_reg_r with ((len v * len u) * (len v * len u)); [|nra].
    transitivity ((c * (len v * len u)) * (c * (len v * len u)) + (s * (len v * len u)) * (s * (len v * len u))); [ring|].
    rewrite Hc, Hs, cauchy. ring. }
  exists c, s.
  unfold cos_with, sin_with. change magnitude with len. rewrite !fdiv_ok by auto. cbv beta iota delta [bind].
  fold c. fold s.
  assert (Bc : -1 <= c <= 1) by (clear - S; clearbody c s; split; nra).
  assert (Bs : -1 <= s <= 1) by (clear - S; clearbody c s; split; nra).
  rewrite (clamp_id c Bc), (clamp_id s Bs). auto.
Qed.

Lemma sin_acos_sign c s : c * c + s * s = 1 ->
  sin (sign s * acos c) = s /\ cos (sign s * acos c) = c.
Proof.
  intros H. assert (Hc : -1 <= c <= 1) by (split; nra).
  assert (Hsin : sin (acos c) = sqrt (1 - c²)) by (apply sin_acos; auto).
  assert (E : 1 - c² = s * s) by (unfold Rsqr; lra). rewrite E in Hsin.
  unfold sign. rcase.
  - replace (-1 * acos c) with (- acos c) by ring. rewrite sin_neg, cos_neg, cos_acos by auto.
    split; auto. rewrite Hsin. replace (s * s) with ((-s) * (-s)) by ring. rewrite sqrt_square by lra. ring.
  - rewrite Rmult_1_l, cos_acos by auto. split; auto. rewrite Hsin, sqrt_square; lra.
Qed.

Lemma angle_with_ok u v : ~ null u -> ~ null v -> exists t,
  angle_with u v = Ok t /\ -180 <= t <= 180 /\
  vx u * len v = len u * (cos (rad t) * vx v - sin (rad t) * vy v) /\
  vy u * len v = len u * (sin (rad t) * vx v + cos (rad t) * vy v).
Proof.
  intros Hu Hv. destruct (cos_sin_with u v Hu Hv) as (c & s & Ec & Es & S & Hc & Hs).
  pose proof (len_pos u Hu) as Lu. pose proof (len_pos v Hv) as Lv.
  exists (sign s * degrees (acos c)). unfold angle_with. rewrite Ec, Es. cbv beta iota delta [bind].
  split; [reflexivity|].
  assert (B : 0 <= acos c <= PI) by apply acos_bound.
  pose proof PI_RGT_0 as P.
  assert (D : 0 <= degrees (acos c) <= 180).
  { unfold degrees. split.
    - apply Rmult_le_pos; [nra|]. left. apply Rinv_0_lt_compat; lra.
    - apply Rmult_le_reg_r with PI; [lra|]. replace (acos c * 180 / PI * PI) with (acos c * 180) by (field; lra). nra. }
  split.
  { unfold sign. rcase; nra. }
  replace (rad (sign s * degrees (acos c))) with (sign s * acos c)
    by (unfold rad, degrees; field; lra).
  destruct (sin_acos_sign c s S) as [-> ->].
  pose proof (len_sq v) as Sv.
  split; apply Rmult_eq_reg_r with (len v); try lra.
  - transitivity ((c * (len v * len u)) * vx v - (s * (len v * len u)) * vy v); [|ring].
    rewrite Hc, Hs, Rmult_assoc, Sv. ring.
  - transitivity ((s * (len v * len u)) * vx v + (c * (len v * len u)) * vy v); [|ring].
    rewrite Hc, Hs, Rmult_assoc, Sv. ring.
Qed.

(** orientation: polar form *)
Lemma cos_atan_pos x y : 0 < x -> sqrt (x*x+y*y) * cos (atan (y / x)) = x /\
  sqrt (x*x+y*y) * sin (atan (y / x)) = y.
Proof.
  intros Hx.
  assert (C : 0 < cos (atan (y/x))) by (apply cos_gt_0; destruct (atan_bound (y/x)); lra).
  assert (T : tan (atan (y/x)) = y/x) by apply tan_atan.
  set (t := atan (y/x)) in *.
  assert (Sn : sin t * x = y * cos t).
  { unfold tan in T. apply Rmult_eq_reg_r with (/ (cos t * x)).
    - transitivity (sin t / cos t); [field; lra|]. rewrite T. field. lra.
    - apply Rinv_neq_0_compat. nra. }
  pose proof (sin2_cos2 t) as P. unfold Rsqr in P.
  assert (Hs : (x*x+y*y) * (cos t * cos t) = x * x).
  { replace ((x*x+y*y) * (cos t * cos t)) with (x*x*(cos t*cos t) + (y*cos t)*(y*cos t)) by ring.
    rewrite <- Sn. transitivity (x*x*(sin t*sin t+cos t*cos t)); [ring|]. rewrite P. ring. }
  assert (H1 : sqrt (x*x+y*y) * cos t = x).
  { apply sq_eq_nonneg; [apply Rmult_le_pos; [apply sqrt_pos|lra]|lra|].
    transitivity ((sqrt (x*x+y*y) * sqrt (x*x+y*y)) * (cos t * cos t)); [ring|].
    rewrite sqrt_sqrt by apply sumsq_nonneg. exact Hs. }
  split; auto.
  apply Rmult_eq_reg_r with x; [|lra]. rewrite Rmult_assoc, Sn.
  transitivity (y * (sqrt (x*x+y*y) * cos t)); [ring|]. rewrite H1. ring.
Qed.

Lemma atan_deg_bound t : -90 < degrees (atan t) < 90.
Proof.
  destruct (atan_bound t) as [B1 B2]. pose proof PI_RGT_0.
  unfold degrees. split.
  - apply Rmult_lt_reg_r with PI; [lra|]. replace (atan t * 180 / PI * PI) with (atan t * 180) by (field; lra). lra.
  - apply Rmult_lt_reg_r with PI; [lra|]. replace (atan t * 180 / PI * PI) with (atan t * 180) by (field; lra). lra.
Qed.

Lemma atan_deg_pos t : 0 < t -> 0 < degrees (atan t).
Proof.
  intros. pose proof PI_RGT_0. assert (0 < atan t) by (rewrite <- atan_0; apply atan_increasing; auto).
  unfold degrees. apply Rmult_lt_0_compat; [lra|]. apply Rinv_0_lt_compat; lra.
Qed.
Lemma atan_deg_neg t : t < 0 -> degrees (atan t) < 0.
Proof.
  intros. pose proof PI_RGT_0. assert (atan t < 0) by (rewrite <- atan_0; apply atan_increasing; auto).
  unfold degrees. assert (0 < / PI) by (apply Rinv_0_lt_compat; lra). unfold Rdiv. nra.
Qed.

Lemma orientation_ok u : ~ null u -> exists t, orientation u = Ok t /\ -180 < t <= 180 /\
  vx u = len u * cos (rad t) /\ vy u = len u * sin (rad t).
Proof.
  intros Hu. unfold orientation. simpl. destruct u as [x y]; simpl in *. unfold len; simpl.
  destruct (Reqb_spec x 0) as [->|Hx].
  { rcase; eexists; (split; [reflexivity|]); (split; [lra|]).
    - replace (rad (-90)) with (-(PI/2)) by (unfold rad; field). rewrite cos_neg, sin_neg, cos_PI2, sin_PI2.
      split; [ring|]. replace (0*0+y*y) with ((-y)*(-y)) by ring. rewrite sqrt_square by lra. ring.
    - replace (rad 90) with (PI/2) by (unfold rad; field). rewrite cos_PI2, sin_PI2.
      split; [ring|]. replace (0*0+y*y) with (y*y) by ring. rewrite sqrt_square by lra. ring. }
  destruct (Reqb_spec y 0) as [->|Hy].
  { rcase; eexists; (split; [reflexivity|]); (split; [lra|]).
    - replace (rad 0) with 0 by (unfold rad; field). rewrite cos_0, sin_0.
      split; [|ring]. replace (x*x+0*0) with (x*x) by ring. rewrite sqrt_square by lra. ring.
    - replace (rad 180) with PI by (unfold rad; field). rewrite cos_PI, sin_PI.
      split; [|ring]. replace (x*x+0*0) with ((-x)*(-x)) by ring. rewrite sqrt_square by lra. ring. }
  unfold vtan. rewrite fdiv_ok by auto. cbn [bind vx vy].
  pose proof PI_RGT_0 as P.
  destruct (atan_deg_bound (y/x)) as [B1 B2].
  destruct (Rltb_spec x 0) as [Hx0|Hx0].
  - destruct (cos_atan_pos (-x) (-y)) as [Hc Hs]; [lra|].
    replace (-y / -x) with (y/x) in * by (field; auto).
    replace (-x*-x+-y*-y) with (x*x+y*y) in * by ring.
    destruct (Rltb_spec 0 y) as [Hy0|Hy0]; eexists; (split; [reflexivity|]).
    + assert (y/x < 0). { unfold Rdiv. assert (/ x < 0) by (apply Rinv_lt_0_compat; auto). nra. }
      pose proof (atan_deg_neg _ H). split; [lra|].
      replace (rad (degrees (atan (y/x)) + 180)) with (atan (y/x) + PI) by (unfold rad, degrees; field; lra).
      rewrite neg_cos, neg_sin. split; lra.
    + assert (0 < y/x). { unfold Rdiv. assert (/ x < 0) by (apply Rinv_lt_0_compat; auto). nra. }
      pose proof (atan_deg_pos _ H). split; [lra|].
      replace (rad (degrees (atan (y/x)) - 180)) with (atan (y/x) + PI - 2 * INR 1 * PI) by (unfold rad, degrees; simpl; field; lra).
      assert (Ec : cos (atan (y/x) + PI - 2 * INR 1 * PI) = cos (atan (y/x) + PI)).
      { rewrite <- (cos_period (atan (y/x) + PI - 2 * INR 1 * PI) 1). f_equal. ring. }
      assert (Es : sin (atan (y/x) + PI - 2 * INR 1 * PI) = sin (atan (y/x) + PI)).
      { rewrite <- (sin_period (atan (y/x) + PI - 2 * INR 1 * PI) 1). f_equal. ring. }
      rewrite Ec, Es, neg_cos, neg_sin. split; lra.
  - destruct (cos_atan_pos x y) as [Hc Hs]; [lra|].
    eexists; (split; [reflexivity|]). split; [lra|]. rewrite rad_degrees. split; lra.
Qed.

(** the null vector is not rejected (Vector.py 295: bool(self) is always true) *)
Lemma orientation_null u : null u -> orientation u = Ok 90.
Proof.
  intros [H1 H2]. unfold orientation. simpl. rewrite H1, H2, Reqb_refl, Rltb_false by lra. reflexivity.
Qed.

Lemma normalise_ok u : ~ null u -> exists w, normalise u = Ok w /\ len w = 1 /\
  vx u = len u * vx w /\ vy u = len u * vy w.
Proof.
  intros H. pose proof (len_pos u H) as L. unfold normalise, vdiv. rewrite magnitude_len, Reqb_false by lra.
  eexists; split; [reflexivity|]. simpl. split; [|split; field; lra].
  apply sq_eq_nonneg; [apply len_nonneg|lra|]. rewrite len_sq. simpl.
  transitivity ((vx u * vx u + vy u * vy u) / (len u * len u)); [field; lra|].
  rewrite <- len_sq. field. lra.
Qed.

Lemma from_polar_ok r t : vx (from_polar r t) = r * cos (rad t) /\ vy (from_polar r t) = r * sin (rad t).
Proof. unfold from_polar, from_angle, vscale; simpl. rewrite radians_rad. auto. Qed.

Lemma is_parallel_refuted : ~ (forall a b, is_parallel a b = true <-> collinear a b).
Proof.
  intros H. specialize (H (V (1/10^4) 0) (V 0 (1/10^4))). destruct H as [H _].
  assert (E : is_parallel (V (1/10^4) 0) (V 0 (1/10^4)) = true).
  { apply is_parallel_true. simpl. rewrite Rabs_right; lra. }
  apply H in E. apply cross_collinear in E. unfold cross in E. simpl in E. lra.
Qed.

Lemma is_parallel_example : is_parallel (V 1 2) (V 2 3) = false.
Proof.
  unfold is_parallel, round7_is_zero, cross; simpl. apply Rleb_false.
  rewrite Rabs_left; lra.
Qed.
