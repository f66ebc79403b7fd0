(** Proofs about circles, arcs and ellipses. *)
From Coq Require Import Reals List Lra Lia Psatz ZArith Bool.
From Verif Require Import Base ModelVector ModelTransformation ModelLine ModelBezier ModelConic.
From Verif Require Import SpecVector SpecLine SpecConic ProofVector ProofSegment.
Import ListNotations.
Local Open Scope R_scope.
Local Open Scope result_scope.

(** ** Angular domains *)
Lemma inside_ok d a w : w <= d_start d < w + 360 -> w <= d_stop d < w + 360 -> w <= a < w + 360 ->
  (d_is_inside d a = true <-> swept (d_start d) (d_stop d) a).
Proof.
  intros Hs He Ha. destruct d as [s e]. cbn [d_start d_stop] in *. unfold d_is_inside, d_is_counterclockwise, swept.
  cbn [d_start d_stop]. destruct (Rleb_spec s e) as [L|L].
  - rewrite andb_true_iff. destruct (Rleb_spec s a) as [A|A], (Rleb_spec a e) as [B|B]; split.
    all: try (intros [X Y]; discriminate).
    all: try (intros _; left; split; [exact L|]; exists 0%Z; lra).
    all: try (intros _; split; reflexivity).
    all: intros [[_ (k & K)]|[? _]]; [exfalso|lra].
    all: assert (k = 0)%Z by (assert (IZR k < 1) by lra; assert (-1 < IZR k) by lra;
           apply lt_IZR in H; apply lt_IZR in H0; lia); subst k; lra.
  - rewrite negb_true_iff, andb_false_iff. destruct (Rltb_spec e a) as [A|A], (Rltb_spec a s) as [B|B]; split.
    all: try (intros [X|X]; discriminate).
    all: try (intros _; right; split; [lra|]; first [exists 0%Z; lra | exists 1%Z; lra]).
    all: try (intros _; solve [auto]).
    intros [[? _]|[_ (k & K)]]; [lra|exfalso].
    assert (H1 : IZR k < 2) by lra. assert (H2 : -1 < IZR k) by lra. apply lt_IZR in H1. apply lt_IZR in H2.
    assert (k = 0 \/ k = 1)%Z as [-> | ->] by lia; lra.
Qed.
Lemma inside_refuted : d_is_inside (Dom 350 370) 5 = false /\ swept 350 370 5.
Proof.
  split.
  - unfold d_is_inside, d_is_counterclockwise. cbn [d_start d_stop]. rewrite Rleb_true by lra.
    rewrite Rleb_false by lra. reflexivity.
  - left. split; [lra|]. exists 1%Z. lra.
Qed.
Lemma length_ok d : d_start d <= d_stop d ->
  d_length d = rad (Rmin 360 (d_stop d - d_start d)).
Proof.
  intro L. unfold d_length, d_is_closed, d_span, d_is_counterclockwise. rewrite Rabs_pos_eq by lra.
  rewrite (Rleb_true (d_start d)) by lra. unfold Rmin. destruct (Rleb_spec 360 (d_stop d - d_start d)), (Rle_dec 360 (d_stop d - d_start d)); try lra.
  - unfold rad. field.
  - rewrite !radians_rad. unfold rad. field.
Qed.
(** From 350 down to 10 or up to 370: the length is neither 340 nor 20 degrees. *)
Lemma length_refuted : d_length (Dom 350 10) = rad 700.
Proof.
  unfold d_length, d_is_closed, d_span, d_is_counterclockwise. cbn [d_start d_stop].
  rewrite Rabs_left by lra. rewrite Rleb_false by lra. rewrite Rleb_false by lra. rewrite !radians_rad.
  unfold rad. field.
Qed.

(** ** Circles *)
Lemma circle_point_ok c a : polar (c_center c) (c_radius c) a (circle_point_at_angle c a).
Proof.
  destruct (from_polar_ok (c_radius c) a) as [X Y]. unfold circle_point_at_angle, polar, vadd. cbn [vx vy].
  rewrite X, Y. split; ring.
Qed.
Lemma polar_unique c r a q q' : polar c r a q -> polar c r a q' -> q = q'.
Proof. intros [A B] [C D]. apply vec_eq; congruence. Qed.
Lemma rad_plus a b : rad (a + b) = rad a + rad b. Proof. unfold rad. field. Qed.
Lemma rad_360 : rad 360 = 2 * PI. Proof. unfold rad. field. Qed.
Lemma angle_for_point_ok c q : ~ (q = c_center c) -> exists a,
  angle_for_point c q = Ok a /\ 0 <= a < 360 /\ polar (c_center c) (dist (c_center c) q) a q.
Proof.
  intro N. unfold angle_for_point.
  destruct (orientation_ok (vsub q (c_center c))) as (t & E & B & X & Y).
  { intros [X Y]. cbn in X, Y. apply N, vec_eq; lra. }
  rewrite E. cbn [bind]. rewrite len_dist0, dist_sym in X, Y. cbn [vsub vx vy] in X, Y. unfold polar.
  destruct (Rltb_spec t 0).
  - exists (360 + t). split; [reflexivity|]. split; [lra|]. rewrite rad_plus, rad_360, Rplus_comm.
    rewrite cos_plus, sin_plus, cos_2PI, sin_2PI. split; lra.
  - exists t. split; [reflexivity|]. split; [lra|]. split; lra.
Qed.

Lemma polar_dist c r a q p : polar c r a q ->
  dist p q * dist p q = dist c p * dist c p + r * r
    - 2 * r * ((vx p - vx c) * cos (rad a) + (vy p - vy c) * sin (rad a)).
Proof.
  intros [X Y]. rewrite !dist_sq, X, Y. pose proof (sin2_cos2 (rad a)) as T. unfold Rsqr in T.
  replace (r * r) with (r * r * (sin (rad a) * sin (rad a) + cos (rad a) * cos (rad a))) by (rewrite T; ring). ring.
Qed.
Lemma polar_on_circle c r a q : 0 <= r -> polar c r a q -> dist c q = r.
Proof.
  intros R0 P. apply sq_eq_nonneg; [apply dist_nonneg|exact R0|]. rewrite (polar_dist c r a q c P).
  rewrite !dist_sq. ring.
Qed.
Lemma polar_polar_dist c r a q rho b p : polar c r a q -> polar c rho b p ->
  dist p q * dist p q = rho * rho + r * r - 2 * r * rho * cos (rad b - rad a).
Proof.
  intros P Q. rewrite (polar_dist c r a q p P). destruct Q as [X Y].
  assert (E : dist c p * dist c p = rho * rho).
  { rewrite dist_sq, X, Y. pose proof (sin2_cos2 (rad b)) as T. unfold Rsqr in T.
    replace (rho * rho) with (rho * rho * (sin (rad b) * sin (rad b) + cos (rad b) * cos (rad b))) by (rewrite T; ring). ring. }
  rewrite E, X, Y, cos_minus. ring.
Qed.

(** A whole circle. *)
Lemma circle_distance_ok c p : c_domain c = None -> 0 <= c_radius c ->
  exists d, circle_distance_to_point c p = Ok d /\ min_distance (on_circle (c_center c) (c_radius c)) p d.
Proof.
  intros D R0. unfold circle_distance_to_point, signed_distance_to_point. rewrite D, magnitude_len, len_dist0.
  exists (Rabs (dist p (c_center c) - c_radius c)). split; [reflexivity|].
  set (c0 := c_center c). set (r := c_radius c) in *. set (rho := dist p c0).
  assert (Rho : 0 <= rho) by apply dist_nonneg.
  assert (G : forall b q, polar c0 rho b p -> polar c0 r b q -> dist p q = Rabs (rho - r)).
  { intros b q P Q. apply sq_eq_nonneg; [apply dist_nonneg|apply Rabs_pos|].
    rewrite (polar_polar_dist c0 r b q rho b p Q P). replace (rad b - rad b) with 0 by ring. rewrite cos_0.
    rewrite <- Rabs_mult, Rabs_pos_eq by apply Rle_0_sqr. ring. }
  assert (E : exists b, polar c0 rho b p).
  { destruct (Req_dec rho 0) as [Z|Z].
    - exists 0. rewrite Z. unfold rho in Z. pose proof (dist_sq p c0) as T. rewrite Z, Rmult_0_l in T. symmetry in T.
      apply sumsq0 in T. split; lra.
    - destruct (angle_for_point_ok c p) as (b & _ & _ & P).
      { intros ->. apply Z. unfold rho. apply sq_eq_nonneg; [exact Rho|lra|]. rewrite dist_sq. fold c0. ring. }
      exists b. unfold rho. rewrite dist_sym. exact P. }
  destruct E as (b & P). split.
  - exists (circle_point_at_angle c b). split; [apply (polar_on_circle _ _ b), circle_point_ok; exact R0|].
    apply (G b); [exact P|apply circle_point_ok].
  - intros q Hq. unfold on_circle in Hq.
    (* triangle inequality *)
    apply sq_le_nonneg; [apply dist_nonneg|]. rewrite <- Rabs_mult, Rabs_pos_eq by apply Rle_0_sqr.
    set (u := vsub p c0). set (w := vsub q c0).
    pose proof (dist_sq p q) as S1. pose proof (dist_sq p c0) as S2. pose proof (dist_sq c0 q) as S3.
    rewrite Hq in S3. fold rho in S2.
    set (x := vx p - vx c0) in *. set (y := vy p - vy c0) in *.
    set (x' := vx q - vx c0). set (y' := vy q - vy c0).
    assert (S3' : r * r = x' * x' + y' * y') by (unfold x', y'; rewrite S3; ring).
    assert (S1' : dist p q * dist p q = (x - x') * (x - x') + (y - y') * (y - y')) by (unfold x, y, x', y'; rewrite S1; ring).
    rewrite S1'.
    assert (CS : x * x' + y * y' <= rho * r).
    { apply sq_le_nonneg; [apply Rmult_le_pos; assumption|].
      replace (rho * r * (rho * r)) with ((rho * rho) * (r * r)) by ring. rewrite S2, S3'.
      pose proof (Rle_0_sqr (x * y' - y * x')) as Q. unfold Rsqr in Q. lra. }
    lra.
Qed.

(** cos over a turn has no maximum inside an interval. *)
Lemma cos_valley a b x : 0 <= a -> a <= x <= b -> b <= 2 * PI -> cos x <= Rmax (cos a) (cos b).
Proof.
  intros A X B. destruct (Rle_dec x PI) as [L|L].
  - apply Rle_trans with (cos a); [|apply Rmax_l]. destruct (Rle_lt_or_eq_dec a x) as [T|T]; [lra| |subst; lra].
    apply Rlt_le, cos_decreasing_1; lra.
  - apply Rle_trans with (cos b); [|apply Rmax_r]. destruct (Rle_lt_or_eq_dec x b) as [T|T]; [lra| |subst; lra].
    apply Rlt_le, cos_increasing_1; lra.
Qed.

Lemma rad_le a b : a <= b -> rad a <= rad b.
Proof. intro L. unfold rad. pose proof PI_RGT_0. nra. Qed.

Lemma arc_distance_ok c s e p : c_domain c = Some (Dom s e) -> 0 <= c_radius c -> 0 <= s <= e -> e <= 360 ->
  exists d, circle_distance_to_point c p = Ok d /\
    min_distance (on_arc (c_center c) (c_radius c) s e) p d.
Proof.
  intros D R0 S E. unfold circle_distance_to_point. rewrite D. cbn [d_start d_stop].
  set (c0 := c_center c). set (r := c_radius c) in *.
  assert (PS := circle_point_ok c s). assert (PE := circle_point_ok c e). fold c0 r in PS, PE.
  set (qs := circle_point_at_angle c s) in *. set (qe := circle_point_at_angle c e) in *.
  rewrite !magnitude_len, !len_dist0.
  assert (MM : forall d, (forall a q, s <= a <= e -> polar c0 r a q -> d <= dist p q) ->
     (exists a q, s <= a <= e /\ polar c0 r a q /\ dist p q = d) ->
     min_distance (on_arc c0 r s e) p d).
  { intros d H1 (a & q & H2 & H3 & H4). split; [exists q; split; [exists a; auto|exact H4]|].
    intros q' (a' & H5 & H6). apply (H1 a'); assumption. }
  destruct (Req_dec (dist p c0) 0) as [Z|Z].
  - (* the centre *)
    assert (Ep : p = c0).
    { pose proof (dist_sq p c0) as T. rewrite Z, Rmult_0_l in T. symmetry in T. apply sumsq0 in T. apply vec_eq; lra. }
    assert (All : forall a q, polar c0 r a q -> dist p q = r) by (intros a q P; rewrite Ep; apply (polar_on_circle c0 r a q R0 P)).
    unfold angle_for_point. rewrite orientation_null by (rewrite Ep; split; cbn; unfold c0; ring). cbn [bind].
    rewrite Rltb_false by lra. unfold signed_distance_to_point. rewrite magnitude_len, len_dist0. fold c0 r. rewrite Z.
    rewrite (All s qs PS), (All e qe PE).
    destruct (d_is_inside (Dom s e) 90); eexists; (split; [reflexivity|]); apply MM.
    all: try (exists s, qs; split; [lra|]; split; [exact PS|]).
    all: try (intros a q _ P); rewrite ?(All _ _ P), ?(All _ _ PS).
    all: rewrite ?Rmin_left by lra; try (replace (0 - r) with (- r) by ring; rewrite Rabs_Ropp, Rabs_pos_eq by lra); lra.
  - destruct (angle_for_point_ok c p) as (b & Eb & Bb & P).
    { intros X. apply Z. fold c0 in X. rewrite X. apply sq_eq_nonneg; [apply dist_nonneg|lra|]. rewrite dist_sq. ring. }
    fold c0 in P. rewrite (dist_sym c0 p) in P. set (rho := dist p c0) in *.
    assert (Rho : 0 <= rho) by apply dist_nonneg.
    rewrite Eb. cbn [bind]. unfold d_is_inside, d_is_counterclockwise. cbn [d_start d_stop]. rewrite (Rleb_true s e) by lra.
    assert (K : forall a q, polar c0 r a q -> dist p q * dist p q = rho * rho + r * r - 2 * r * rho * cos (rad b - rad a))
      by (intros a q Q; apply (polar_polar_dist c0 r a q rho b p Q P)).
    assert (RR : 0 <= 2 * r * rho) by (apply Rmult_le_pos; lra).
    destruct (andb (Rleb s b) (Rleb b e)) eqn:In0.
    + apply andb_true_iff in In0. destruct In0 as [I1 I2]. destruct (Rleb_spec s b) as [J1|]; [|discriminate].
      destruct (Rleb_spec b e) as [J2|]; [|discriminate].
      unfold signed_distance_to_point. rewrite magnitude_len, len_dist0. fold c0 r rho.
      eexists. split; [reflexivity|]. apply MM.
      * intros a q _ Q. apply sq_le_nonneg; [apply dist_nonneg|]. rewrite <- Rabs_mult, Rabs_pos_eq by apply Rle_0_sqr.
        rewrite (K a q Q). pose proof (COS_bound (rad b - rad a)) as [_ C1].
        assert (2 * r * rho * cos (rad b - rad a) <= 2 * r * rho * 1) by (apply Rmult_le_compat_l; assumption). lra.
      * exists b, (circle_point_at_angle c b). assert (Q := circle_point_ok c b). fold c0 r in Q.
        split; [lra|]. split; [exact Q|]. apply sq_eq_nonneg; [apply dist_nonneg|apply Rabs_pos|].
        rewrite <- Rabs_mult, Rabs_pos_eq by apply Rle_0_sqr. rewrite (K b _ Q). replace (rad b - rad b) with 0 by ring.
        rewrite cos_0. ring.
    + assert (Out : b < s \/ e < b).
      { destruct (Rleb_spec s b) as [J1|]; [|left; lra]. destruct (Rleb_spec b e) as [J2|]; [discriminate|right; lra]. }
      eexists. split; [reflexivity|]. apply MM.
      * intros a q Ha Q.
        assert (C : cos (rad b - rad a) <= Rmax (cos (rad b - rad s)) (cos (rad b - rad e))).
        { pose proof (rad_le s a ltac:(lra)). pose proof (rad_le a e ltac:(lra)). pose proof (rad_le b 360 ltac:(lra)) as B3.
          pose proof (rad_le 0 b ltac:(lra)) as B0. pose proof (rad_le e 360 E) as E3. pose proof (rad_le 0 s ltac:(lra)) as S3.
          rewrite rad_360 in B3, E3. replace (rad 0) with 0 in B0, S3 by (unfold rad; field).
          destruct Out as [O|O].
          - pose proof (rad_le b s ltac:(lra)). rewrite <- (cos_neg (rad b - rad a)), <- (cos_neg (rad b - rad s)), <- (cos_neg (rad b - rad e)).
            apply cos_valley; lra.
          - pose proof (rad_le e b ltac:(lra)). rewrite Rmax_comm. apply cos_valley; lra. }
        assert (G : forall a' q', polar c0 r a' q' -> cos (rad b - rad a) <= cos (rad b - rad a') -> dist p q' <= dist p q).
        { intros a' q' Q' L. apply sq_le_nonneg; [apply dist_nonneg|]. rewrite (K a q Q), (K a' q' Q').
          assert (2 * r * rho * cos (rad b - rad a) <= 2 * r * rho * cos (rad b - rad a')) by (apply Rmult_le_compat_l; assumption). lra. }
        unfold Rmax in C. destruct (Rle_dec (cos (rad b - rad s)) (cos (rad b - rad e))).
        -- apply Rle_trans with (dist p qe); [apply Rmin_r|]. apply (G e); assumption.
        -- apply Rle_trans with (dist p qs); [apply Rmin_l|]. apply (G s); assumption.
      * unfold Rmin. destruct (Rle_dec (dist p qs) (dist p qe)).
        -- exists s, qs. split; [lra|]. auto.
        -- exists e, qe. split; [lra|]. auto.
Qed.
