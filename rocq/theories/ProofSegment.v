(** Lemmas on segments, polylines, triangles, rectangles, bounding boxes. *)
From Coq Require Import Bool Reals List ZArith Lra Lia Psatz.
From Verif Require Import Base ModelVector SpecVector ProofVector ModelRoot ModelLine SpecLine
  ProofLine.
Import ListNotations.
Local Open Scope R_scope.

Lemma sumsq0 x y : x * x + y * y = 0 -> x = 0 /\ y = 0.
Proof. intros H. apply Rplus_sqr_eq_0. exact H. Qed.

(** ** Segment.intersection *)

Lemma segment_intersection_ok s1 s2 :
  5 / 10 ^ 8 < Rabs (crossv (s_vector s1) (s_vector s2)) ->
  exists q b, segment_intersection s1 s2 = Ok (Some (q, b)) /\
    (b = true -> on_segment s1 q /\ on_segment s2 q) /\
    (forall p, on_segment s1 p -> on_segment s2 p -> b = true /\ p = q).
Proof.
  intros H. destruct s1 as [p0 p1], s2 as [q0 q1]. unfold s_vector in H. simpl in H.
  destruct (intersection_abscissae_ok (line_from_two_points p0 p1) (line_from_two_points q0 q1) H)
    as (a & b & E & I).
  unfold segment_intersection, to_line; cbn [s_p0 s_p1]. rewrite E. cbn [bind].
  eexists _, _. split; [reflexivity|].
  apply (f_equal vx) in I as Ix. apply (f_equal vy) in I as Iy.
  unfold line_interpolate, line_from_two_points, vadd, vscale, vsub in Ix, Iy. simpl in Ix, Iy.
  split.
  - rewrite !andb_true_iff. intros [[A0 A1] [B0 B1]].
    destruct (Rleb_spec 0 a), (Rleb_spec a 1), (Rleb_spec 0 b), (Rleb_spec b 1); try discriminate.
    unfold on_segment, s_interpolate, interpolate_two_points, vadd, vscale; simpl. split.
    + exists a. split; [lra|]. simpl. split; ring.
    + exists b. split; [lra|]. simpl. split; lra.
  - intros p (s & Hs & Sx & Sy) (t & Ht & Tx & Ty). cbn [s_p0 s_p1] in *.
    unfold crossv, vsub in H. simpl in H.
    set (X := (vx p1 - vx p0) * (vy q1 - vy q0) - (vy p1 - vy p0) * (vx q1 - vx q0)) in *.
    assert (XN : X <> 0). { intros XZ. rewrite XZ, Rabs_R0 in H. lra. }
    assert (Ex : (s - a) * (vx p1 - vx p0) = (t - b) * (vx q1 - vx q0)) by lra.
    assert (Ey : (s - a) * (vy p1 - vy p0) = (t - b) * (vy q1 - vy q0)) by lra.
    assert (s = a).
    { apply Rminus_diag_uniq. apply Rmult_eq_reg_r with X; auto. unfold X.
      transitivity (((s - a) * (vx p1 - vx p0)) * (vy q1 - vy q0) - ((s - a) * (vy p1 - vy p0)) * (vx q1 - vx q0)); [ring|].
      rewrite Ex, Ey. ring. }
    assert (t = b).
    { apply Rminus_diag_uniq. apply Rmult_eq_reg_r with X; auto. unfold X.
      transitivity ((vx p1 - vx p0) * ((t - b) * (vy q1 - vy q0)) - (vy p1 - vy p0) * ((t - b) * (vx q1 - vx q0))); [ring|].
      rewrite <- Ex, <- Ey. ring. }
    subst s t. rewrite !Rleb_true by lra. split; [reflexivity|].
    apply vec_eq; unfold s_interpolate, interpolate_two_points, vadd, vscale; simpl; lra.
Qed.

(** ** Distance to a segment *)

Lemma min_distance_segment p0 p1 p k m :
  (forall t, 0 <= t <= 1 ->
     (vx p - (vx p0 + t * (vx p1 - vx p0))) * (vx p - (vx p0 + t * (vx p1 - vx p0))) +
     (vy p - (vy p0 + t * (vy p1 - vy p0))) * (vy p - (vy p0 + t * (vy p1 - vy p0))) >= m * m) ->
  0 <= m -> 0 <= k <= 1 ->
  (vx p - (vx p0 + k * (vx p1 - vx p0))) * (vx p - (vx p0 + k * (vx p1 - vx p0))) +
  (vy p - (vy p0 + k * (vy p1 - vy p0))) * (vy p - (vy p0 + k * (vy p1 - vy p0))) = m * m ->
  min_distance (between p0 p1) p m.
Proof.
  intros H M K E. split.
  - exists (V (vx p0 + k * (vx p1 - vx p0)) (vy p0 + k * (vy p1 - vy p0))). split.
    + exists k. simpl. auto.
    + unfold dist; simpl. rewrite E. apply sqrt_square; auto.
  - intros q (t & Ht & Qx & Qy). apply sq_le_nonneg; [apply dist_nonneg|]. rewrite dist_sq, Qx, Qy.
    apply Rge_le. apply H. exact Ht.
Qed.

Lemma segment_distance_ok s p : exists m, segment_distance_to_point s p = Ok m /\
  min_distance (on_segment s) p m.
Proof.
  destruct s as [p0 p1]. unfold segment_distance_to_point, to_line, line_from_two_points, on_segment.
  cbn [s_p0 s_p1 l_v l_p].
  destruct (Reqb_spec (magnitude_square (vsub p1 p0)) 0) as [Z|Z].
  - eexists; split; [reflexivity|].
    unfold magnitude_square, dot, vsub in Z; cbn [vx vy] in Z. apply sumsq0 in Z as [Zx Zy].
    rewrite magnitude_len, len_dist0, dist_sym.
    apply (min_distance_segment _ _ _ 0); [|apply dist_nonneg|lra|]; intros; rewrite dist_sq, Zx, Zy; try apply Req_ge; ring.
  - assert (N : ~ null (vsub p1 p0)).
    { intros [N1 N2]. apply Z. unfold magnitude_square, dot. rewrite N1, N2. ring. }
    pose proof (len_pos _ N) as L. pose proof (len_sq (vsub p1 p0)) as S.
    destruct (projection_deviation (vsub p p0) (vsub p1 p0) N) as (s & d & Es & Ed & Hx & Hy & Hs).
    assert (E : exists s' d', distance_and_abscissa_to_line (Ln p0 (vsub p1 p0)) p = Ok (d', s') /\ s' = s /\ Rabs d' = Rabs d).
    { unfold distance_and_abscissa_to_line. cbn [l_p l_v].
      destruct (Reqb_spec (magnitude_square (vsub p p0)) 0) as [Q|Q].
      - exists 0, 0. split; [reflexivity|]. rewrite len_sq in Hs. unfold magnitude_square, dot in Q. rewrite Q in Hs.
        apply sumsq0 in Hs as [-> ->]. auto.
      - rewrite Ed. cbn [bind]. rewrite Es. cbn [bind]. exists s, d. auto. }
    destruct E as (s' & d' & E & -> & Hd'). rewrite E. cbn [bind].
    unfold s_length, s_vector. cbn [s_p0 s_p1]. change magnitude with len.
    set (n := len (vsub p1 p0)) in *.
    unfold vsub in Hx, Hy, S. cbn [vx vy] in Hx, Hy, S.
    assert (K : forall k,
      (vx p - (vx p0 + k * (vx p1 - vx p0))) * (vx p - (vx p0 + k * (vx p1 - vx p0))) +
      (vy p - (vy p0 + k * (vy p1 - vy p0))) * (vy p - (vy p0 + k * (vy p1 - vy p0))) =
      (s - k * n) * (s - k * n) + d * d).
    { intros k. clear Hs E Hd' Es Ed. clearbody n. set (a := vx p1 - vx p0) in *. set (b := vy p1 - vy p0) in *.
      replace (vx p - (vx p0 + k * a)) with ((s * a - d * b) / n - k * a) by lra.
      replace (vy p - (vy p0 + k * b)) with ((s * b + d * a) / n - k * b) by lra.
      transitivity (((s - k * n) * (s - k * n) + d * d) * ((a * a + b * b) / (n * n))); [field; lra|].
      rewrite <- S. field. lra. }
    clear Hx Hy S Hs.
    destruct (Rleb_spec 0 s) as [S0|S0]; [destruct (Rleb_spec s n) as [S1|S1]|]; cbn [andb].
    + eexists; split; [reflexivity|]. rewrite Hd'.
      assert (Dd : Rabs d * Rabs d = d * d) by (rewrite <- Rabs_mult; apply Rabs_right; nra).
      apply (min_distance_segment _ _ _ (s / n)).
      * intros t Ht. rewrite K, Dd. pose proof (Rle_0_sqr (s - t * n)). unfold Rsqr in *. lra.
      * apply Rabs_pos.
      * split; [apply Rmult_le_pos; [lra|left; apply Rinv_0_lt_compat; lra]|].
        apply Rmult_le_reg_r with n; [lra|]. replace (s / n * n) with s by (field; lra). lra.
      * rewrite K, Dd. replace (s - s / n * n) with 0 by (field; lra). ring.
    + rewrite Rltb_false by lra. eexists; split; [reflexivity|]. rewrite len_dist0, dist_sym.
      assert (Q : dist p p1 * dist p p1 = (s - n) * (s - n) + d * d).
      { rewrite dist_sq. replace (s - n) with (s - 1 * n) by ring. rewrite <- (K 1). ring. }
      apply (min_distance_segment _ _ _ 1); [|apply dist_nonneg|lra|].
      * intros t Ht. rewrite K, Q. assert (t * n <= n) by nra. nra.
      * rewrite K, Q. ring.
    + rewrite Rltb_true by lra. eexists; split; [reflexivity|]. rewrite len_dist0, dist_sym.
      assert (Q : dist p p0 * dist p p0 = s * s + d * d).
      { rewrite dist_sq. replace (s * s) with ((s - 0 * n) * (s - 0 * n)) by ring. rewrite <- (K 0). ring. }
      apply (min_distance_segment _ _ _ 0); [|apply dist_nonneg|lra|].
      * intros t Ht. rewrite K, Q. assert (0 <= t * n) by nra. nra.
      * rewrite K, Q. ring.
Qed.

(** ** Polyline *)

Lemma polyline_edges_on points q :
  (exists e, In e (polyline_edges points) /\ on_segment e q) <-> on_chain points q.
Proof.
  induction points as [|a points IH].
  - simpl. split; [intros (e & [] & _)|intros []].
  - destruct points as [|b points].
    + simpl. split; [intros (e & [] & _)|intros []].
    + cbn [on_chain]. cbn [on_chain] in IH. rewrite <- IH. cbn [polyline_edges In]. split.
      * intros (e & [<-|He] & Q); [left; exact Q|right; exists e; auto].
      * intros [Q|(e & He & Q)]; [exists (Seg a b); auto|exists e; auto].
Qed.

Lemma min_distance_ext A B p m : (forall q, A q <-> B q) -> min_distance A p m -> min_distance B p m.
Proof.
  intros H ((q & Hq & E) & M). split.
  - exists q. split; [apply H; auto|auto].
  - intros r Hr. apply M. apply H. auto.
Qed.

Lemma polyline_loop_ok edges p : forall acc A,
  (match acc with Some m => min_distance A p m | None => forall q, ~ A q end) ->
  exists r, polyline_distance_loop edges p acc = Ok r /\
    match r with
    | Some m => min_distance (fun q => A q \/ exists e, In e edges /\ on_segment e q) p m
    | None => edges = [] /\ acc = None
    end.
Proof.
  induction edges as [|e edges IH]; intros acc A H.
  - exists acc. split; [reflexivity|]. destruct acc; auto.
    eapply min_distance_ext; [|exact H]. intros q. split; [auto|intros [?|(e & [] & _)]; auto].
  - cbn [polyline_distance_loop]. destruct (segment_distance_ok e p) as (d & E & M). rewrite E. cbn [bind].
    set (acc' := match acc with None => Some d | Some m => if Rltb d m then Some d else Some m end).
    assert (H' : exists m, acc' = Some m /\ min_distance (fun q => A q \/ on_segment e q) p m).
    { unfold acc'. destruct acc as [m|].
      - destruct H as ((q & Aq & Eq) & Min), M as ((q' & Sq & Eq') & Min').
        destruct (Rltb_spec d m) as [C|C].
        + exists d. split; auto. split.
          * exists q'. auto.
          * intros r [Hr|Hr]; [apply Rle_trans with m; [lra|auto]|auto].
        + exists m. split; auto. split.
          * exists q. auto.
          * intros r [Hr|Hr]; [auto|apply Rle_trans with d; [lra|auto]].
      - exists d. split; auto. eapply min_distance_ext; [|exact M]. intros q. specialize (H q). tauto. }
    destruct H' as (m & Em & Hm). rewrite Em.
    destruct (IH (Some m) (fun q => A q \/ on_segment e q) Hm) as (r & Er & Hr).
    exists r. split; auto. destruct r as [r|].
    + eapply min_distance_ext; [|exact Hr]. intros q. cbn [In]. split.
      * intros [[?|?]|(e' & ? & ?)]; eauto.
      * intros [?|(e' & [<-|?] & ?)]; eauto.
    + destruct Hr; discriminate.
Qed.

Lemma polyline_distance_ok points p : (2 <= length points)%nat ->
  exists m, polyline_distance_to_point points p = Ok (Some m) /\ min_distance (on_chain points) p m.
Proof.
  intros H. unfold polyline_distance_to_point.
  destruct (polyline_loop_ok (polyline_edges points) p None (fun _ => False)) as (r & E & Hr); [auto|].
  rewrite E. destruct r as [m|].
  - exists m. split; auto. eapply min_distance_ext; [|exact Hr]. intros q. cbn beta.
    rewrite <- polyline_edges_on. tauto.
  - destruct Hr as [Hr _]. destruct points as [|a [|b l]]; simpl in H; try lia. discriminate.
Qed.

(** ** Segment.contain_point *)

Lemma contain_point_unit s p : len (s_vector s) = 1 -> on_line (to_line s) p ->
  exists b, contain_point s p = Ok b /\ (b = true <-> on_segment s p).
Proof.
  intros U (k & Kx & Ky). destruct s as [p0 p1]. unfold s_vector, to_line, line_from_two_points in *.
  cbn [s_p0 s_p1 l_p l_v] in *.
  assert (N : ~ null (vsub p1 p0)). { intros N. apply len_zero in N. lra. }
  pose proof (len_sq (vsub p1 p0)) as S. rewrite U in S.
  unfold vsub in Kx, Ky, S. cbn [vx vy] in Kx, Ky, S.
  assert (E : exists d, distance_and_abscissa_to_line (Ln p0 (vsub p1 p0)) p = Ok (d, k)).
  { unfold distance_and_abscissa_to_line. cbn [l_p l_v].
    destruct (Reqb_spec (magnitude_square (vsub p p0)) 0) as [Q|Q].
    - unfold magnitude_square, dot, vsub in Q. cbn [vx vy] in Q. rewrite Kx, Ky in Q.
      assert (k = 0). { apply Rsqr_0_uniq. unfold Rsqr.
        transitivity (k * k * (1 * 1)); [ring|]. rewrite S. rewrite <- Q. ring. }
      subst k. exists 0. reflexivity.
    - destruct (deviation_ok (vsub p p0) _ N) as (d & Ed & _).
      destruct (projection_ok (vsub p p0) _ N) as (s & Es & Hs). rewrite Ed. cbn [bind]. rewrite Es. cbn [bind].
      exists d. do 2 f_equal. rewrite U in Hs. unfold vsub in Hs. cbn [vx vy] in Hs. rewrite Kx, Ky in Hs.
      transitivity (k * (1 * 1)); [|ring]. rewrite S. lra. }
  destruct E as (d & E). unfold contain_point, to_line, line_from_two_points. cbn [s_p0 s_p1]. rewrite E. cbn [bind].
  eexists. split; [reflexivity|]. rewrite andb_true_iff. unfold on_segment; cbn [s_p0 s_p1]. split.
  - intros [A B]. destruct (Rleb_spec 0 k), (Rleb_spec k 1); try discriminate. exists k. auto.
  - intros (t & Ht & Tx & Ty).
    assert (k = t).
    { apply Rminus_diag_uniq. apply Rsqr_0_uniq. unfold Rsqr.
      assert (Ax : (k - t) * (vx p1 - vx p0) = 0) by lra.
      assert (Ay : (k - t) * (vy p1 - vy p0) = 0) by lra.
      transitivity ((k - t) * (k - t) * (1 * 1)); [ring|]. rewrite S.
      transitivity (((k - t) * (vx p1 - vx p0)) * ((k - t) * (vx p1 - vx p0)) + ((k - t) * (vy p1 - vy p0)) * ((k - t) * (vy p1 - vy p0))); [ring|].
      rewrite Ax, Ay. ring. }
    subst t. rewrite !Rleb_true by lra. auto.
Qed.

Lemma mag10 : magnitude (V 10 0) = 10.
Proof. unfold magnitude, magnitude_square, dot; simpl. replace (10*10+0*0) with (10*10) by ring. apply sqrt_square; lra. Qed.

Lemma contain_point_misses : contain_point (Seg (V 0 0) (V 10 0)) (V 5 0) = Ok false.
Proof.
  unfold contain_point, to_line, line_from_two_points, distance_and_abscissa_to_line, deviation_with, projection_on.
  unfold vsub; simpl. replace (V (10 - 0) (0 - 0)) with (V 10 0) by (f_equal; ring).
  rewrite mag10. rewrite Reqb_false by (unfold magnitude_square, dot; simpl; lra).
  rewrite !fdiv_ok by lra. cbn [bind]. unfold dot; simpl. rewrite (Rleb_false _ 1) by lra. rewrite andb_false_r. reflexivity.
Qed.

Lemma contain_point_outside : contain_point (Seg (V 0 0) (V 10 0)) (V (1/2) 7) = Ok true.
Proof.
  unfold contain_point, to_line, line_from_two_points, distance_and_abscissa_to_line, deviation_with, projection_on.
  unfold vsub; simpl. replace (V (10 - 0) (0 - 0)) with (V 10 0) by (f_equal; ring).
  rewrite mag10. rewrite Reqb_false by (unfold magnitude_square, dot; simpl; lra).
  rewrite !fdiv_ok by lra. cbn [bind]. unfold dot; simpl. rewrite !Rleb_true by lra. reflexivity.
Qed.

Lemma contain_point_refuted :
  ~ (forall s p, ~ null (s_vector s) -> on_segment s p -> contain_point s p = Ok true) /\
  ~ (forall s p, ~ null (s_vector s) -> contain_point s p = Ok true -> on_segment s p).
Proof.
  assert (N : ~ null (s_vector (Seg (V 0 0) (V 10 0)))).
  { intros [H _]. unfold s_vector, vsub in H; simpl in H. lra. }
  split; intros H.
  - specialize (H (Seg (V 0 0) (V 10 0)) (V 5 0) N). rewrite contain_point_misses in H.
    assert (on_segment (Seg (V 0 0) (V 10 0)) (V 5 0)) by (exists (1/2); simpl; repeat split; lra).
    apply H in H0. discriminate.
  - specialize (H (Seg (V 0 0) (V 10 0)) (V (1/2) 7) N contain_point_outside).
    destruct H as (t & Ht & Hx & Hy). simpl in *. lra.
Qed.

(** side_of *)
Lemma left_of_ok s p : left_of s p = true <-> 0 < crossv (s_vector s) (vsub p (s_p0 s)).
Proof. unfold left_of, side_of, cross, crossv. rcase; split; auto; try discriminate; lra. Qed.
Lemma is_collinear_ok s p : ~ null (s_vector s) -> (is_collinear s p = true <-> on_line (to_line s) p).
Proof.
  intros N. destruct s as [p0 p1]. unfold is_collinear, side_of, s_vector, to_line, line_from_two_points, on_line in *.
  cbn [s_p0 s_p1 l_p l_v] in *.
  assert (M : ~ (vx p1 = vx p0 /\ vy p1 = vy p0)).
  { intros [H1 H2]. apply N. unfold null, vsub; simpl. split; lra. }
  unfold cross, vsub. simpl. rcase.
  - split; auto. intros _. destruct (c3_param p0 p1 p M) as (k & Kx & Ky); [unfold c3; lra|]. exists k. auto.
  - split; [discriminate|]. intros (k & Kx & Ky). elim n. rewrite Kx, Ky. ring.
Qed.

(** ** Triangle *)

Lemma triangle_inside_ok p0 p1 p2 t q : new_triangle p0 p1 p2 = Ok t ->
  (triangle_is_point_inside t q = true <-> in_triangle p0 p1 p2 q).
Proof.
  unfold new_triangle. destruct (is_parallel _ _) eqn:P; [discriminate|]. intros H. injection H as <-.
  assert (D : cross (vsub p1 p0) (vsub p2 p0) <> 0).
  { intros D. assert (is_parallel (vsub p1 p0) (vsub p2 p0) = true); [|congruence].
    apply is_parallel_true. unfold cross in D. rewrite D, Rabs_R0. lra. }
  unfold triangle_is_point_inside, same_side. cbn [tri0 tri1 tri2].
  destruct p0 as [x0 y0], p1 as [x1 y1], p2 as [x2 y2], q as [x y].
  unfold cross, vsub, in_triangle in *. cbn [vx vy] in *.
  set (d := (x1 - x0) * (y2 - y0) - (y1 - y0) * (x2 - x0)) in *.
  set (a := (x2 - x1) * (y - y1) - (y2 - y1) * (x - x1)).
  set (b := (x - x0) * (y2 - y0) - (y - y0) * (x2 - x0)).
  set (c := (x1 - x0) * (y - y0) - (y1 - y0) * (x - x0)).
  assert (Sum : a + b + c = d) by (unfold a, b, c, d; ring).
  replace ((x2 - x1) * (y0 - y1) - (y2 - y1) * (x0 - x1)) with d by (unfold d; ring).
  replace (((x2 - x0) * (y - y0) - (y2 - y0) * (x - x0)) * ((x2 - x0) * (y1 - y0) - (y2 - y0) * (x1 - x0)))
    with (b * d) by (unfold b, d; ring).
  assert (Bx : x * d = a * x0 + b * x1 + c * x2) by (unfold a, b, c, d; ring).
  assert (By : y * d = a * y0 + b * y1 + c * y2) by (unfold a, b, c, d; ring).
  rewrite !andb_true_iff.
  assert (DD : 0 < d * d) by (apply Rlt_0_sqr; auto).
  split.
  - intros [A [B C]].
    destruct (Rleb_spec 0 (a * d)), (Rleb_spec 0 (b * d)), (Rleb_spec 0 (c * d)); try discriminate.
    assert (Q : forall u, 0 <= u * d -> 0 <= u / d).
    { intros u Hu. replace (u / d) with (u * d / (d * d)) by (field; auto).
      apply Rmult_le_pos; [lra|left; apply Rinv_0_lt_compat; lra]. }
    exists (a / d), (b / d), (c / d). repeat split; auto.
    + rewrite <- Sum. field. rewrite Sum. auto.
    + apply Rmult_eq_reg_r with d; auto. rewrite Bx. field. auto.
    + apply Rmult_eq_reg_r with d; auto. rewrite By. field. auto.
  - intros (u & v & w & Hu & Hv & Hw & S1 & Hx & Hy).
    assert (Eu : u = 1 - v - w) by lra.
    assert (Ea : a = u * d) by (unfold a, d; rewrite Hx, Hy, Eu; ring).
    assert (Eb : b = v * d) by (unfold b, d; rewrite Hx, Hy, Eu; ring).
    assert (Ec : c = w * d) by (unfold c, d; rewrite Hx, Hy, Eu; ring).
    rewrite Ea, Eb, Ec. rewrite !Rleb_true; auto; rewrite Rmult_assoc; apply Rmult_le_pos; lra.
Qed.

Lemma triangle_area_ok p0 p1 p2 t : new_triangle p0 p1 p2 = Ok t ->
  exists h, distance_to_line (line_from_two_points p0 p1) p2 = Ok h /\
    triangle_area t = dist p0 p1 * Rabs h / 2.
Proof.
  unfold new_triangle. destruct (is_parallel _ _) eqn:P; [discriminate|]. intros H. injection H as <-.
  assert (N : ~ null (vsub p1 p0)).
  { intros [H1 H2]. assert (is_parallel (vsub p1 p0) (vsub p2 p0) = true); [|congruence].
    apply is_parallel_true. rewrite H1, H2, !Rmult_0_l, Rminus_0_r, Rabs_R0. lra. }
  destruct (deviation_ok (vsub p2 p0) (vsub p1 p0) N) as (h & E & Hh).
  exists h. split; [exact E|]. unfold triangle_area. cbn [tri0 tri1 tri2].
  rewrite dist_sym, <- len_dist0.
  assert (A : Rabs (cross (vsub p1 p0) (vsub p2 p0)) = Rabs h * len (vsub p1 p0)).
  { unfold cross. rewrite <- Hh, Rabs_mult, (Rabs_right (len _)); auto. apply Rle_ge, len_nonneg. }
  rewrite A. field.
Qed.

Lemma flat_triangle_rejected p0 p1 p2 : on_line (line_from_two_points p0 p1) p2 ->
  new_triangle p0 p1 p2 = Raise ValueError.
Proof.
  intros (k & Kx & Ky). unfold new_triangle.
  rewrite collinear_is_parallel; auto. apply cross_collinear. unfold line_from_two_points, cross, vsub in *; simpl in *.
  rewrite Kx, Ky. ring.
Qed.

(** ** Rectangle *)

Lemma interval_param a b x : Rmin a b <= x <= Rmax a b <->
  exists s, 0 <= s <= 1 /\ x = a + s * (b - a).
Proof.
  split.
  - intros [H1 H2]. destruct (Req_dec a b) as [E|E].
    + subst b. unfold Rmin, Rmax in *. destruct (Rle_dec a a); exists 0; split; lra.
    + exists ((x - a) / (b - a)). split; [|field; lra].
      unfold Rmin, Rmax in *. destruct (Rle_dec a b).
      * split.
        { apply Rmult_le_pos; [lra|left; apply Rinv_0_lt_compat; lra]. }
        { apply Rmult_le_reg_r with (b - a); [lra|]. replace ((x - a) / (b - a) * (b - a)) with (x - a) by (field; lra). lra. }
      * replace ((x - a) / (b - a)) with ((a - x) / (a - b)) by (field; lra). split.
        { apply Rmult_le_pos; [lra|left; apply Rinv_0_lt_compat; lra]. }
        { apply Rmult_le_reg_r with (a - b); [lra|]. replace ((a - x) / (a - b) * (a - b)) with (a - x) by (field; lra). lra. }
  - intros (s & Hs & ->). unfold Rmin, Rmax. destruct (Rle_dec a b); split; nra.
Qed.

Lemma imem_true x a : imem x a = true <-> inf a <= x <= sup a.
Proof.
  unfold imem. rewrite andb_true_iff. split.
  - intros [A B]. destruct (Rleb_spec (inf a) x), (Rleb_spec x (sup a)); try discriminate. lra.
  - intros. rewrite !Rleb_true by lra. auto.
Qed.

Lemma rectangle_inside_ok r q : exists b, rectangle_is_point_inside r q = Ok b /\
  (b = true <-> in_rectangle (r_p0 r) (r_p1 r) q).
Proof.
  eexists. split; [reflexivity|]. rewrite andb_true_iff, !imem_true. simpl.
  rewrite !interval_param. unfold in_rectangle. split.
  - intros [(s & ? & ?) (t & ? & ?)]. exists s, t. auto.
  - intros (s & t & ? & ? & ? & ?). split; [exists s|exists t]; auto.
Qed.

Lemma dist_h x y y' : dist (V x y) (V x y') = Rabs (y - y').
Proof. unfold dist; simpl. rewrite <- sqrt_Rsqr_abs. f_equal. unfold Rsqr. ring. Qed.
Lemma dist_v x x' y : dist (V x y) (V x' y) = Rabs (x - x').
Proof. unfold dist; simpl. rewrite <- sqrt_Rsqr_abs. f_equal. unfold Rsqr. ring. Qed.

Lemma rectangle_perimeter_ok r :
  rectangle_perimeter r = sumR (map (fun e => dist (s_p0 e) (s_p1 e)) (rectangle_edges r)).
Proof.
  destruct r as [[x0 y0] [x1 y1]]. unfold rectangle_perimeter, rectangle_edges, r_p01, r_p10; simpl.
  rewrite !dist_h, !dist_v. rewrite (Rabs_minus_sym y0 y1), (Rabs_minus_sym x0 x1). ring.
Qed.

Lemma rectangle_area_ok r e1 e2 :
  nth_error (rectangle_edges r) 0 = Some e1 -> nth_error (rectangle_edges r) 1 = Some e2 ->
  rectangle_area r = dist (s_p0 e1) (s_p1 e1) * dist (s_p0 e2) (s_p1 e2).
Proof.
  destruct r as [[x0 y0] [x1 y1]]. unfold rectangle_area, rectangle_edges, r_p01, r_p10; simpl.
  intros H1 H2. injection H1 as <-. injection H2 as <-. simpl. rewrite dist_h, dist_v.
  rewrite (Rabs_minus_sym y0 y1), (Rabs_minus_sym x0 x1), Rabs_mult. ring.
Qed.

(** the four edges form a closed chain of right angles *)
Lemma rectangle_edges_right r i e f : nth_error (rectangle_edges r) i = Some e ->
  nth_error (rectangle_edges r) (Nat.modulo (S i) 4) = Some f ->
  s_p1 e = s_p0 f /\ perpendicular (s_vector e) (s_vector f).
Proof.
  destruct r as [[x0 y0] [x1 y1]]. unfold perpendicular, s_vector, vsub.
  destruct i as [|[|[|[|i]]]]; simpl; intros H1 H2;
    try (injection H1 as <-; injection H2 as <-; simpl; split; [reflexivity|ring]).
  destruct i; discriminate.
Qed.

(** ** Bounding box *)

Definition bbox_inv (acc : option box) (seen : list vec) : Prop :=
  match acc with
  | None => seen = []
  | Some b => seen <> [] /\ (forall q, In q seen -> in_box b q) /\
      (forall c, (forall q, In q seen -> in_box c q) ->
        inf (bx c) <= inf (bx b) /\ sup (bx b) <= sup (bx c) /\
        inf (by_ c) <= inf (by_ b) /\ sup (by_ b) <= sup (by_ c))
  end.

Lemma bbox_loop_inv points : forall acc seen, bbox_inv acc seen ->
  bbox_inv (bbox_loop points acc) (seen ++ points).
Proof.
  induction points as [|p points IH]; intros acc seen H; simpl.
  - rewrite app_nil_r. exact H.
  - replace (seen ++ p :: points) with ((seen ++ [p]) ++ points) by (rewrite <- app_assoc; reflexivity).
    apply IH. destruct acc as [b|].
    + destruct H as (N & H1 & H2). split; [destruct seen; discriminate|]. split.
      * intros q Hq. apply in_app_or in Hq as [Hq|[<-|[]]].
        { specialize (H1 q Hq). unfold in_box in *. simpl.
          pose proof (Rmin_l (inf (bx b)) (vx p)). pose proof (Rmax_l (sup (bx b)) (vx p)).
          pose proof (Rmin_l (inf (by_ b)) (vy p)). pose proof (Rmax_l (sup (by_ b)) (vy p)). lra. }
        { unfold in_box. simpl.
          pose proof (Rmin_r (inf (bx b)) (vx p)). pose proof (Rmax_r (sup (bx b)) (vx p)).
          pose proof (Rmin_r (inf (by_ b)) (vy p)). pose proof (Rmax_r (sup (by_ b)) (vy p)). lra. }
      * intros c Hc. destruct (H2 c) as (A & B & C & D); [intros q Hq; apply Hc, in_or_app; auto|].
        destruct (Hc p) as [P Q]; [apply in_or_app; right; left; auto|]. simpl.
        repeat split; (apply Rmin_glb || apply Rmax_lub); lra.
    + simpl in H. subst seen. split; [discriminate|]. split.
      * intros q [<-|[]]. unfold in_box; simpl. lra.
      * intros c Hc. destruct (Hc p) as [P Q]; [left; auto|]. simpl. lra.
Qed.

Lemma bounding_box_ok points : points <> [] -> exists b, bounding_box_from_points points = Some b /\
  (forall q, In q points -> in_box b q) /\
  (forall c, (forall q, In q points -> in_box c q) ->
     inf (bx c) <= inf (bx b) /\ sup (bx b) <= sup (bx c) /\
     inf (by_ c) <= inf (by_ b) /\ sup (by_ b) <= sup (by_ c)).
Proof.
  intros N. pose proof (bbox_loop_inv points None [] eq_refl) as H. simpl in H.
  unfold bounding_box_from_points. destruct (bbox_loop points None) as [b|].
  - exists b. destruct H as (_ & H1 & H2). auto.
  - simpl in H. contradiction.
Qed.

(** ** Line.triangle_projected_point *)

Lemma triangle_projected_ok l p d r : len (l_v l) = 1 ->
  (exists q, on_line l q /\ dist p q <= d) ->
  exists q, triangle_projected_point l p d r = Ok q /\ on_line l q /\ dist p q = d.
Proof.
  intros U (c & Hc & D). destruct (projected_point_unit l p U) as (f & E & (k & Kx & Ky) & P & M).
  assert (N : ~ null (l_v l)). { intros N. apply len_zero in N. lra. }
  assert (D0 : 0 <= d) by (pose proof (dist_nonneg p c); lra).
  assert (F : dist p f <= d) by (destruct M as [_ M]; specialize (M c Hc); lra).
  assert (F2 : dist p f * dist p f <= d * d) by (pose proof (dist_nonneg p f); nra).
  unfold triangle_projected_point. rewrite E. cbn [bind].
  assert (Q : magnitude_square (vsub f p) = dist p f * dist p f).
  { rewrite dist_sq. unfold magnitude_square, dot, vsub; cbn [vx vy]. ring. }
  rewrite Q. unfold fsqrt. rewrite Rltb_false by lra. cbn [bind].
  set (h := sqrt (d ^ 2 - dist p f * dist p f)).
  assert (H2 : h * h = d * d - dist p f * dist p f).
  { unfold h. rewrite sqrt_sqrt; [ring|lra]. }
  set (g := if r then - h else h).
  assert (G2 : g * g = d * d - dist p f * dist p f) by (unfold g; destruct r; lra).
  unfold point_at_distance, to_normalised. destruct (normalise_ok _ N) as (w & Ew & _ & Wx & Wy).
  unfold normalise in Ew. rewrite magnitude_len, U in *. rewrite Ew. cbn [bind].
  rewrite Rmult_1_l in Wx, Wy.
  eexists. split; [reflexivity|]. split.
  - exists (k + g). unfold vadd, vscale; simpl. rewrite <- Wx, <- Wy, Kx, Ky. split; ring.
  - apply sq_eq_nonneg; auto using dist_nonneg. rewrite dist_sq. unfold vadd, vscale. cbn [vx vy].
    rewrite dist_sq in G2. unfold perpendicular in P; cbn [vx vy] in P.
    pose proof (len_sq (l_v l)) as S. rewrite U in S. rewrite <- Wx, <- Wy. clear - G2 P S.
    set (a := vx p - vx f) in *. set (b := vy p - vy f) in *.
    replace (vx p - (vx f + g * vx (l_v l))) with (a - vx (l_v l) * g) by (unfold a; ring).
    replace (vy p - (vy f + g * vy (l_v l))) with (b - vy (l_v l) * g) by (unfold b; ring).
    transitivity ((a * a + b * b) - 2 * g * (a * vx (l_v l) + b * vy (l_v l)) + g * g * (vx (l_v l) * vx (l_v l) + vy (l_v l) * vy (l_v l))); [ring|].
    rewrite P, <- S, G2. ring.
Qed.
