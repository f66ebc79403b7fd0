(** Further proofs about the polygons: convexity, invariance of the measures, inertia, the test of a
    point, simplification, regular polygons. *)
From Coq Require Import Reals List Lra Lia Psatz Bool Permutation.
From Verif Require Import Base ModelIter ModelVector ModelLine SpecVector SpecLine ModelPolygon SpecPolygon.
From Verif Require Import ProofIter ProofVector ProofSegment ProofSpline ProofPolygon.
Import ListNotations.
Local Open Scope R_scope.
Local Open Scope result_scope.

Lemma nth_error_map_some {A B} (f : A -> B) l i y : nth_error (map f l) i = Some y ->
  exists x, nth_error l i = Some x /\ y = f x.
Proof.
  rewrite nth_error_map. destruct (nth_error l i) as [x|]; cbn; [|discriminate].
  intro H. injection H as <-. eauto.
Qed.

(** ** Convexity *)
Lemma sign_eq x y : sign x = sign y <-> (x < 0 <-> y < 0).
Proof.
  unfold sign. destruct (Rltb_spec x 0), (Rltb_spec y 0); split; intro H; try tauto; try lra.
Qed.

Lemma ring_corner l i : (i < length l)%nat -> exists a b c, corner l i a b c /\
  nth_error (ring l) i = Some (a, b) /\ nth_error (ring l) ((i + 1) mod length l) = Some (b, c).
Proof.
  intro H. assert (N : length l <> 0%nat) by lia.
  exists (nth i l o0), (nth ((i + 1) mod length l) l o0), (nth ((i + 2) mod length l) l o0).
  split.
  - repeat split; [exact H| | |]; apply nth_error_nth'; auto; apply Nat.mod_upper_bound, N.
  - split; [apply ring_nth, H|]. rewrite (ring_nth _ _ o0 (Nat.mod_upper_bound _ _ N)).
    do 2 f_equal. f_equal. rewrite Nat.add_mod_idemp_l by exact N. f_equal. lia.
Qed.

Lemma corner_fun l i a b c a' b' c' : corner l i a b c -> corner l i a' b' c' -> a = a' /\ b = b' /\ c = c'.
Proof. intros (_ & A & B & C) (_ & A' & B' & C'). split; [|split]; congruence. Qed.

Lemma edges_tri (a b c : vec) : edges_cross (Seg a b) (Seg b c) = 2 * tri a b c.
Proof. unfold edges_cross, s_vector, cross, tri, vsub. cbn. field. Qed.

Lemma convex_test_ok l : (3 <= length l)%nat -> exists b,
  test_is_convex (map (fun e => Seg (fst e) (snd e)) (ring l)) = Ok b /\ (b = true <-> same_turns l).
Proof.
  intro L3. unfold test_is_convex. set (E := map _ (ring l)).
  assert (LE : length E = length l) by (unfold E; rewrite map_length; apply ring_len).
  assert (NE : forall i, (i < length l)%nat -> exists a b c, corner l i a b c /\
     nth_error E i = Some (Seg a b) /\ nth_error E ((i + 1) mod length l) = Some (Seg b c)).
  { intros i Hi. destruct (ring_corner l i Hi) as (a & b & c & C & H1 & H2). exists a, b, c.
    split; [exact C|]. split.
    - unfold E. rewrite (map_nth_error _ _ _ H1). reflexivity.
    - unfold E. rewrite (map_nth_error _ _ _ H2). reflexivity. }
  assert (Hl : (length l - 1 < length l)%nat) by lia.
  destruct (NE _ Hl) as (a1 & b1 & c1 & C1 & H1 & H2).
  replace ((length l - 1 + 1) mod length l)%nat with 0%nat in H2
    by (replace (length l - 1 + 1)%nat with (length l) by lia; rewrite Nat.mod_same; lia).
  rewrite LE. unfold py_index at 1 2. rewrite H2, H1. cbn [bind].
  rewrite edges_tri.
  destruct (forall_loop_ok (fun i => k <- py_mod (i + 1) (length l);; a <- py_index E i;; b <- py_index E k;;
      Ok (Reqb (sign (edges_cross a b)) (sign (2 * tri a1 b1 c1))))
     (fun i => forall a b c, corner l i a b c -> (tri a b c < 0 <-> tri a1 b1 c1 < 0)) (seq 0 (length l))) as (b & Eb & Hb).
  { intros i Hi. apply in_seq in Hi. destruct (NE i ltac:(lia)) as (a & b & c & C & G1 & G2).
    rewrite py_mod_ok by lia. cbn [bind]. unfold py_index. rewrite G1, G2. cbn [bind]. rewrite edges_tri.
    eexists. split; [reflexivity|].
    assert (X : Reqb (sign (2 * tri a b c)) (sign (2 * tri a1 b1 c1)) = true <->
                (tri a b c < 0 <-> tri a1 b1 c1 < 0)).
    { assert (Y : (tri a b c < 0 <-> tri a1 b1 c1 < 0) <-> (2 * tri a b c < 0 <-> 2 * tri a1 b1 c1 < 0))
        by (split; intros [Y1 Y2]; split; intro; lra).
      rewrite Y, <- sign_eq. destruct (Reqb_spec (sign (2 * tri a b c)) (sign (2 * tri a1 b1 c1))); split; intro; congruence. }
    rewrite X. split.
    - intros Y a' b' c' C'. destruct (corner_fun _ _ _ _ _ _ _ _ C C') as (<- & <- & <-). exact Y.
    - intro Y. apply Y, C. }
  exists b. split; [exact Eb|]. rewrite Hb. split.
  - intro H. assert (H' : forall i a b c, corner l i a b c -> (tri a b c < 0 <-> tri a1 b1 c1 < 0)).
    { intros i a b' c C. apply (H i); [apply in_seq; destruct C; lia|exact C]. }
    destruct (Rlt_dec (tri a1 b1 c1) 0) as [N|N].
    + right. intros. apply (H' i a b0 c H0), N.
    + left. intros i a b' c C. apply Rnot_lt_le. intro X. apply N. apply (H' i a b' c C). exact X.
  - intros [H|H] i _ a b' c C; pose proof (H _ _ _ _ C); pose proof (H _ _ _ _ C1); split; intro; lra.
Qed.

(** ** Permuted and moved polygons *)
Lemma simple_perm l m : Permutation (ring l) (ring m) -> simple l -> simple m.
Proof.
  intros P H i j e f N He Hf. apply Permutation_nth_error in P. destruct P as (_ & g & G & Hg).
  rewrite Hg in He, Hf. apply (H (g i) (g j) e f); auto.
Qed.
Lemma simple_rotate a t : simple (t ++ [a]) <-> simple (a :: t).
Proof. split; apply simple_perm; [|apply Permutation_sym]; apply ring_rotate. Qed.

Lemma between_swap a b q : between a b q <-> between b a q.
Proof.
  assert (G : forall a b q, between a b q -> between b a q).
  { intros a' b' q' (t & Ht & H1 & H2). exists (1 - t). split; [lra|]. rewrite H1, H2. split; ring. }
  split; apply G.
Qed.
Lemma meet_swap e f : meet_at_ends (swap e) (swap f) <-> meet_at_ends e f.
Proof.
  assert (G : forall e f, meet_at_ends e f -> meet_at_ends (swap e) (swap f)).
  { clear. intros [a b] [c d] H N q H1 H2. cbn [swap fst snd] in *. unfold meet_at_ends in H. cbn [fst snd] in H.
    apply (proj1 (between_swap _ _ _)) in H1. apply (proj1 (between_swap _ _ _)) in H2.
    assert (N' : 5 / 10 ^ 8 < Rabs (crossv (vsub b a) (vsub d c))).
    { replace (crossv (vsub b a) (vsub d c)) with (crossv (vsub a b) (vsub c d))
        by (unfold crossv, vsub; cbn; ring). exact N. }
    destruct (H N' q H1 H2) as [A B]. split; tauto. }
  split; [|apply G]. intro H. apply G in H. destruct e, f. exact H.
Qed.
Lemma simple_rev l : simple (rev l) <-> simple l.
Proof.
  assert (G : forall l, simple l -> simple (rev l)).
  { clear. intros l H i j e f N He Hf.
    pose proof (ring_rev l) as P. apply Permutation_sym, Permutation_nth_error in P. destruct P as (_ & g & G & Hg).
    rewrite Hg in He, Hf. apply nth_error_map_some in He. apply nth_error_map_some in Hf.
    destruct He as (e0 & He & ->), Hf as (f0 & Hf & ->). apply meet_swap. apply (H (g i) (g j)); auto. }
  split; [|apply G]. intro H. apply G in H. rewrite rev_involutive in H. exact H.
Qed.

Section Affine.
Variables a b e c d f : R.
Let F := affine a b e c d f.
Let det := a * d - b * c.

Lemma affine_tri o p q : tri (F o) (F p) (F q) = det * tri o p q.
Proof. unfold tri, F, affine, det. cbn. field. Qed.
Lemma affine_sweep o l : sweep (F o) (map F l) = det * sweep o l.
Proof.
  unfold sweep. rewrite ring_map, map_map, <- sumR_scale. apply sumR_ext. intros x _. apply affine_tri.
Qed.
Lemma affine_moment o l :
  moment (F o) (map F l) =
  V (det * (a * vx (moment o l) + b * vy (moment o l) + e * sweep o l))
    (det * (c * vx (moment o l) + d * vy (moment o l) + f * sweep o l)).
Proof.
  unfold moment, sweep. cbn [vx vy]. rewrite ring_map, !map_map. cbn [fst snd].
  apply vec_eq; cbn [vx vy]; rewrite <- !sumR_scale, <- !sumR_plus, <- sumR_scale; apply sumR_ext;
    intros [p q] _; cbn [fst snd]; rewrite affine_tri; unfold F, affine; cbn [vx vy]; field.
Qed.

Hypothesis ND : det <> 0.
Lemma affine_inj p q : F p = F q -> p = q.
Proof.
  intro H. assert (H1 : vx (F p) = vx (F q)) by congruence. assert (H2 : vy (F p) = vy (F q)) by congruence.
  unfold F, affine in H1, H2. cbn in H1, H2.
  assert (X : det * (vx p - vx q) = 0).
  { unfold det. replace ((a * d - b * c) * (vx p - vx q)) with
      (d * ((a * vx p + b * vy p + e) - (a * vx q + b * vy q + e)) - b * ((c * vx p + d * vy p + f) - (c * vx q + d * vy q + f))) by ring.
    rewrite H1, H2. ring. }
  assert (Y : det * (vy p - vy q) = 0).
  { unfold det. replace ((a * d - b * c) * (vy p - vy q)) with
      (a * ((c * vx p + d * vy p + f) - (c * vx q + d * vy q + f)) - c * ((a * vx p + b * vy p + e) - (a * vx q + b * vy q + e))) by ring.
    rewrite H1, H2. ring. }
  apply Rmult_integral in X. apply Rmult_integral in Y. apply vec_eq; destruct X, Y; lra.
Qed.
Lemma affine_between p q r : between (F p) (F q) r -> exists s, r = F s /\ between p q s.
Proof.
  intros (t & Ht & H1 & H2).
  exists (V ((1 - t) * vx p + t * vx q) ((1 - t) * vy p + t * vy q)). split.
  - apply vec_eq; [rewrite H1|rewrite H2]; unfold F, affine; cbn; ring.
  - exists t. split; [exact Ht|]. split; cbn; ring.
Qed.
Lemma affine_between_back p q s : between p q s -> between (F p) (F q) (F s).
Proof.
  intros (t & Ht & H1 & H2). exists t. split; [exact Ht|].
  unfold F, affine. cbn [vx vy]. rewrite H1, H2. split; ring.
Qed.
Lemma affine_crossv p q r s : crossv (vsub (F q) (F p)) (vsub (F s) (F r)) = det * crossv (vsub q p) (vsub s r).
Proof. unfold crossv, vsub, F, affine, det. cbn. ring. Qed.

Hypothesis D1 : Rabs det = 1.
Lemma affine_simple l : simple (map F l) <-> simple l.
Proof.
  split; intros H i j x y N Hx Hy.
  - pose proof (H i j (F (fst x), F (snd x)) (F (fst y), F (snd y)) N) as G. rewrite ring_map in G.
    rewrite (map_nth_error _ _ _ Hx), (map_nth_error _ _ _ Hy) in G. specialize (G eq_refl eq_refl).
    intros Nx q B1 B2. unfold meet_at_ends in G. cbn [fst snd] in G. rewrite affine_crossv, Rabs_mult, D1, Rmult_1_l in G.
    destruct (G Nx (F q) (affine_between_back _ _ _ B1) (affine_between_back _ _ _ B2)) as [A B].
    split; [destruct A as [X|X]|destruct B as [X|X]]; apply affine_inj in X; auto.
  - rewrite ring_map in Hx, Hy. apply nth_error_map_some in Hx. apply nth_error_map_some in Hy.
    destruct Hx as (x0 & Hx & ->), Hy as (y0 & Hy & ->). pose proof (H i j x0 y0 N Hx Hy) as G.
    unfold meet_at_ends. cbn [fst snd]. rewrite affine_crossv, Rabs_mult, D1, Rmult_1_l.
    intros Nx q B1 B2. apply affine_between in B1. destruct B1 as (s & -> & B1).
    apply affine_between in B2. destruct B2 as (s' & Es & B2). apply affine_inj in Es. subst s'.
    destruct (G Nx s B1 B2) as [A B]. split; [destruct A as [X|X]|destruct B as [X|X]]; rewrite X; auto.
Qed.
End Affine.

(** ** The answers of a polygon after any queries *)
Definition fresh (l : list vec) : polygon := Poly l None None None None None None.
Lemma new_polygon_ok l p : new_polygon l = Ok p -> (3 <= length l)%nat /\ p = fresh l.
Proof.
  unfold new_polygon. destruct (Nat.ltb_spec (length l) 3) as [H|H]; [discriminate|].
  intro X. injection X as <-. split; [exact H|reflexivity].
Qed.

Lemma answers_ok l p : new_polygon l = Ok p -> exists sb cb m,
  (sb = true <-> simple l) /\ (cb = true <-> same_turns l) /\
  m_area m = Rabs (sweep o0 l) /\
  m_sign m = (if Req_EM_T (sweep o0 l) 0 then None else Some (sign (sweep o0 l))) /\
  (sweep o0 l = 0 -> m_barycenter m = hd o0 l) /\
  (sweep o0 l <> 0 -> vscale (m_barycenter m) (sweep o0 l) = moment o0 l) /\
  forall qs, let q := after qs p in
  fst (ask AskSimple q) = Ok (ABool sb) /\
  fst (ask AskConvex q) = Ok (ABool (andb sb cb)) /\
  fst (ask AskArea q) = Ok (AReal (if sb then Some (m_area m) else None)) /\
  fst (ask AskBarycenter q) = (if sb then Ok (APoint (m_barycenter m)) else Raise AttributeError) /\
  fst (ask AskClockwise q) =
    (if sb then match m_sign m with Some s => Ok (AClockwise (Some (Rltb s 0))) | None => Raise AttributeError end
     else Ok (AClockwise None)) /\
  fst (ask AskAxes q) = (if sb then Ok (AAxes (compute_inertia l)) else Raise AttributeError) /\
  fst (ask AskPerimeter q) = Ok (ALength (outline l)) /\
  (forall point, fst (ask (AskInside point) q) =
     bind (polygon_is_point_inside (map (fun e => Seg (fst e) (snd e)) (ring l)) point) (fun b => Ok (ABool b))).
Proof.
  intro H. apply new_polygon_ok in H. destruct H as [L3 ->].
  destruct (simple_test_ok l) as (sb & SB & Hs). destruct (convex_test_ok l L3) as (cb & CB & Hc).
  destruct (measures_ok l) as (m & ME & M1 & M2 & M3 & M4); [intro Z; subst l; cbn in L3; lia|].
  exists sb, cb, m. do 6 (split; [assumption|]). intro qs. cbn zeta.
  pose proof (fits_after l sb SB cb CB m ME qs _ (fits_fresh l sb cb m)) as FA.
  change (Poly l None None None None None None) with (fresh l) in FA.
  assert (G : forall A (k : method A) r (w : A -> answer), answers l sb cb m k r ->
     fst (then_ k (fun a => ret (w a)) (after qs (fresh l))) = bind r (fun a => Ok (w a))).
  { intros A k r w Hk. apply (then_answers l sb cb m k (fun a => ret (w a)) r _ Hk (fun a _ => ret_answers l sb cb m (w a)) _ FA). }
  cbn [ask].
  rewrite (G _ _ _ _ (get_simple_ok l sb SB cb m)).
  rewrite (G _ _ _ _ (get_convex_ok l sb SB cb CB m)).
  rewrite (G _ _ _ _ (get_area_ok l sb SB cb m ME)).
  rewrite (G _ _ _ _ (get_barycenter_ok l sb SB cb m ME)).
  rewrite (G _ _ _ _ (get_clockwise_ok l sb SB cb m ME)).
  rewrite (G _ _ _ _ (get_inertia_ok l sb SB cb m)).
  rewrite (G _ _ _ _ (get_perimeter_ok l sb cb m)).
  repeat split.
  - destruct sb; reflexivity.
  - unfold clockwise_of. destruct sb; [|reflexivity]. destruct (m_sign m); reflexivity.
  - destruct sb; reflexivity.
  - cbn [bind]. do 2 f_equal. unfold edges_perimeter, outline. rewrite sum_list_ok, map_map. apply sumR_ext.
    intros [a b] _. cbn [fst snd]. unfold s_length. change (len (vsub b a) = dist a b). rewrite len_dist0. apply dist_sym.
  - intro point. apply (G _ _ _ _ (get_inside_ok l sb cb m point)).
Qed.

(** ** Principal axes *)
Lemma extent_quadratic l t : extent l t =
  sumR (map (fun p => vx p ^ 2) l) / INR (length l) * (cos t) ^ 2
  + 2 * (sumR (map (fun p => vx p * vy p) l) / INR (length l)) * cos t * sin t
  + sumR (map (fun p => vy p ^ 2) l) / INR (length l) * (sin t) ^ 2.
Proof.
  unfold extent, Rdiv.
  assert (G : sumR (map (fun p => (vx p * cos t + vy p * sin t) ^ 2) l) =
     (cos t) ^ 2 * sumR (map (fun p => vx p ^ 2) l) + 2 * cos t * sin t * sumR (map (fun p => vx p * vy p) l)
     + (sin t) ^ 2 * sumR (map (fun p => vy p ^ 2) l)).
  { rewrite <- !sumR_scale, <- !sumR_plus. apply sumR_ext. intros p _. ring. }
  rewrite G. ring.
Qed.
Lemma extent_nonneg l t : l <> [] -> 0 <= extent l t.
Proof.
  intro N. unfold extent. apply Rmult_le_pos.
  - clear N. induction l as [|p l IH]; cbn [map sumR]; [lra|]. pose proof (pow2_ge_0 (vx p * cos t + vy p * sin t)). lra.
  - left. apply Rinv_0_lt_compat, lt_0_INR. destruct l; [congruence|cbn; lia].
Qed.

Lemma inertia_ok l : l <> [] -> let i := compute_inertia l in exists M m,
  0 <= m <= M /\ i_major i = 4 * sqrt M /\ i_minor i = 4 * sqrt m /\
  i_ratio i = (if Req_EM_T (i_minor i) 0 then 0 else i_major i / i_minor i) /\
  forall t, extent l (rad (i_angle i) + t) = M * (cos t) ^ 2 + m * (sin t) ^ 2.
Proof.
  intros N i. set (n := INR (length l)).
  set (x2 := sumR (map (fun p => vx p ^ 2) l) / n). set (y2 := sumR (map (fun p => vy p ^ 2) l) / n).
  set (xy := sumR (map (fun p => vx p * vy p) l) / n).
  assert (X : forall t, extent l t = x2 * (cos t) ^ 2 + 2 * xy * cos t * sin t + y2 * (sin t) ^ 2)
    by (intro t; apply extent_quadratic).
  assert (HP : forall t, 0 <= x2 * (cos t) ^ 2 + 2 * xy * cos t * sin t + y2 * (sin t) ^ 2)
    by (intro t; rewrite <- X; apply extent_nonneg, N).
  assert (R0 : rad 0 = 0) by (unfold rad; field). assert (R90 : rad 90 = PI / 2) by (unfold rad; field).
  (* the directions *)
  assert (K : exists M m angle, 0 <= m <= M /\
     i = Inertia angle (4 * sqrt (Rabs M)) (4 * sqrt (Rabs m))
           (if Reqb (4 * sqrt (Rabs m)) 0 then 0 else 4 * sqrt (Rabs M) / (4 * sqrt (Rabs m))) /\
     forall t, extent l (rad angle + t) = M * (cos t) ^ 2 + m * (sin t) ^ 2).
  { unfold i, compute_inertia. rewrite !sum_list_ok. fold n.
    change (sumR (map (fun p => vy p ^ 2) l) / n) with y2. change (sumR (map (fun p => vx p ^ 2) l) / n) with x2.
    replace (- sumR (map (fun p => vx p * vy p) l) / n) with (- xy) by (unfold xy, Rdiv; ring).
    clearbody x2 y2 xy. clear i.
    assert (X0 : 0 <= x2) by (specialize (HP 0); rewrite cos_0, sin_0 in HP; lra).
    assert (Y0 : 0 <= y2) by (specialize (HP (PI / 2)); rewrite cos_PI2, sin_PI2 in HP; lra).
    destruct (Reqb_spec (- xy) 0) as [Z|Z].
    - assert (Z0 : xy = 0) by lra. subst xy.
      destruct (Rleb_spec y2 x2) as [C|C].
      + exists x2, y2, 0. split; [lra|]. split; [reflexivity|]. intro t. rewrite X, R0, Rplus_0_l. ring.
      + exists y2, x2, 90. split; [lra|]. split; [reflexivity|]. intro t. rewrite X, R90.
        rewrite cos_plus, sin_plus, cos_PI2, sin_PI2. ring.
    - set (q := sqrt ((y2 - x2) * (y2 - x2) + 4 * - xy * - xy)).
      assert (Q : q * q = (y2 - x2) * (y2 - x2) + 4 * xy * xy) by (unfold q; rewrite sqrt_sqrt; [ring|pose proof (Rle_0_sqr (y2 - x2)) as Y1; pose proof (Rle_0_sqr xy) as Y2; unfold Rsqr in Y1, Y2; lra]).
      assert (Q0 : 0 <= q) by apply sqrt_pos. clearbody q.
      rewrite Rltb_false by lra.
      set (M := (x2 + y2 + q) / 2). set (m := (x2 + y2 - q) / 2).
      set (k := (y2 - x2 + q) / 2 / xy).
      replace (- degrees (atan ((y2 - x2 + q) / 2 / - xy))) with (degrees (atan k)).
      2:{ replace ((y2 - x2 + q) / 2 / - xy) with (- k) by (unfold k; field; lra).
          rewrite atan_opp. unfold degrees. field. apply PI_neq0. }
      assert (A : rad (degrees (atan k)) = atan k) by (unfold rad, degrees; field; apply PI_neq0).
      pose proof (atan_bound k) as AB. pose proof (atan_right_inv k) as AR.
      set (u := atan k) in A, AB, AR |- *.
      assert (Hc : 0 < cos u) by (apply cos_gt_0; lra).
      assert (Hs : sin u = k * cos u).
      { unfold tan in AR. rewrite <- AR at 1. field. lra. }
      pose proof (sin2_cos2 u) as U. unfold Rsqr in U.
      assert (Ek : xy * k = (y2 - x2 + q) / 2) by (unfold k; field; lra).
      assert (Ek2 : xy * k * k = xy + (y2 - x2) * k).
      { apply (Rmult_eq_reg_l xy); [|lra].
        replace (xy * (xy * k * k)) with ((xy * k) * (xy * k)) by ring.
        replace (xy * (xy + (y2 - x2) * k)) with (xy * xy + (y2 - x2) * (xy * k)) by ring. rewrite Ek. lra. }
      (* eigenvectors *)
      assert (V1 : x2 * cos u + xy * sin u = M * cos u) by (rewrite Hs; unfold M; nra).
      assert (V2 : xy * cos u + y2 * sin u = M * sin u).
      { rewrite Hs. replace (xy * cos u + y2 * (k * cos u)) with ((xy + y2 * k) * cos u) by ring.
        replace (M * (k * cos u)) with (M * k * cos u) by ring. f_equal. unfold M. nra. }
      assert (V3 : x2 * sin u - xy * cos u = m * sin u).
      { unfold m. unfold M in V2. lra. }
      assert (V4 : y2 * cos u - xy * sin u = m * cos u).
      { unfold m. unfold M in V1. lra. }
      assert (T : forall t, extent l (u + t) = M * cos t ^ 2 + m * sin t ^ 2).
      { intro t. rewrite X, cos_plus, sin_plus.
        replace (x2 * (cos u * cos t - sin u * sin t) ^ 2
          + 2 * xy * (cos u * cos t - sin u * sin t) * (sin u * cos t + cos u * sin t)
          + y2 * (sin u * cos t + cos u * sin t) ^ 2)
        with (cos t ^ 2 * (cos u * (x2 * cos u + xy * sin u) + sin u * (xy * cos u + y2 * sin u))
          + sin t ^ 2 * (sin u * (x2 * sin u - xy * cos u) + cos u * (y2 * cos u - xy * sin u))
          + 2 * cos t * sin t * (- sin u * (x2 * cos u + xy * sin u) + cos u * (xy * cos u + y2 * sin u))) by ring.
        rewrite V1, V2, V3, V4.
        replace (cos u * (M * cos u) + sin u * (M * sin u)) with (M * (sin u * sin u + cos u * cos u)) by ring.
        replace (sin u * (m * sin u) + cos u * (m * cos u)) with (m * (sin u * sin u + cos u * cos u)) by ring. rewrite U. ring. }
      exists M, m, (degrees u). split; [|split].
      + split; [|unfold M, m; lra]. specialize (T (PI / 2)). rewrite cos_PI2, sin_PI2 in T.
        pose proof (extent_nonneg l (u + PI / 2) N). lra.
      + replace (y2 - x2) with (y2 - x2) by ring. unfold M, m. replace (x2 + y2) with (x2 + y2) by ring. reflexivity.
      + intro t. rewrite A. apply T. }
  destruct K as (M & m & angle & [Hm HM] & Ei & T). exists M, m. clearbody i. subst i. cbn [i_major i_minor i_ratio i_angle].
  rewrite !Rabs_pos_eq by lra. split; [lra|]. split; [reflexivity|]. split; [reflexivity|]. split; [|exact T].
  unfold Reqb. destruct (Req_EM_T (4 * sqrt m) 0); reflexivity.
Qed.

(** ** The test of a point *)
Lemma ring_vertex l a b : In (a, b) (ring l) -> In a l /\ In b l.
Proof.
  destruct l as [|x t]; [intros []|]. unfold ring. intro H. split; [exact (in_combine_l _ _ _ _ H)|].
  apply in_combine_r in H. apply in_app_iff in H. destruct H as [H|[H|[]]]; [right; exact H|left; exact H].
Qed.
Lemma chain_inv (P : vec -> Prop) t : forall a, P a -> (forall u v, In (u, v) (chain (a :: t)) -> P u -> P v) ->
  forall x, In x (a :: t) -> P x.
Proof.
  induction t as [|b t IH]; intros a Ha H x Hx.
  - destruct Hx as [<-|[]]. exact Ha.
  - destruct Hx as [<-|Hx]; [exact Ha|]. apply (IH b); [apply (H a b); [left; reflexivity|exact Ha]| |exact Hx].
    intros u v Huv. apply H. right. exact Huv.
Qed.
Lemma ring_inv (P : vec -> Prop) l a : In a l -> P a -> (forall u v, In (u, v) (ring l) -> P u -> P v) ->
  forall x, In x l -> P x.
Proof.
  intros Ha Pa H x Hx. apply in_split in Ha. destruct Ha as (l1 & l2 & ->).
  assert (G : forall l1 l2, Permutation (ring (l2 ++ l1)) (ring (l1 ++ l2))).
  { clear. induction l1 as [|b l1 IH]; intro l2; [rewrite app_nil_r; apply Permutation_refl|].
    cbn [app]. eapply Permutation_trans; [|apply ring_rotate].
    replace (l2 ++ b :: l1) with ((l2 ++ [b]) ++ l1) by (rewrite <- app_assoc; reflexivity).
    eapply Permutation_trans; [apply IH|]. rewrite app_assoc. apply Permutation_refl. }
  apply (chain_inv P (l2 ++ l1 ++ [a]) a Pa).
  - intros u v Huv. apply H. apply (Permutation_in _ (G l1 (a :: l2))).
    change ((a :: l2) ++ l1) with (a :: (l2 ++ l1)). rewrite ring_chain.
    change ((a :: l2 ++ l1) ++ [a]) with (a :: (l2 ++ l1) ++ [a]). rewrite <- app_assoc. exact Huv.
  - apply in_app_iff in Hx. cbn [In] in *. rewrite !in_app_iff. tauto.
Qed.

Lemma inside_false l q : (forall a, In a l -> vy a <= vy q) \/ (forall a, In a l -> vy q < vy a) ->
  polygon_is_point_inside (map (fun e => Seg (fst e) (snd e)) (ring l)) q = Ok false.
Proof.
  intro H. unfold polygon_is_point_inside.
  match goal with |- bind (traverse ?f ?m) _ = _ => assert (G : exists r, traverse f m = Ok r) end.
  { assert (K : forall a b, In (a, b) (ring l) -> (vy a <= vy q /\ vy b <= vy q) \/ (vy q < vy a /\ vy q < vy b)).
    { intros a b Hab. apply ring_vertex in Hab. destruct H as [H|H]; [left|right]; split; apply H; tauto. }
    clear H. induction (ring l) as [|[a b] r IH]; [eexists; reflexivity|]. cbn [map traverse fst snd s_p0 s_p1].
    destruct IH as (r' & E); [intros; apply K; right; assumption|].
    destruct (K a b (or_introl eq_refl)) as [[H1 H2]|[H1 H2]].
    - rewrite (Rleb_true _ _ H1), Rltb_false by lra. cbn [bind]. rewrite E. eexists. reflexivity.
    - rewrite Rleb_false, Rleb_false by lra. cbn [bind]. rewrite E. eexists. reflexivity. }
  destruct G as (r & E). rewrite E. reflexivity.
Qed.
Lemma inside_raises l q a b : In a l -> In b l -> vy a <= vy q -> vy q < vy b ->
  polygon_is_point_inside (map (fun e => Seg (fst e) (snd e)) (ring l)) q = Raise AttributeError.
Proof.
  intros Ha Hb H1 H2. unfold polygon_is_point_inside.
  assert (X : exists u v, In (u, v) (ring l) /\ vy u <= vy q /\ vy q < vy v).
  { destruct (Exists_dec (fun e : vec * vec => vy (fst e) <= vy q /\ vy q < vy (snd e)) (ring l)) as [D|D].
    - intros [u v]. cbn. destruct (Rle_dec (vy u) (vy q)), (Rlt_dec (vy q) (vy v)); [left|right|right|right]; tauto.
    - apply Exists_exists in D. destruct D as ([u v] & Huv & D). exists u, v. split; assumption.
    - exfalso. apply (Rlt_not_le _ _ H2).
      apply (ring_inv (fun p => vy p <= vy q) l a Ha H1); [|exact Hb].
      intros u v Huv Hu. apply Rnot_lt_le. intro C. apply D. apply Exists_exists. exists (u, v). auto. }
  destruct X as (u & v & Huv & U & W).
  rewrite (traverse_raise _ AttributeError _ (Seg u v)); [reflexivity| | |].
  - apply in_map_iff. exists (u, v). split; [reflexivity|exact Huv].
  - intros y _. destruct (Rleb (vy (s_p0 y)) (vy q)).
    + destruct (Rltb (vy q) (vy (s_p1 y))); eauto.
    + destruct (Rleb (vy (s_p1 y)) (vy q)); eauto.
  - cbn [s_p0 s_p1]. rewrite (Rleb_true _ _ U), (Rltb_true _ _ W). reflexivity.
Qed.

(** ** Simplification *)
Lemma sweep_rot o l1 l2 : sweep o (l2 ++ l1) = sweep o (l1 ++ l2).
Proof.
  revert l2. induction l1 as [|b l1 IH]; intro l2; [rewrite app_nil_r; reflexivity|].
  replace (l2 ++ b :: l1) with ((l2 ++ [b]) ++ l1) by (rewrite <- app_assoc; reflexivity).
  rewrite IH, app_assoc. cbn [app]. unfold sweep. apply sumR_perm, Permutation_map, ring_rotate.
Qed.
Lemma sweep_remove o a b c t : sweep o (a :: b :: c :: t) = tri a b c + sweep o (a :: c :: t).
Proof.
  unfold sweep. rewrite !ring_chain. cbn [app chain map sumR fst snd].
  change (match t ++ [a] with [] => [] | b0 :: _ => (c, b0) :: chain (t ++ [a]) end) with (chain (c :: t ++ [a])).
  unfold tri. field.
Qed.

Lemma sweep_remove_mid o K a b c t : sweep o (K ++ a :: b :: c :: t) = tri a b c + sweep o (K ++ a :: c :: t).
Proof.
  rewrite (sweep_rot o (a :: b :: c :: t) K), (sweep_rot o (a :: c :: t) K). cbn [app]. apply sweep_remove.
Qed.
Lemma sweep_remove_last o K a b c : sweep o (c :: K ++ [a; b]) = tri a b c + sweep o (c :: K ++ [a]).
Proof.
  transitivity (sweep o ([a; b] ++ c :: K)); [exact (sweep_rot o [a; b] (c :: K))|].
  transitivity (tri a b c + sweep o ([a] ++ c :: K)); [apply sweep_remove|].
  f_equal. symmetry. exact (sweep_rot o [a] (c :: K)).
Qed.
Lemma sweep_remove_first o K a b c : sweep o (b :: c :: K ++ [a]) = tri a b c + sweep o (c :: K ++ [a]).
Proof.
  transitivity (sweep o ([a] ++ b :: c :: K)); [exact (sweep_rot o [a] (b :: c :: K))|].
  transitivity (tri a b c + sweep o ([a] ++ c :: K)); [apply sweep_remove|].
  f_equal. symmetry. exact (sweep_rot o [a] (c :: K)).
Qed.

Section Simplify.
Variable l : list vec.
Hypothesis L3 : (3 <= length l)%nat.
Variable threshold : R.
Let n := length l.
Let P i := nth i l o0.
Definition keeps (remove : list nat) (i : nat) : bool := negb (existsb (Nat.eqb i) remove).
Definition kept (remove : list nat) (j : nat) : list vec := map P (filter (keeps remove) (seq 0 j)).

Lemma keeps_false r i : keeps r i = false <-> In i r.
Proof.
  unfold keeps. rewrite negb_false_iff, existsb_exists. split.
  - intros (x & Hx & E). apply Nat.eqb_eq in E. subst x. exact Hx.
  - intro H. exists i. split; [exact H|apply Nat.eqb_refl].
Qed.
Lemma keeps_true r i : keeps r i = true <-> ~ In i r.
Proof. rewrite <- keeps_false. destruct (keeps r i); split; intro H; congruence. Qed.

Lemma kept_remove r j : kept (r ++ [j]) (S j) = kept r j.
Proof.
  unfold kept. rewrite seq_S, filter_app. cbn [plus filter].
  replace (keeps (r ++ [j]) j) with false by (symmetry; apply keeps_false, in_app_iff; right; left; reflexivity).
  rewrite app_nil_r. f_equal. apply filter_ext_in. intros a Ha. apply in_seq in Ha. unfold keeps.
  rewrite existsb_app. cbn [existsb]. replace (Nat.eqb a j) with false by (symmetry; apply Nat.eqb_neq; lia).
  rewrite !orb_false_r. reflexivity.
Qed.
Lemma kept_keep r j : ~ In j r -> kept r (S j) = kept r j ++ [P j].
Proof.
  intro H. unfold kept. rewrite seq_S, filter_app. cbn [plus filter].
  rewrite (proj2 (keeps_true r j) H), map_app. reflexivity.
Qed.
Lemma kept_final r : map snd (filter (fun ip => negb (existsb (Nat.eqb (fst ip)) r)) (enumerate l)) = kept r n.
Proof.
  unfold kept, enumerate, P. fold (@keeps r). unfold n.
  assert (G : forall (m : list vec) a (f : nat -> vec), (forall i, (i < length m)%nat -> f (a + i)%nat = nth i m o0) ->
    map snd (filter (fun ip : nat * vec => keeps r (fst ip)) (combine (seq a (length m)) m)) =
    map f (filter (keeps r) (seq a (length m)))).
  { induction m as [|x m IH]; intros a f Hf; [reflexivity|]. cbn [length seq combine filter fst].
    assert (T : map snd (filter (fun ip : nat * vec => keeps r (fst ip)) (combine (seq (S a) (length m)) m)) =
      map f (filter (keeps r) (seq (S a) (length m)))).
    { apply IH. intros i Hi. replace (S a + i)%nat with (a + S i)%nat by lia. rewrite Hf by (cbn; lia). reflexivity. }
    destruct (keeps r a); [|exact T]. cbn [map snd]. f_equal; [|exact T].
    specialize (Hf 0%nat ltac:(cbn; lia)). rewrite Nat.add_0_r in Hf. symmetry. exact Hf. }
  apply (G l 0%nat (fun i => nth i l o0)). reflexivity.
Qed.

Lemma index_ok i : (i < n)%nat -> py_index l i = Ok (P i).
Proof. intro H. unfold py_index. rewrite (nth_error_nth' l o0 H). reflexivity. Qed.

Lemma skip_ok r fuel : forall k, (k < n)%nat -> (n - k <= fuel)%nat -> ~ In (n - 1)%nat r ->
  let k' := skip_removed fuel r n k in (k <= k' < n)%nat /\ ~ In k' r /\ forall m, (k <= m < k')%nat -> In m r.
Proof.
  induction fuel as [|fuel IH]; intros k Hk Hf Hn; [lia|]. cbn [skip_removed].
  change (existsb (Nat.eqb k) r) with (existsb (Nat.eqb k) r).
  destruct (existsb (Nat.eqb k) r) eqn:E.
  - assert (Hr : In k r) by (apply keeps_false; unfold keeps; rewrite E; reflexivity).
    assert (k <> n - 1)%nat by (intro; subst; tauto).
    destruct (Nat.eqb_spec (k + 1) n) as [H1|H1]; [lia|].
    destruct (IH (k + 1)%nat ltac:(lia) ltac:(lia) Hn) as (A & B & C). cbn zeta. split; [lia|]. split; [exact B|].
    intros m Hm. destruct (Nat.eq_dec m k) as [->|]; [exact Hr|]. apply C. lia.
  - cbn zeta. split; [lia|]. split; [|intros; lia]. apply keeps_true. unfold keeps. rewrite E. reflexivity.
Qed.

(** A pair of edges: degenerated, or the test of the deviation. *)
Lemma deviation_test a b c :
  (a = c /\ (d <- deviation_with (vsub b a) (vsub c a) ;; Ok (Rleb (Rabs d) threshold)) = Raise ZeroDivisionError) \/
  (a <> c /\ exists t, (d <- deviation_with (vsub b a) (vsub c a) ;; Ok (Rleb (Rabs d) threshold)) = Ok t /\
    (t = true -> threshold = 0 -> tri a b c = 0) /\ (t = true -> 0 <= threshold)).
Proof.
  unfold deviation_with. destruct (veqb_dec a c) as [E|E].
  - left. split; [exact E|]. subst c. unfold fdiv.
    replace (magnitude (vsub a a)) with 0; [rewrite Reqb_refl; reflexivity|].
    change (0 = len (vsub a a)). rewrite len_dist0. unfold dist. replace (_ + _) with 0 by ring. symmetry. apply sqrt_0.
  - right. split; [exact E|].
    assert (M : magnitude (vsub c a) <> 0).
    { change (len (vsub c a) <> 0). rewrite len_dist0. intro Z. apply E. pose proof (dist_sq c a) as Q. rewrite Z in Q.
      rewrite Rmult_0_l in Q. symmetry in Q. apply sumsq0 in Q. apply vec_eq; lra. }
    rewrite fdiv_ok by exact M. cbn [bind]. eexists. split; [reflexivity|]. split.
    + intros H ->. destruct (Rleb_spec (Rabs (cross (vsub c a) (vsub b a) / magnitude (vsub c a))) 0) as [H0|]; [|discriminate].
      assert (Z : cross (vsub c a) (vsub b a) / magnitude (vsub c a) = 0).
      { destruct (Req_dec (cross (vsub c a) (vsub b a) / magnitude (vsub c a)) 0) as [|NZ]; [assumption|].
        apply Rabs_pos_lt in NZ. lra. }
      assert (Z1 : cross (vsub c a) (vsub b a) = 0).
      { apply (Rmult_eq_reg_r (/ magnitude (vsub c a))); [|apply Rinv_neq_0_compat, M].
        rewrite Rmult_0_l. exact Z. }
      unfold cross, vsub in Z1. cbn in Z1. unfold tri. lra.
    + intro H. destruct (Rleb_spec (Rabs (cross (vsub c a) (vsub b a) / magnitude (vsub c a))) threshold) as [H0|]; [|discriminate].
      pose proof (Rabs_pos (cross (vsub c a) (vsub b a) / magnitude (vsub c a))). lra.
Qed.

Lemma kept_second r j k : ~ In 0%nat r -> ~ In k r -> (1 <= k < j)%nat ->
  (forall m, (1 <= m < k)%nat -> In m r) -> exists K, kept r j = P 0 :: P k :: K.
Proof.
  intros H0 Hk Hj Hm. unfold kept.
  replace j with (1 + ((k - 1) + (1 + (j - k - 1))))%nat by lia.
  rewrite !seq_app, !filter_app, !map_app. cbn [seq filter map plus].
  rewrite (proj2 (keeps_true r 0) H0). replace (S (k - 1)) with k by lia.
  rewrite (proj2 (keeps_true r k) Hk).
  assert (G : filter (keeps r) (seq 1 (k - 1)) = []).
  { assert (G : forall x, In x (seq 1 (k - 1)) -> keeps r x = false).
    { intros x Hx. apply in_seq in Hx. apply keeps_false, Hm. lia. }
    induction (seq 1 (k - 1)) as [|x m IH]; [reflexivity|]. cbn [filter]. rewrite (G x (or_introl eq_refl)).
    apply IH. intros y Hy. apply G. right. exact Hy. }
  rewrite G. cbn [map app]. eexists. reflexivity.
Qed.
Lemma kept_zero r j : ~ In 0%nat r -> (1 <= j)%nat -> kept r j = P 0 :: kept (r ++ [0%nat]) j.
Proof.
  intros H0 Hj. unfold kept. replace j with (S (j - 1)) by lia. cbn [seq filter].
  rewrite (proj2 (keeps_true r 0) H0).
  replace (keeps (r ++ [0%nat]) 0) with false by (symmetry; apply keeps_false, in_app_iff; right; left; reflexivity).
  cbn [map]. do 2 f_equal. apply filter_ext_in. intros a Ha. apply in_seq in Ha. unfold keeps.
  rewrite existsb_app. cbn [existsb]. replace (Nat.eqb a 0) with false by (symmetry; apply Nat.eqb_neq; lia).
  rewrite !orb_false_r. reflexivity.
Qed.

(** The state of the first phase: the vertices before [j] are judged, [i] is the last one kept. *)
Record judged (r : list nat) (i j : nat) : Prop := {
  j_range : (i < j <= n)%nat;
  j_kept : ~ In i r;
  j_removed : forall x, In x r -> (1 <= x < j)%nat;
  j_last : exists K, kept r j = K ++ [P i];
  j_zero : i = 0%nat -> kept r j = [P 0] /\ forall m, (1 <= m < j)%nat -> In m r }.
Definition same_area (r : list nat) (i j : nat) : Prop :=
  threshold = 0 -> P 0 <> P 1 ->
  sweep o0 (kept r j ++ skipn j l) = sweep o0 l /\
  (In 1%nat r -> i = 0%nat -> (j < n)%nat -> tri (P 0) (P 1) (P j) = 0 /\ P j <> P 0) /\
  (In 1%nat r -> (0 < i)%nat -> exists s K, kept r j = P 0 :: s :: K /\ tri (P 0) (P 1) s = 0).

Lemma line_trans a b c d : tri a b c = 0 -> tri a c d = 0 -> c <> a -> tri a b d = 0.
Proof.
  unfold tri. destruct a as [ax ay], b as [bx by_], c as [cx cy], d as [dx dy]. cbn. intros H1 H2 N.
  set (ux := cx - ax) in *. set (uy := cy - ay) in *. set (vx := bx - ax) in *. set (vy := by_ - ay) in *.
  set (wx := dx - ax) in *. set (wy := dy - ay) in *.
  assert (K : (ux * ux + uy * uy) * (vx * wy - vy * wx) = 0).
  { replace ((ux * ux + uy * uy) * (vx * wy - vy * wx))
      with ((vx * uy - vy * ux) * (ux * wx + uy * wy) + (ux * wy - uy * wx) * (vx * ux + vy * uy)) by ring.
    replace (vx * uy - vy * ux) with 0 by lra. replace (ux * wy - uy * wx) with 0 by lra. ring. }
  apply Rmult_integral in K. destruct K as [K|K]; [|lra].
  apply sumsq0 in K. exfalso. apply N. f_equal; unfold ux, uy in K; lra.
Qed.
Lemma tri_cycle a b c : tri a b c = tri b c a.
Proof. unfold tri. field. Qed.
Lemma tri_flip a b c : tri a b c = - tri a c b.
Proof. unfold tri. field. Qed.
Lemma skipn_nth j : (j < n)%nat -> skipn j l = P j :: skipn (S j) l.
Proof.
  intro H. unfold P. clear L3. unfold n in H. revert j H. induction l as [|x m IH]; intros j H; [cbn in H; lia|].
  destruct j as [|j]; [reflexivity|]. cbn [skipn nth]. apply IH. cbn in H. lia.
Qed.

(** A round of the first phase that does not raise. *)
Lemma judged_keep r i j : judged r i j -> (j < n)%nat -> judged r j (S j).
Proof.
  intros J Hj. assert (Nj : ~ In j r) by (intro H; apply (j_removed _ _ _ J) in H; lia).
  constructor.
  - lia. - exact Nj.
  - intros x Hx. apply (j_removed _ _ _ J) in Hx. lia.
  - exists (kept r j). apply kept_keep, Nj.
  - intro Z. destruct (j_range _ _ _ J). lia.
Qed.
Lemma judged_remove r i j : judged r i j -> (j < n)%nat -> judged (r ++ [j]) i (S j).
Proof.
  intros J Hj. destruct (j_range _ _ _ J) as [R1 R2]. constructor.
  - lia.
  - intro H. apply in_app_iff in H. destruct H as [H|[H|[]]]; [exact (j_kept _ _ _ J H)|lia].
  - intros x Hx. apply in_app_iff in Hx. destruct Hx as [H|[H|[]]]; [apply (j_removed _ _ _ J) in H; lia|lia].
  - rewrite kept_remove. apply (j_last _ _ _ J).
  - intro Z. destruct (j_zero _ _ _ J Z) as [A B]. rewrite kept_remove. split; [exact A|].
    intros m Hm. apply in_app_iff. destruct (Nat.eq_dec m j) as [->|]; [right; left; reflexivity|left; apply B; lia].
Qed.
Lemma area_keep r i j : judged r i j -> (j < n)%nat -> same_area r i j -> same_area r j (S j).
Proof.
  intros J Hj A T0 N01. destruct (A T0 N01) as (A1 & A2 & A3). clear A.
  destruct (j_range _ _ _ J) as [R1 _].
  assert (Nj : ~ In j r) by (intro H; apply (j_removed _ _ _ J) in H; lia).
  rewrite kept_keep by exact Nj. split; [|split].
  - rewrite <- app_assoc. cbn [app]. rewrite <- skipn_nth by exact Hj. exact A1.
  - intros _ Z. lia.
  - intros H1 _. destruct (Nat.eq_dec i 0) as [Z|Z].
    + destruct (j_zero _ _ _ J Z) as [K0 _]. rewrite K0. cbn [app]. exists (P j), []. split; [reflexivity|].
      apply A2; auto.
    + destruct (A3 H1 ltac:(lia)) as (s & K & E & S0). exists s, (K ++ [P j]). rewrite E. split; [reflexivity|exact S0].
Qed.
Lemma area_remove r i j : judged r i j -> (j < n)%nat -> same_area r i j ->
  (threshold = 0 -> tri (P i) (P j) (P (S j mod n)) = 0) -> P i <> P (S j mod n) ->
  same_area (r ++ [j]) i (S j).
Proof.
  intros J Hj A T Ni T0 N01. destruct (A T0 N01) as (A1 & A2 & A3). clear A. specialize (T T0).
  destruct (j_range _ _ _ J) as [R1 _]. rewrite kept_remove.
  destruct (Nat.eq_dec j (n - 1)) as [Hl|Hl].
  - (* the last vertex *)
    assert (Sj : S j = n) by lia. rewrite Sj in T, Ni |- *. rewrite Nat.mod_same in T, Ni by (unfold n; lia).
    assert (Pi0 : i <> 0%nat) by (intro; subst i; congruence).
    rewrite (skipn_nth j Hj), Sj in A1. replace (skipn n l) with (@nil vec) in A1 |- * by (symmetry; apply skipn_all).
    rewrite app_nil_r. destruct (j_last _ _ _ J) as (K & EK).
    assert (HK : exists K', K = P 0 :: K').
    { pose proof (kept_zero r j ltac:(intro H; apply (j_removed _ _ _ J) in H; lia) ltac:(lia)) as KZ.
      rewrite EK in KZ. destruct K as [|x K]; [|injection KZ as -> _; eexists; reflexivity].
      cbn [app] in KZ. injection KZ as E1 _. congruence. }
    destruct HK as (K' & ->). rewrite EK in A1 |- *.
    split; [|split].
    + rewrite <- A1. rewrite <- app_assoc. cbn [app].
      rewrite sweep_remove_last, T. ring.
    + intros _ Z. congruence.
    + intros H1 _. apply in_app_iff in H1. destruct H1 as [H1|[H1|[]]].
      * destruct (A3 H1 ltac:(lia)) as (s & K & E & S0). rewrite EK in E. exists s, K. split; [exact E|exact S0].
      * exfalso. unfold n in *. lia.
  - assert (Sj : (S j < n)%nat) by lia. rewrite Nat.mod_small in T, Ni by exact Sj.
    rewrite (skipn_nth j Hj), (skipn_nth (S j) Sj) in A1. rewrite (skipn_nth (S j) Sj).
    destruct (j_last _ _ _ J) as (K & EK). split; [|split].
    + rewrite <- A1, EK, <- !app_assoc. cbn [app]. rewrite sweep_remove_mid, T. ring.
    + intros H1 Z _. subst i. split; [|congruence]. apply in_app_iff in H1. destruct H1 as [H1|[H1|[]]].
      * destruct (A2 H1 eq_refl Hj) as [B1 B2]. apply (line_trans _ _ (P j)); auto.
      * subst j. exact T.
    + intros H1 Z. apply in_app_iff in H1. destruct H1 as [H1|[H1|[]]]; [apply A3; assumption|lia].
Qed.

(** The result of the loop. *)
Definition loop_result (r0 : list nat) (res : result (list nat)) : Prop :=
  res = Raise ZeroDivisionError \/ exists r, res = Ok r /\ (forall x, In x r -> (x < n)%nat) /\
    (threshold < 0 -> r = r0) /\
    (threshold = 0 -> P 0 <> P 1 -> sweep o0 (kept r n) = sweep o0 l).

Lemma last_phase r i fuel : judged r i n -> same_area r i n -> (0 < i)%nat ->
  loop_result r (simplify_loop (S fuel) l threshold r i 0).
Proof.
  intros J A Hi. destruct (j_range _ _ _ J) as [R1 _]. cbn [simplify_loop]. fold n.
  rewrite (proj2 (Nat.ltb_lt i n) R1). rewrite (proj2 (Nat.ltb_lt 0 i) Hi).
  unfold test_edge_pair. fold n. rewrite py_mod_ok by (unfold n; lia). cbn [bind plus].
  rewrite Nat.mod_small by (unfold n; lia).
  set (k := if Nat.eqb i (n - 1) then skip_removed n r n 1 else 1%nat).
  assert (Z0 : ~ In 0%nat r) by (intro H; apply (j_removed _ _ _ J) in H; lia).
  assert (Hk : (1 <= k < n)%nat).
  { unfold k. destruct (Nat.eqb_spec i (n - 1)) as [E|E]; [|unfold n; lia].
    apply skip_ok; [unfold n; lia|lia|]. rewrite <- E. apply (j_kept _ _ _ J). }
  rewrite (index_ok i R1), (index_ok 0) by lia. rewrite (index_ok k) by lia. cbn [bind].
  destruct (deviation_test (P i) (P 0) (P k)) as [[_ E]|(N & t & E & E1 & E2)]; rewrite E; cbn [bind]; [left; reflexivity|].
  right. unfold same_area in A. replace (skipn n l) with (@nil vec) in A by (symmetry; apply skipn_all). rewrite app_nil_r in A.
  destruct t.
  - exists (r ++ [0%nat]). split; [reflexivity|]. split; [|split].
    + intros x Hx. apply in_app_iff in Hx. destruct Hx as [H|[H|[]]]; [apply (j_removed _ _ _ J) in H; lia|lia].
    + intro H. specialize (E2 eq_refl). lra.
    + intros T0 N01. destruct (A T0 N01) as (A1 & _ & A3). specialize (E1 eq_refl T0).
      assert (S1 : exists s K, kept r n = P 0 :: s :: K /\ tri (P i) (P 0) s = 0).
      { unfold k in E1. destruct (Nat.eqb_spec i (n - 1)) as [Ei|Ei].
        - destruct (skip_ok r n 1) as (B1 & B2 & B3); [unfold n; lia|lia|rewrite <- Ei; apply (j_kept _ _ _ J)|].
          destruct (kept_second r n (skip_removed n r n 1) Z0 B2 B1 B3) as (K & EK). eauto.
        - destruct (in_dec Nat.eq_dec 1%nat r) as [H1|H1].
          + destruct (A3 H1 Hi) as (s & K & EK & S0). exists s, K. split; [exact EK|].
            (* P i, P 0, P 1 and s are on a line *)
            rewrite tri_cycle. rewrite tri_cycle in E1.
            rewrite tri_flip in E1 |- *.
            replace (tri (P 0) (P i) s) with 0; [ring|]. symmetry.
            apply (line_trans _ _ (P 1)); [lra|exact S0|congruence].
          + destruct (kept_second r n 1 Z0 H1) as (K & EK); [unfold n; lia|intros; lia|]. eauto. }
      destruct S1 as (s & K & EK & S1).
      rewrite <- A1. pose proof (kept_zero r n Z0 ltac:(lia)) as KZ. rewrite EK in KZ.
      injection KZ as KZ. rewrite <- KZ, EK.
      destruct (j_last _ _ _ J) as (L & EL). rewrite EK in EL.
      destruct L as [|x L]; [discriminate|]. injection EL as <- EL.
      destruct K as [|y K] using rev_ind.
      * unfold sweep, tri. cbn. field.
      * clear IHK. destruct L as [|x L]; [destruct K; discriminate|]. injection EL as <- EL.
        apply app_inj_tail in EL. destruct EL as [-> ->].
        rewrite sweep_remove_first, S1. ring.
  - exists r. split; [reflexivity|]. split; [|split].
    + intros x Hx. apply (j_removed _ _ _ J) in Hx. lia.
    + reflexivity.
    + intros T0 N01. apply (A T0 N01).
Qed.

Lemma first_phase fuel : forall r i j, judged r i j -> (j < n)%nat -> same_area r i j -> (n - j + 1 <= fuel)%nat ->
  loop_result r (simplify_loop fuel l threshold r i j).
Proof.
  induction fuel as [|fuel IH]; intros r i j J Hj A F; [lia|]. destruct (j_range _ _ _ J) as [R1 _].
  cbn [simplify_loop]. fold n. rewrite (proj2 (Nat.ltb_lt i n) ltac:(lia)).
  replace (Nat.ltb j i) with false by (symmetry; apply Nat.ltb_ge; lia).
  unfold test_edge_pair. fold n. rewrite py_mod_ok by (unfold n; lia). cbn [bind].
  replace (Nat.eqb i (n - 1)) with false by (symmetry; apply Nat.eqb_neq; lia).
  replace (j + 1)%nat with (S j) by lia.
  assert (Hk : (S j mod n < n)%nat) by (apply Nat.mod_upper_bound; unfold n; lia).
  rewrite (index_ok i) by lia. rewrite (index_ok j Hj), (index_ok _ Hk). cbn [bind].
  destruct (deviation_test (P i) (P j) (P (S j mod n))) as [[_ E]|(N & t & E & E1 & E2)]; rewrite E; cbn [bind]; [left; reflexivity|].
  assert (Next : forall r' i', judged r' i' (S j) -> same_area r' i' (S j) ->
     loop_result r' (simplify_loop fuel l threshold r' i' (S j mod n)) \/ (i' = 0%nat /\ S j = n)).
  { intros r' i' J' A'. destruct (Nat.eq_dec (S j) n) as [Sj|Sj].
    - destruct (Nat.eq_dec i' 0) as [Z|Z]; [right; auto|left]. rewrite Sj in J', A' |- *.
      rewrite Nat.mod_same by (unfold n; lia). destruct fuel as [|fuel']; [lia|]. apply last_phase; auto. lia.
    - left. rewrite Nat.mod_small by lia. apply IH; auto; lia. }
  destruct t.
  - assert (J' := judged_remove r i j J Hj). assert (A' := area_remove r i j J Hj A (E1 eq_refl) N).
    destruct (Next _ _ J' A') as [G|[Z Sj]].
    + destruct G as [G|(r' & G1 & G2 & G3 & G4)]; [left; exact G|right]. exists r'. split; [exact G1|]. split; [exact G2|].
      split; [|exact G4]. intro H. specialize (E2 eq_refl). lra.
    + exfalso. apply N. rewrite Z, Sj, Nat.mod_same by (unfold n; lia). reflexivity.
  - assert (J' := judged_keep r i j J Hj). assert (A' := area_keep r i j J Hj A).
    destruct (Next _ _ J' A') as [G|[Z Sj]]; [exact G|]. lia.
Qed.

Lemma simplify_ok :
  simplify l threshold = Ok None \/ simplify l threshold = Raise ValueError \/
  exists m, simplify l threshold = Ok (Some m) /\ (3 <= length m)%nat /\
    (exists keep, m = map P (filter keep (seq 0 n))) /\
    (threshold < 0 -> m = l) /\
    (threshold = 0 -> P 0 <> P 1 -> sweep o0 m = sweep o0 l).
Proof.
  unfold simplify. fold n.
  assert (K1 : kept [] 1 = [P 0]) by reflexivity.
  assert (KA : forall j, (j <= n)%nat -> kept [] j = firstn j l).
  { intros j Hj. unfold kept, P. clear K1. replace (filter (keeps []) (seq 0 j)) with (seq 0 j).
    - apply (nth_ext _ _ o0 o0); [rewrite map_length, seq_length, firstn_length; unfold n in Hj; lia|].
      intros i Hi. rewrite map_length, seq_length in Hi.
      rewrite (nth_indep _ o0 (nth 0%nat l o0)) by (rewrite map_length, seq_length; exact Hi).
      rewrite (map_nth (fun i => nth i l o0) (seq 0 j) 0%nat i), seq_nth by exact Hi. cbn [plus].
      rewrite <- (firstn_skipn j l) at 1. rewrite app_nth1; [reflexivity|]. rewrite firstn_length. unfold n in Hj. lia.
    - symmetry. clear Hj. induction (seq 0 j) as [|x t IH]; [reflexivity|]. cbn. f_equal. exact IH. }
  destruct (first_phase (2 * n + 1) [] 0 1) as [E|(r & E & R & T1 & T2)].
  - constructor; [unfold n; lia|intros []|intros x []|exists []; reflexivity|intros _; split; [reflexivity|intros; lia]].
  - unfold n. lia.
  - intros T0 N. split; [rewrite KA by (unfold n; lia); rewrite firstn_skipn; reflexivity|]. split; [intros []|intros []].
  - lia.
  - rewrite E. left. reflexivity.
  - rewrite E. destruct r as [|x r].
    + right. right. exists l. split; [reflexivity|]. split; [exact L3|]. split; [|auto].
      exists (keeps []). change (l = kept [] n). rewrite KA by lia. unfold n. rewrite firstn_all. reflexivity.
    + rewrite kept_final. right. destruct (Nat.ltb_spec (length (kept (x :: r) n)) 3) as [H|H]; [left; reflexivity|right].
      exists (kept (x :: r) n). split; [reflexivity|]. split; [exact H|]. split; [exists (keeps (x :: r)); reflexivity|].
      split; [intro T; discriminate (T1 T)|exact T2].
Qed.
End Simplify.

(** ** Regular polygons *)
Lemma regular_ok c r n angle l : regular_points c r n angle = Ok l ->
  (3 <= n)%nat /\ length l = n /\
  (forall i, (i < n)%nat -> dist c (nth i l o0) = Rabs r) /\
  (forall a b, In (a, b) (ring l) -> turned (2 * PI / INR n) (vsub a c) (vsub b c)).
Proof.
  unfold regular_points. destruct (Nat.ltb_spec n 3) as [|N]; [discriminate|]. intro H. injection H as <-.
  set (f := fun i => vadd c (from_polar r (angle + INR i * (360 / INR n)))).
  assert (N0 : 0 < INR n) by (apply lt_0_INR; lia).
  assert (L : length (map f (seq 0 n)) = n) by (rewrite map_length; apply seq_length).
  assert (Nth : forall i, (i < n)%nat -> nth i (map f (seq 0 n)) o0 = f i).
  { intros i Hi. rewrite (nth_indep _ o0 (f 0%nat)) by lia. rewrite map_nth, seq_nth by exact Hi. reflexivity. }
  split; [exact N|]. split; [exact L|]. split.
  - intros i Hi. rewrite (Nth i Hi). unfold f, from_polar, from_angle, vadd, vscale, dist. cbn [vx vy].
    set (u := radians _). pose proof (sin2_cos2 u) as U. unfold Rsqr in U.
    replace (_ + _) with (r * r * (sin u * sin u + cos u * cos u)) by ring. rewrite U, Rmult_1_r.
    apply sqrt_Rsqr_abs.
  - intros a b Hab. apply In_nth_error in Hab. destruct Hab as (i & Hi).
    assert (Li : (i < n)%nat).
    { rewrite <- L, <- ring_len. apply nth_error_Some. rewrite Hi. discriminate. }
    rewrite (ring_nth _ i o0) in Hi by (rewrite L; exact Li). rewrite L in Hi. injection Hi as <- <-.
    rewrite !Nth by (try apply Nat.mod_upper_bound; lia).
    assert (G : exists k, f ((i + 1) mod n)%nat = vadd c (from_polar r (angle + INR i * (360 / INR n) + 360 / INR n - 360 * INR k)) /\ (k = 0 \/ k = 1)%nat).
    { destruct (Nat.eq_dec (i + 1) n) as [E|E].
      - exists 1%nat. rewrite E, Nat.mod_same by lia. split; [|auto]. unfold f. do 2 f_equal.
        assert (X : INR i = INR n - 1) by (rewrite <- E, plus_INR; cbn; ring). rewrite X. cbn [INR]. field. lra.
      - exists 0%nat. rewrite Nat.mod_small by lia. split; [|auto]. unfold f. do 2 f_equal. rewrite plus_INR. cbn [INR]. field. lra. }
    destruct G as (k & -> & Hk). unfold f. set (t := angle + INR i * (360 / INR n)).
    unfold turned, from_polar, from_angle, vadd, vscale, vsub. cbn [vx vy].
    assert (Rt : radians (t + 360 / INR n - 360 * INR k) = radians t + 2 * PI / INR n - 2 * INR k * PI)
      by (unfold radians; field; lra).
    assert (Q : cos (radians (t + 360 / INR n - 360 * INR k)) = cos (radians t + 2 * PI / INR n) /\
                sin (radians (t + 360 / INR n - 360 * INR k)) = sin (radians t + 2 * PI / INR n)).
    { rewrite Rt. split.
      - rewrite <- (cos_period (_ - _) k). f_equal. ring.
      - rewrite <- (sin_period (_ - _) k). f_equal. ring. }
    destruct Q as [-> ->]. rewrite cos_plus, sin_plus. split; ring.
Qed.
