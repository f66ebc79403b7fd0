(** Proofs about triangles, lines in a box, and rounding. *)
From Coq Require Import Reals List Lra Lia Psatz ZArith Bool.
From Verif Require Import Base ModelVector ModelRoot ModelLine ModelTriangle SpecVector SpecLine SpecTriangle.
From Verif Require Import ProofVector ProofSegment.
Import ListNotations.
Local Open Scope R_scope.
Local Open Scope result_scope.

(** ** Bisectors *)
Lemma medians t :
  on_line (bisector_line0 t) (tri0 t) /\ on_line (bisector_line0 t) (half_way (tri1 t) (tri2 t)) /\
  on_line (bisector_line1 t) (tri1 t) /\ on_line (bisector_line1 t) (half_way (tri2 t) (tri0 t)) /\
  on_line (bisector_line2 t) (tri2 t) /\ on_line (bisector_line2 t) (half_way (tri0 t) (tri1 t)) /\
  on_line (bisector_line0 t) (gravity (tri0 t) (tri1 t) (tri2 t)) /\
  on_line (bisector_line1 t) (gravity (tri0 t) (tri1 t) (tri2 t)) /\
  on_line (bisector_line2 t) (gravity (tri0 t) (tri1 t) (tri2 t)).
Proof.
  destruct t as [[x0 y0] [x1 y1] [x2 y2]].
  unfold on_line, bisector_line0, bisector_line1, bisector_line2, bisector_vector0, bisector_vector1, bisector_vector2,
    half_way, gravity, vadd, vsub. cbn [l_p l_v tri0 tri1 tri2 vx vy].
  repeat split; [exists 0|exists (/ 2)|exists 0|exists (/ 2)|exists 0|exists (/ 2)|exists (/ 3)..]; split; field.
Qed.

Lemma built_cross p0 p1 p2 t : new_triangle p0 p1 p2 = Ok t ->
  t = Tri p0 p1 p2 /\ cross (vsub p1 p0) (vsub p2 p0) <> 0.
Proof.
  unfold new_triangle, is_parallel. destruct (round7_is_zero (cross (vsub p1 p0) (vsub p2 p0))) eqn:E; [discriminate|].
  intro H. injection H as <-. split; [reflexivity|]. intro Z. rewrite Z in E.
  unfold round7_is_zero in E. rewrite Rabs_R0 in E. destruct (Rleb_spec 0 (5 / 10 ^ 8)) as [_|N]; [discriminate E|lra].
Qed.
Lemma len_sq v : len v * len v = vx v * vx v + vy v * vy v.
Proof. apply sqrt_sqrt. nra. Qed.
Lemma len_pos v : 0 <= len v.
Proof. apply sqrt_pos. Qed.
Lemma bisect_sum u w : vx u * vy w - vy u * vx w <> 0 ->
  (bisects (V (vx u + vx w) (vy u + vy w)) u w <-> len u = len w).
Proof.
  intro C. unfold bisects, scalar. cbn [vx vy].
  pose proof (len_sq u) as U. pose proof (len_sq w) as W. pose proof (len_pos u) as U0. pose proof (len_pos w) as W0.
  set (a := len u) in *. set (b := len w) in *. set (d := vx u * vx w + vy u * vy w).
  assert (D : d * d < (a * b) * (a * b)).
  { replace ((a * b) * (a * b)) with ((a * a) * (b * b)) by ring. rewrite U, W. unfold d.
    assert (X : 0 < (vx u * vy w - vy u * vx w) * (vx u * vy w - vy u * vx w)) by (apply Rsqr_pos_lt; exact C).
    replace ((vx u * vx u + vy u * vy u) * (vx w * vx w + vy w * vy w)) with ((vx u * vx w + vy u * vy w) * (vx u * vx w + vy u * vy w) +
      (vx u * vy w - vy u * vx w) * (vx u * vy w - vy u * vx w)) by ring. lra. }
  assert (P : 0 <= a * b) by (apply Rmult_le_pos; assumption).
  assert (D' : d < a * b).
  { apply Rnot_le_lt. intro N. apply (Rmult_le_compat _ _ _ _ P P N) in N. lra. }
  replace ((vx u + vx w) * vx u + (vy u + vy w) * vy u) with (a * a + d) by (rewrite U; unfold d; ring).
  replace ((vx u + vx w) * vx w + (vy u + vy w) * vy w) with (b * b + d) by (rewrite W; unfold d; ring).
  split; intro H.
  - assert (Z : (a - b) * (a * b - d) = 0) by lra. apply Rmult_integral in Z. lra.
  - rewrite H. reflexivity.
Qed.
Lemma bisector_iff p0 p1 p2 t : new_triangle p0 p1 p2 = Ok t ->
  (bisects (bisector_vector0 t) (side p0 p1) (side p0 p2) <-> dist p0 p1 = dist p0 p2) /\
  (bisects (bisector_vector1 t) (side p1 p2) (side p1 p0) <-> dist p1 p2 = dist p1 p0) /\
  (bisects (bisector_vector2 t) (side p2 p0) (side p2 p1) <-> dist p2 p0 = dist p2 p1).
Proof.
  assert (DL : forall a b, dist a b = len (side a b)).
  { intros a b. unfold dist, len, side. cbn [vx vy]. f_equal. ring. }
  intro H. apply built_cross in H. destruct H as [-> C]. rewrite !DL. unfold cross, vsub in C. cbn [vx vy] in C.
  assert (C0 : forall x y, x <> 0 -> y = x \/ y = - x -> y <> 0) by (intros; lra).
  repeat split.
  1,2: apply (bisect_sum (side p0 p1) (side p0 p2)); unfold side; cbn [vx vy]; apply (C0 _ _ C); left; ring.
  - unfold bisector_vector1, vadd, vsub. cbn [tri0 tri1 tri2 vx vy].
    replace (V (vx p0 - vx p1 + (vx p2 - vx p1)) (vy p0 - vy p1 + (vy p2 - vy p1)))
      with (V (vx (side p1 p2) + vx (side p1 p0)) (vy (side p1 p2) + vy (side p1 p0))) by (unfold side; cbn [vx vy]; f_equal; ring).
    apply bisect_sum; unfold side; cbn [vx vy]; apply (C0 _ _ C); left; ring.
  - unfold bisector_vector1, vadd, vsub. cbn [tri0 tri1 tri2 vx vy].
    replace (V (vx p0 - vx p1 + (vx p2 - vx p1)) (vy p0 - vy p1 + (vy p2 - vy p1)))
      with (V (vx (side p1 p2) + vx (side p1 p0)) (vy (side p1 p2) + vy (side p1 p0))) by (unfold side; cbn [vx vy]; f_equal; ring).
    apply bisect_sum; unfold side; cbn [vx vy]; apply (C0 _ _ C); left; ring.
  - unfold bisector_vector2, vadd, vsub. cbn [tri0 tri1 tri2 vx vy].
    replace (V (vx p1 - vx p2 + (vx p0 - vx p2)) (vy p1 - vy p2 + (vy p0 - vy p2)))
      with (V (vx (side p2 p0) + vx (side p2 p1)) (vy (side p2 p0) + vy (side p2 p1))) by (unfold side; cbn [vx vy]; f_equal; ring).
    apply bisect_sum; unfold side; cbn [vx vy]; apply (C0 _ _ C); left; ring.
  - unfold bisector_vector2, vadd, vsub. cbn [tri0 tri1 tri2 vx vy].
    replace (V (vx p1 - vx p2 + (vx p0 - vx p2)) (vy p1 - vy p2 + (vy p0 - vy p2)))
      with (V (vx (side p2 p0) + vx (side p2 p1)) (vy (side p2 p0) + vy (side p2 p1))) by (unfold side; cbn [vx vy]; f_equal; ring).
    apply bisect_sum; unfold side; cbn [vx vy]; apply (C0 _ _ C); left; ring.
Qed.

(** ** Kinds of triangles *)
Lemma repaired_sides p0 p1 p2 t : new_triangle p0 p1 p2 = Ok t ->
  let a := dist p0 p1 in let b := dist p1 p2 in let c := dist p2 p0 in
  perimeter repaired_length t = Ok (a + b + c) /\
  (is_equilateral repaired_length t = Ok true <-> a = b /\ b = c) /\
  (is_scalene repaired_length t = Ok true <-> a <> b /\ b <> c /\ c <> a) /\
  (is_isosceles repaired_length t = Ok true <-> (a = b /\ b <> c) \/ (b = c /\ c <> a) \/ (c = a /\ a <> b)) /\
  is_ok (is_equilateral repaired_length t) /\ is_ok (is_scalene repaired_length t) /\ is_ok (is_isosceles repaired_length t).
Proof.
  intro H. apply built_cross in H. destruct H as [-> _]. cbn zeta.
  assert (E : repaired_length (Tri p0 p1 p2) = Ok (Three (dist p0 p1) (dist p1 p2) (dist p2 p0))).
  { unfold repaired_length, magnitude, magnitude_square, dot, vsub, dist. cbn [tri0 tri1 tri2 vx vy].
    f_equal. f_equal; f_equal; ring. }
  unfold perimeter, is_isosceles, is_equilateral, is_scalene. rewrite !E. cbn [bind p10 p21 p02].
  set (a := dist p0 p1). set (b := dist p1 p2). set (c := dist p2 p0).
  split; [reflexivity|].
  destruct (Reqb_spec a b) as [AB|AB], (Reqb_spec b c) as [BC|BC], (Reqb_spec c a) as [CA|CA]; cbn [andb negb bind];
    (split; [|split; [|split; [|repeat split; eexists; reflexivity]]]);
    split; intro X; try reflexivity; try discriminate X; try (exfalso; lra); lra.
Qed.

Lemma Reqb_true a b : a = b -> Reqb a b = true.
Proof. intros ->. apply Reqb_refl. Qed.
Ltac decide_all := repeat (match goal with
  | |- context [Reqb ?a ?b] => first [rewrite (Reqb_true a b) by lra | rewrite (Reqb_false a b) by lra]
  | |- context [Rltb ?a 0] => first [rewrite (Rltb_true a 0) by lra | rewrite (Rltb_false a 0) by lra]
  | |- context [Rltb 0 ?a] => first [rewrite (Rltb_true 0 a) by lra | rewrite (Rltb_false 0 a) by lra]
  | |- context [Rleb 0 ?a] => first [rewrite (Rleb_true 0 a) by lra | rewrite (Rleb_false 0 a) by lra]
  end; cbn [bind negb]).
Lemma atan_deg x : -90 < degrees (atan x) < 90.
Proof.
  pose proof (atan_bound x) as [L U]. pose proof PI_RGT_0 as P. unfold degrees. split.
  - apply (Rmult_lt_reg_r (PI / 180)); [lra|]. replace (atan x * 180 / PI * (PI / 180)) with (atan x) by (field; lra). lra.
  - apply (Rmult_lt_reg_r (PI / 180)); [lra|]. replace (atan x * 180 / PI * (PI / 180)) with (atan x) by (field; lra). lra.
Qed.

(** A right triangle said to be obtuse *)
Lemma right_obtuse : exists t, new_triangle (V 0 0) (V 1 0) (V 0 1) = Ok t /\
  right_at (V 0 0) (V 1 0) (V 0 1) /\ ~ obtuse_triangle (V 0 0) (V 1 0) (V 0 1) /\ is_obtuse repaired_angle t = Ok true.
Proof.
  exists (Tri (V 0 0) (V 1 0) (V 0 1)). split; [|split; [|split]].
  - unfold new_triangle, is_parallel, round7_is_zero, cross, vsub. cbn [vx vy].
    rewrite Rleb_false; [reflexivity|]. replace ((1 - 0) * (1 - 0) - (0 - 0) * (0 - 0)) with 1 by ring. rewrite Rabs_R1. lra.
  - unfold right_at, scalar, side. cbn [vx vy]. ring.
  - unfold obtuse_triangle, obtuse_at, scalar, side. cbn [vx vy]. lra.
  - unfold is_obtuse, repaired_angle, orientation, vbool, vtan, fdiv, vsub. cbn -[Reqb Rltb Rleb Rmax degrees].
    decide_all. cbn [p10 p21 p02].
    pose proof (atan_deg ((1 - 0) / (0 - 1))) as A. rewrite Rltb_true; [reflexivity|].
    eapply Rlt_le_trans; [|apply Rmax_l]. eapply Rlt_le_trans; [|apply Rmax_r]. lra.
Qed.
(** An obtuse triangle said to be acute *)
Lemma obtuse_acute : exists t, new_triangle (V 0 0) (V 3 (-1)) (V (-2) (-2)) = Ok t /\
  obtuse_at (V 0 0) (V 3 (-1)) (V (-2) (-2)) /\ is_acute repaired_angle t = Ok true.
Proof.
  exists (Tri (V 0 0) (V 3 (-1)) (V (-2) (-2))). split; [|split].
  - unfold new_triangle, is_parallel, round7_is_zero, cross, vsub. cbn [vx vy].
    rewrite Rleb_false; [reflexivity|]. replace ((3 - 0) * (-2 - 0) - (-1 - 0) * (-2 - 0)) with (-8) by ring.
    rewrite Rabs_left by lra. lra.
  - unfold obtuse_at, scalar, side. cbn [vx vy]. lra.
  - unfold is_acute, repaired_angle, orientation, vbool, vtan, fdiv, vsub. cbn -[Reqb Rltb Rleb Rmax degrees].
    decide_all. cbn [p10 p21 p02].
    pose proof (atan_deg ((-1 - 0) / (3 - 0))). pose proof (atan_deg ((-2 - -1) / (-2 - 3))). pose proof (atan_deg ((0 - -2) / (0 - -2))).
    rewrite Rltb_true; [reflexivity|]. repeat apply Rmax_lub_lt; lra.
Qed.
(** A triangle with a right angle which is oblique, and an equilateral one, without right angle, which is not *)
Lemma oblique_iff p0 p1 p2 t : new_triangle p0 p1 p2 = Ok t ->
  (is_oblique repaired_length t = Ok true <-> ~ (dist p0 p1 = dist p1 p2 /\ dist p1 p2 = dist p2 p0)).
Proof.
  intro H. destruct (repaired_sides p0 p1 p2 t H) as (_ & E & _ & _ & [b B] & _). cbn zeta in *.
  unfold is_oblique. rewrite B in *. cbn [bind]. destruct b; cbn [negb].
  - split; [discriminate|]. intro N. destruct N. apply E. reflexivity.
  - split; [intros _ Q; apply E in Q; discriminate|reflexivity].
Qed.

(** ** Lines in a box *)
Lemma box_points l b p q : get_x_y_from_bounding_box l b = Ok (p, q) ->
  on_line l p /\ on_line l q /\
  ((vy p = inf (by_ b) /\ vy q = sup (by_ b)) \/ (vx p = inf (bx b) /\ vx q = sup (bx b))).
Proof.
  unfold get_x_y_from_bounding_box, get_x_from_y, get_y_from_x, vtan, vinverse_tan, fdiv. cbn [vx vy].
  destruct (Reqb_spec (vx (l_v l)) 0) as [|X]; [discriminate|]. cbn [bind].
  destruct (Reqb_spec (sup (bx b) - inf (bx b)) 0) as [|W]; [discriminate|]. cbn [bind].
  destruct (Rltb _ _).
  - destruct (Reqb_spec (vy (l_v l)) 0) as [|Y]; [discriminate|]. cbn [bind]. intro H. injection H as <- <-. cbn [vx vy].
    split; [exists ((inf (by_ b) - vy (l_p l)) / vy (l_v l)); cbn [vx vy]; split; field; exact Y|].
    split; [exists ((sup (by_ b) - vy (l_p l)) / vy (l_v l)); cbn [vx vy]; split; field; exact Y|]. left. auto.
  - cbn [bind]. intro H. injection H as <- <-. cbn [vx vy].
    split; [exists ((inf (bx b) - vx (l_p l)) / vx (l_v l)); cbn [vx vy]; split; field; exact X|].
    split; [exists ((sup (bx b) - vx (l_p l)) / vx (l_v l)); cbn [vx vy]; split; field; exact X|]. right. auto.
Qed.
Lemma box_fails l b : vx (l_v l) = 0 \/ sup (bx b) = inf (bx b) -> get_x_y_from_bounding_box l b = Raise ZeroDivisionError.
Proof.
  unfold get_x_y_from_bounding_box, vtan, fdiv. cbn [vx vy]. intro H.
  destruct (Reqb_spec (vx (l_v l)) 0) as [|X]; [reflexivity|]. cbn [bind].
  destruct (Reqb_spec (sup (bx b) - inf (bx b)) 0) as [|W]; [reflexivity|]. exfalso. destruct H; lra.
Qed.

Lemma Rabs_le_inv x a : Rabs x <= a -> - a <= x <= a.
Proof. unfold Rabs. destruct (Rcase_abs x); lra. Qed.
Lemma abs_le_mul t w h : 0 < w -> (Rabs t <= h / w <-> Rabs (t * w) <= h).
Proof.
  intro W. rewrite Rabs_mult, (Rabs_pos_eq w) by lra. split; intro H.
  - apply (Rmult_le_compat_r w) in H; [|lra]. replace (h / w * w) with h in H by (field; lra). exact H.
  - apply (Rmult_le_reg_r w); [lra|]. replace (h / w * w) with h by (field; lra). exact H.
Qed.
Lemma box_centred l b : inf (bx b) < sup (bx b) -> inf (by_ b) <= sup (by_ b) -> vx (l_v l) <> 0 ->
  on_line l (box_centre b) -> exists p q, get_x_y_from_bounding_box l b = Ok (p, q) /\
    forall r, (on_line l r /\ in_box b r) <-> between p q r.
Proof.
  intros W H X (s & Sx & Sy). destruct b as [[x0 x1] [y0 y1]]. unfold box_centre in *. cbn [bx by_ inf sup vx vy] in *.
  unfold get_x_y_from_bounding_box, get_x_from_y, get_y_from_x, vtan, vinverse_tan, fdiv. cbn [bx by_ inf sup vx vy].
  rewrite (Reqb_false (vx (l_v l)) 0 X), (Reqb_false (x1 - x0) 0) by lra. cbn [bind].
  set (v := vx (l_v l)) in *. set (w := vy (l_v l)) in *. set (px := vx (l_p l)) in *. set (py := vy (l_p l)) in *.
  set (t := w / v). assert (WT : w = t * v) by (unfold t; field; exact X).
  pose proof (abs_le_mul t (x1 - x0) (y1 - y0) ltac:(lra)) as A.
  (* the points of the line *)
  assert (L : forall r, on_line l r <-> vy r = (y0 + y1) / 2 + t * (vx r - (x0 + x1) / 2)).
  { intro r. unfold on_line. fold v w px py. split.
    - intros (k & Kx & Ky). rewrite Kx, Ky, Sx, Sy, WT. ring.
    - intro E. exists ((vx r - px) / v). split; [field; exact X|]. rewrite E, Sx, Sy, WT. field. exact X. }
  destruct (Rltb_spec ((y1 - y0) / (x1 - x0)) (Rabs t)) as [C|C].
  - (* steep *)
    assert (A' : y1 - y0 < Rabs (t * (x1 - x0))) by (apply Rnot_le_lt; intro N; apply A in N; lra).
    assert (T : t <> 0).
    { intros Z. rewrite Z, Rmult_0_l, Rabs_R0 in A'. lra. }
    assert (Y : w <> 0) by (rewrite WT; apply Rmult_integral_contrapositive; auto).
    rewrite (Reqb_false w 0 Y). cbn [bind]. eexists. eexists. split; [reflexivity|]. intro r.
    rewrite L. unfold in_box, between. cbn [bx by_ inf sup vx vy].
    set (xa := v / w * (y0 - py) + px). set (xb := v / w * (y1 - py) + px).
    assert (Ea : xa = (x0 + x1) / 2 - / t * ((y1 - y0) / 2)).
    { unfold xa. replace py with ((y0 + y1) / 2 - s * w) by lra. replace px with ((x0 + x1) / 2 - s * v) by lra. rewrite WT. field. auto. }
    assert (Eb : xb = (x0 + x1) / 2 + / t * ((y1 - y0) / 2)).
    { unfold xb. replace py with ((y0 + y1) / 2 - s * w) by lra. replace px with ((x0 + x1) / 2 - s * v) by lra. rewrite WT. field. auto. }
    rewrite Ea, Eb. set (m := (x0 + x1) / 2) in *. set (n := (y0 + y1) / 2) in *. set (g := (y1 - y0) / 2) in *.
    assert (G : Rabs (/ t * g) <= (x1 - x0) / 2).
    { rewrite Rabs_mult, (Rabs_inv t). rewrite Rabs_mult, (Rabs_pos_eq (x1 - x0)) in A' by lra.
      assert (PT : 0 < Rabs t) by (apply Rabs_pos_lt, T). apply (Rmult_le_reg_l (Rabs t)); [exact PT|].
      rewrite <- Rmult_assoc, Rinv_r, Rmult_1_l by lra. rewrite Rabs_pos_eq by (unfold g; lra). unfold g. lra. }
    apply Rabs_le_inv in G. split.
    + intros (E & Bx & By). destruct (Req_dec g 0) as [Z|Z].
      * exists 0. split; [lra|]. assert (vy r = n) by (unfold g, n in *; lra).
        assert (vx r = m).
        { assert (Q : t * (vx r - m) = 0) by lra. apply Rmult_integral in Q. destruct Q; [contradiction|lra]. }
        rewrite Z. split; [lra|]. unfold g, n in *. lra.
      * assert (Hy : y1 - y0 <> 0) by (unfold g in Z; lra). exists ((vy r - y0) / (y1 - y0)). split; [|split].
        -- split; [apply Rmult_le_pos; [lra|apply Rlt_le, Rinv_0_lt_compat; lra]|].
           apply (Rmult_le_reg_r (y1 - y0)); [lra|]. replace ((vy r - y0) / (y1 - y0) * (y1 - y0)) with (vy r - y0) by (field; exact Hy). lra.
        -- assert (R0 : vx r = m + / t * (vy r - n)) by (rewrite E; field; exact T).
           rewrite R0. unfold n, g. field. auto.
        -- field. exact Hy.
    + intros (k & K & Rx & Ry).
      assert (Rx' : vx r = m + (2 * k - 1) * (/ t * g)) by (rewrite Rx; ring).
      assert (Q : vy r = n + t * (vx r - m)).
      { rewrite Rx', Ry. unfold n, g. field. exact T. }
      split; [exact Q|]. split; [|rewrite Ry; nra]. rewrite Rx'. set (e := / t * g) in *.
      assert (M0 : - Rabs e <= (2 * k - 1) * e <= Rabs e).
      { unfold Rabs. destruct (Rcase_abs e); nra. }
      assert (M1 : Rabs e <= (x1 - x0) / 2) by (apply Rabs_le; lra). unfold m. lra.
  - assert (A' : Rabs (t * (x1 - x0)) <= y1 - y0) by (apply A; lra).
    cbn [bind]. eexists. eexists. split; [reflexivity|]. intro r. rewrite L. unfold in_box, between. cbn [bx by_ inf sup vx vy].
    assert (Ea : t * (x0 - px) + py = (y0 + y1) / 2 - t * ((x1 - x0) / 2)) by (rewrite Sx in *; replace py with ((y0 + y1) / 2 - s * w) by lra; replace px with ((x0 + x1) / 2 - s * v) by lra; rewrite WT; field).
    assert (Eb : t * (x1 - px) + py = (y0 + y1) / 2 + t * ((x1 - x0) / 2)) by (replace py with ((y0 + y1) / 2 - s * w) by lra; replace px with ((x0 + x1) / 2 - s * v) by lra; rewrite WT; field).
    rewrite Ea, Eb. apply Rabs_le_inv in A'. split.
    + intros (E & Bx & By). exists ((vx r - x0) / (x1 - x0)). split; [|split].
      * split; [apply Rmult_le_pos; [lra|apply Rlt_le, Rinv_0_lt_compat; lra]|].
        apply (Rmult_le_reg_r (x1 - x0)); [lra|]. replace ((vx r - x0) / (x1 - x0) * (x1 - x0)) with (vx r - x0) by (field; lra). lra.
      * field. lra.
      * rewrite E. field. lra.
    + intros (k & K & Rx & Ry). split; [rewrite Ry, Rx; field|]. split; [rewrite Rx; nra|]. rewrite Ry.
      set (e := t * (x1 - x0)) in *.
      replace ((y0 + y1) / 2 - t * ((x1 - x0) / 2) + k * ((y0 + y1) / 2 + t * ((x1 - x0) / 2) - ((y0 + y1) / 2 - t * ((x1 - x0) / 2))))
        with ((y0 + y1) / 2 + (k - / 2) * e) by (unfold e; field).
      nra.
Qed.
Lemma box_outside : get_x_y_from_bounding_box (Ln (V 0 (3 / 4)) (V 1 1)) (Box (Itv 0 1) (Itv 0 1)) = Ok (V 0 (3 / 4), V 1 (7 / 4)) /\
  on_line (Ln (V 0 (3 / 4)) (V 1 1)) (V (/ 4) 1) /\ ~ in_box (Box (Itv 0 1) (Itv 0 1)) (V 1 (7 / 4)).
Proof.
  split; [|split].
  - unfold get_x_y_from_bounding_box, get_y_from_x, vtan, fdiv. cbn [bx by_ inf sup vx vy l_v l_p].
    rewrite (Reqb_false 1 0), (Reqb_false (1 - 0) 0) by lra. cbn [bind].
    rewrite (Rabs_pos_eq (1 / 1)) by lra. rewrite Rltb_false by lra. do 3 f_equal; field.
  - exists (/ 4). cbn [l_p l_v vx vy]. split; lra.
  - unfold in_box. cbn [bx by_ inf sup vx vy]. lra.
Qed.

Lemma distances l s : compute_distance l s = if (length s <? 2)%nat then Ok [] else Raise TypeError.
Proof. destruct s as [|a [|b s]]; reflexivity. Qed.

(** ** Numbers *)
Lemma Int_part_bounds x : IZR (Int_part x) <= x < IZR (Int_part x) + 1.
Proof. destruct (base_Int_part x). lra. Qed.
Lemma nearest_unique n m x : nearest_even n x -> nearest_even m x -> n = m.
Proof.
  assert (H : forall n m, nearest_even n x -> nearest_even m x -> (n <= m)%Z).
  { clear. intros n m Hn Hm. destruct (Z_le_gt_dec n m) as [L|L]; [exact L|]. exfalso.
    assert (G : IZR m + 1 <= IZR n) by (rewrite <- plus_IZR; apply IZR_le; lia).
    assert (An : Rabs (x - IZR n) <= / 2) by (destruct Hn as [|[]]; lra).
    assert (Am : Rabs (x - IZR m) <= / 2) by (destruct Hm as [|[]]; lra).
    apply Rabs_le_inv in An. apply Rabs_le_inv in Am.
    assert (E : IZR n = IZR m + 1) by lra. rewrite <- plus_IZR in E. apply eq_IZR in E.
    assert (Hx : x - IZR m = / 2) by lra. assert (Hx' : x - IZR n = - / 2) by lra.
    destruct Hn as [Hn|[_ Hn]]; [rewrite Hx', Rabs_Ropp, Rabs_pos_eq in Hn; lra|].
    destruct Hm as [Hm|[_ Hm]]; [rewrite Hx, Rabs_pos_eq in Hm; lra|].
    subst n. rewrite Z.add_1_r, Z.even_succ, <- Z.negb_even, Hm in Hn. discriminate Hn. }
  intros. apply Z.le_antisymm; apply H; assumption.
Qed.
Lemma round_nearest x : nearest_even (round_even x) x.
Proof.
  unfold round_even, nearest_even. pose proof (Int_part_bounds x) as B. set (n := Int_part x) in *.
  destruct (Rltb_spec (x - IZR n) (/ 2)) as [L|L]; [left; rewrite Rabs_pos_eq; lra|].
  destruct (Rltb_spec (/ 2) (x - IZR n)) as [G|G].
  - left. rewrite plus_IZR, Rabs_left by lra. lra.
  - destruct (Z.even n) eqn:E; right.
    + split; [rewrite Rabs_pos_eq; lra|exact E].
    + split; [rewrite plus_IZR, Rabs_left by lra; lra|]. rewrite Z.add_1_r, Z.even_succ, <- Z.negb_even, E. reflexivity.
Qed.
Lemma rint_iff x n : rint x = n <-> nearest_even n x.
Proof. unfold rint. split; [intros <-; apply round_nearest|]. intro H. exact (nearest_unique _ _ x (round_nearest x) H). Qed.
Lemma vrint_iff v n m : vrint v = (n, m) <-> nearest_even n (vx v) /\ nearest_even m (vy v).
Proof.
  unfold vrint. split.
  - intro H. injection H as <- <-. split; apply round_nearest.
  - intros [H1 H2]. apply rint_iff in H1. apply rint_iff in H2. unfold rint in *. congruence.
Qed.
Lemma ceil_iff x n : ceil_int x = n <-> x <= IZR n < x + 1.
Proof.
  unfold ceil_int. pose proof (Int_part_bounds (- x)) as B. split.
  - intros <-. rewrite opp_IZR. lra.
  - intro H. set (m := Int_part (- x)) in *.
    assert (n + m < 1)%Z by (apply lt_IZR; rewrite plus_IZR; lra).
    assert (-1 < n + m)%Z by (apply lt_IZR; rewrite plus_IZR; lra). lia.
Qed.
Lemma cmp_iff a b : (cmp a b = 1%Z <-> b < a) /\ (cmp a b = 0%Z <-> a = b) /\ (cmp a b = (-1)%Z <-> a < b).
Proof.
  unfold cmp. destruct (Rltb_spec b a), (Rltb_spec a b); cbn; repeat split; intro; try lia; try lra; try discriminate; reflexivity.
Qed.
Lemma clamp_spec x : let y := trignometric_clamp x in
  -1 <= y <= 1 /\ (-1 <= x <= 1 -> y = x) /\ (forall z, -1 <= z <= 1 -> Rabs (x - y) <= Rabs (x - z)) /\
  is_in_trignometric_range y = true.
Proof.
  unfold trignometric_clamp, is_in_trignometric_range. cbn zeta.
  destruct (Rltb_spec 1 x) as [H|H]; [|destruct (Rltb_spec x (-1)) as [G|G]].
  - repeat split; try lra; [|rewrite !Rleb_true by lra; reflexivity]. intros z Z. rewrite !Rabs_pos_eq by lra. lra.
  - repeat split; try lra; [|rewrite !Rleb_true by lra; reflexivity]. intros z Z. rewrite !Rabs_left1 by lra. lra.
  - repeat split; try lra; [|rewrite !Rleb_true by lra; reflexivity]. intros z Z.
    replace (x - x) with 0 by ring. rewrite Rabs_R0. apply Rabs_pos.
Qed.
Lemma close_iff v1 v2 rtol atol : almost_equal v1 v2 rtol atol = true <->
  Rabs (vx v1 - vx v2) <= atol + rtol * Rabs (vx v2) /\ Rabs (vy v1 - vy v2) <= atol + rtol * Rabs (vy v2).
Proof.
  unfold almost_equal, isclose. rewrite andb_true_iff.
  destruct (Rleb_spec (Rabs (vx v1 - vx v2)) (atol + rtol * Rabs (vx v2))), (Rleb_spec (Rabs (vy v1 - vy v2)) (atol + rtol * Rabs (vy v2)));
    split; intros [? ?]; try discriminate; try lra; auto.
Qed.
Lemma close_refl v rtol atol : 0 <= rtol -> 0 <= atol -> almost_equal v v rtol atol = true.
Proof.
  intros H1 H2. apply close_iff. unfold Rminus. rewrite !Rplus_opp_r, Rabs_R0.
  pose proof (Rabs_pos (vx v)). pose proof (Rabs_pos (vy v)). split; nra.
Qed.
Lemma close_asym : let rtol := / 100000 in let atol := / 100000000 in let a := V 100000 0 in let b := V (100001 + / 100000) 0 in
  almost_equal a b rtol atol = true /\ almost_equal b a rtol atol = false.
Proof.
  cbn zeta. split.
  - apply close_iff. cbn [vx vy]. split; [rewrite Rabs_left by lra; rewrite Rabs_pos_eq by lra; lra|].
    rewrite Rminus_0_r, Rabs_R0. lra.
  - unfold almost_equal, isclose. cbn [vx vy]. rewrite Rleb_false; [reflexivity|].
    rewrite !Rabs_pos_eq by lra. lra.
Qed.

Lemma epsilon_iff : forall a b e, epsilon_float a b e = true <-> - e <= a - b <= e.
Proof.
  intros a b e. unfold epsilon_float, Rleb. destruct (Rle_dec (Rabs (a - b)) e) as [H|H]; split; intro G; try reflexivity; try discriminate.
  - unfold Rabs in H. destruct (Rcase_abs (a - b)); lra.
  - exfalso. apply H. unfold Rabs. destruct (Rcase_abs (a - b)); lra.
Qed.

Lemma range_iff : forall x, is_in_trignometric_range x = true <-> -1 <= x <= 1.
Proof.
  intro x. unfold is_in_trignometric_range, Rleb. destruct (Rle_dec (-1) x), (Rle_dec x 1); cbn; split; intro G; try reflexivity; try discriminate; lra.
Qed.

Lemma directions_decide : forall t a b c,
  orientation (vsub (tri1 t) (tri0 t)) = Ok a -> orientation (vsub (tri2 t) (tri1 t)) = Ok b -> orientation (vsub (tri0 t) (tri2 t)) = Ok c ->
  (is_obtuse repaired_angle t = Ok true <-> 90 < a \/ 90 < b \/ 90 < c) /\
  (is_acute repaired_angle t = Ok true <-> a < 90 /\ b < 90 /\ c < 90).
Proof.
  intros t a b c A B C. unfold is_obtuse, is_acute, repaired_angle. rewrite A, B, C. cbn [bind p10 p21 p02].
  pose proof (Rmax_l (Rmax a b) c) as L1. pose proof (Rmax_r (Rmax a b) c) as L2. pose proof (Rmax_l a b) as L3. pose proof (Rmax_r a b) as L4.
  assert (M : Rmax (Rmax a b) c = a \/ Rmax (Rmax a b) c = b \/ Rmax (Rmax a b) c = c).
  { unfold Rmax. destruct (Rle_dec a b); destruct (Rle_dec _ c); auto. }
  generalize dependent (Rmax (Rmax a b) c). intros m L1 L2 M. generalize dependent (Rmax a b). intros.
  unfold Rltb. destruct (Rlt_dec 90 m), (Rlt_dec m 90); split; split; intro G; try reflexivity; try discriminate; lra.
Qed.
