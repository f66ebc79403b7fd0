(** C158: parallel and perpendicular lines at a point.  C159: reflections, the screen and the list of nine numbers.
    More on C12 and C25. *)
From Coq Require Import Reals Lra Lia List ZArith Bool.
From Verif Require Import Base ModelVector SpecVector ProofVector ModelLine SpecLine ProofLine ModelTransformation.
Import ListNotations.
Local Open Scope R_scope.

(** The parallel at a point is the line of the points that differ from it by a multiple of the direction. *)
Theorem C158_parallel : forall l p q,
  on_line (parallel_line_at l p) q <-> exists a b, on_line l a /\ on_line l b /\ vsub q p = vsub b a.
Proof.
  intros [a v] p q. unfold parallel_line_at, on_line, vsub. cbn. split.
  - intros (s & X & Y). exists a, (V (vx a + s * vx v) (vy a + s * vy v)).
    split; [exists 0; lra|]. split; [exists s; cbn; auto|]. apply vec_eq; cbn; lra.
  - intros (b & c & (s & X1 & Y1) & (t & X2 & Y2) & E). injection E as X Y. exists (t - s). split; nra.
Qed.
Print Assumptions C158_parallel.

(** A parallel never crosses the line, as far as the program says. *)
Theorem C158_parallel_never_meets : forall l p, line_intersection l (parallel_line_at l p) = Ok None.
Proof.
  intros l p. apply line_intersection_parallel. apply cross_collinear. unfold cross. cbn. ring.
Qed.
Print Assumptions C158_parallel_never_meets.

(** The perpendicular at a point: all the points whose difference to it is at a right angle with the line. *)
Theorem C158_orthogonal : forall l p q, ~ null (l_v l) ->
  (on_line (orthogonal_line_at l p) q <-> perpendicular (vsub q p) (l_v l)).
Proof.
  intros [a v] p q N. unfold orthogonal_line_at, on_line, perpendicular, normal, vsub. cbn in *.
  assert (0 < vx v * vx v + vy v * vy v) by (apply Rnot_le_lt; intro; apply N; split; nra).
  split.
  - intros (s & X & Y). nra.
  - intros E. exists (((vy q - vy p) * vx v - (vx q - vx p) * vy v) / (vx v * vx v + vy v * vy v)).
    set (n := vx v * vx v + vy v * vy v) in *. set (dx := vx q - vx p) in *. set (dy := vy q - vy p) in *.
    assert (X : dx = (dy * vx v - dx * vy v) / n * - vy v).
    { apply Rmult_eq_reg_r with n; [|lra]. transitivity (- vy v * (dy * vx v - dx * vy v)); [|field; lra].
      transitivity (vx v * (dx * vx v + dy * vy v) + (- vy v * (dy * vx v - dx * vy v))); [unfold n; ring|rewrite E; ring]. }
    assert (Y : dy = (dy * vx v - dx * vy v) / n * vx v).
    { apply Rmult_eq_reg_r with n; [|lra]. transitivity (vx v * (dy * vx v - dx * vy v)); [|field; lra].
      transitivity (vy v * (dx * vx v + dy * vy v) + (vx v * (dy * vx v - dx * vy v))); [unfold n; ring|rewrite E; ring]. }
    unfold dx, dy in *. lra.
Qed.
Print Assumptions C158_orthogonal.

(** The perpendicular at an abscissa is the one at the point of that abscissa. *)
Theorem C158_orthogonal_at_abscissa : forall l s q, ~ null (l_v l) ->
  (on_line (orthogonal_line_at_abscissa l s) q <->
   perpendicular (vsub q (V (vx (l_p l) + s * vx (l_v l)) (vy (l_p l) + s * vy (l_v l)))) (l_v l)).
Proof.
  intros l s q N. rewrite <- (C158_orthogonal l _ q N).
  replace (V (vx (l_p l) + s * vx (l_v l)) (vy (l_p l) + s * vy (l_v l))) with (line_interpolate l s)
     by (apply vec_eq; cbn; ring). reflexivity.
Qed.
Print Assumptions C158_orthogonal_at_abscissa.

Lemma cross_normal v : crossv v (normal v) = vx v * vx v + vy v * vy v.
Proof. unfold crossv, normal. cbn. ring. Qed.

(** The line and its perpendicular at a point cross at the nearest point of the line, whatever the length of the direction
    above the tolerance. *)
Theorem C158_foot_partial : forall l p, 5 / 10 ^ 8 < len (l_v l) * len (l_v l) ->
  exists q, line_intersection l (orthogonal_line_at l p) = Ok (Some q) /\ on_line l q /\
    perpendicular (V (vx p - vx q) (vy p - vy q)) (l_v l) /\ min_distance (on_line l) p (dist p q).
Proof.
  intros l p H. unfold len in H. rewrite sqrt_sqrt in H by nra.
  destruct (line_intersection_ok l (orthogonal_line_at l p)) as (q & E & Q).
  { cbn [orthogonal_line_at l_v]. rewrite cross_normal, Rabs_right; lra. }
  destruct (proj2 (Q q) eq_refl) as [L O].
  assert (N : ~ null (l_v l)) by (intros [N1 N2]; rewrite N1, N2 in H; lra).
  apply (C158_orthogonal l p q N) in O.
  assert (P : perpendicular (V (vx p - vx q) (vy p - vy q)) (l_v l)).
  { unfold perpendicular, vsub in *. cbn in *. lra. }
  exists q. split; [exact E|]. split; [exact L|]. split; [exact P|]. split; [exists q; auto|].
  intros r (s & X & Y). destruct L as (t & X' & Y'). unfold perpendicular in P. cbn in P.
  unfold dist. apply sqrt_le_1_alt. rewrite X, Y, X', Y' in *.
  set (a := vx (l_v l)) in *. set (b := vy (l_v l)) in *.
  set (d := vx p - (vx (l_p l) + t * a)) in *. set (e := vy p - (vy (l_p l) + t * b)) in *.
  replace (vx p - (vx (l_p l) + s * a)) with (d + (t - s) * a) by (unfold d; ring).
  replace (vy p - (vy (l_p l) + s * b)) with (e + (t - s) * b) by (unfold e; ring).
  pose proof (Rle_0_sqr ((t - s) * a)) as S1. pose proof (Rle_0_sqr ((t - s) * b)) as S2. unfold Rsqr in S1, S2.
  assert ((t - s) * (d * a + e * b) = 0) by (rewrite P; ring). nra.
Qed.
Print Assumptions C158_foot_partial.

(** With a short direction the line and its own perpendicular are said to be parallel. *)
Theorem C158_foot_refuted : forall l p, len (l_v l) * len (l_v l) <= 5 / 10 ^ 8 ->
  line_intersection l (orthogonal_line_at l p) = Ok None.
Proof.
  intros l p H. unfold len in H. rewrite sqrt_sqrt in H by nra.
  unfold line_intersection, intersection_abscissae, is_parallel_cross, is_parallel, round7_is_zero.
  cbn [orthogonal_line_at l_v]. change (cross (l_v l) (normal (l_v l))) with (crossv (l_v l) (normal (l_v l))).
  rewrite cross_normal, Rabs_right by nra. rewrite (Rleb_true _ _ H). reflexivity.
Qed.
Print Assumptions C158_foot_refuted.

Example C158_case : 5 / 10 ^ 8 < len (V 2 0) * len (V 2 0) /\
  line_intersection (Ln (V 0 1) (V 2 0)) (orthogonal_line_at (Ln (V 0 1) (V 2 0)) (V 3 5)) = Ok (Some (V 3 1)).
Proof.
  assert (H : 5 / 10 ^ 8 < len (V 2 0) * len (V 2 0)) by (unfold len; rewrite sqrt_sqrt; cbn; lra).
  split; [exact H|]. destruct (C158_foot_partial (Ln (V 0 1) (V 2 0)) (V 3 5) H) as (q & -> & (s & X & Y) & P & _).
  unfold perpendicular in P. cbn in *. do 2 f_equal. apply vec_eq; cbn; lra.
Qed.
Example C158_short_case : len (V (1/10000) 0) * len (V (1/10000) 0) <= 5 / 10 ^ 8 /\ ~ null (V (1/10000) 0).
Proof. split; [unfold len; rewrite sqrt_sqrt; cbn; lra|intros [N _]; cbn in N; lra]. Qed.

Theorem C25_right_of : forall s p, right_of s p = true <-> crossv (s_vector s) (vsub p (s_p0 s)) < 0.
Proof. intros s p. unfold right_of. change (crossv (s_vector s) (vsub p (s_p0 s))) with (side_of s p).
  destruct (Rltb_spec (side_of s p) 0); split; intro; auto; try discriminate; lra. Qed.
Print Assumptions C25_right_of.

(** Exactly one of the three answers holds. *)
Theorem C25_one_side : forall s p,
  (left_of s p = true /\ right_of s p = false /\ is_collinear s p = false) \/
  (left_of s p = false /\ right_of s p = true /\ is_collinear s p = false) \/
  (left_of s p = false /\ right_of s p = false /\ is_collinear s p = true).
Proof.
  intros s p. unfold left_of, right_of, is_collinear. set (x := side_of s p).
  destruct (Rltb_spec 0 x), (Rltb_spec x 0), (Reqb_spec x 0); auto; lra.
Qed.
Print Assumptions C25_one_side.

Theorem C12_permute : forall a, permute a = V (vy a) (vx a) /\ permute (permute a) = a /\ len (permute a) = len a.
Proof. intros [x y]. unfold permute, len. cbn. split; [reflexivity|]. split; [reflexivity|]. f_equal. ring. Qed.
Print Assumptions C12_permute.

(** C159 *)
Theorem C159_reflections : exists p x y, parity2 = Ok p /\ xreflection2 = Ok x /\ yreflection2 = Ok y /\
  forall a b, apply2 p (V a b) = V (- a) (- b) /\ apply2 x (V a b) = V (- a) b /\ apply2 y (V a b) = V a (- b).
Proof.
  unfold parity2, xreflection2, yreflection2, scale2, type_for_scale.
  destruct (Reqb_spec (-1) (-1)); [|lra]. destruct (Reqb_spec (-1) 1); [lra|]. destruct (Reqb_spec 1 (-1)); [lra|].
  destruct (Reqb_spec 1 1); [|lra]. cbn.
  do 3 eexists. do 3 (split; [reflexivity|]). intros a b. unfold apply2. cbn. repeat split; apply vec_eq; cbn; ring.
Qed.
Print Assumptions C159_reflections.

(** The two reflections make the symmetry around the origin, in either order. *)
Theorem C159_reflections_compose : forall x y, xreflection2 = Ok x -> yreflection2 = Ok y ->
  forall v, apply2 x (apply2 y v) = parity v /\ apply2 y (apply2 x v) = parity v.
Proof.
  intros x y X Y v. destruct C159_reflections as (p & x' & y' & _ & X' & Y' & A).
  rewrite X in X'. injection X' as <-. rewrite Y in Y'. injection Y' as <-. destruct v as [a b].
  destruct (A a b) as (_ & -> & ->). split; apply A.
Qed.
Print Assumptions C159_reflections_compose.

(** The change to the axes of a screen: the ordinate counts from the other side, and twice is nothing. *)
Theorem C159_screen : forall h a b, apply (screen h) (V a b) = V a (h - b) /\
  apply (screen h) (apply (screen h) (V a b)) = V a b /\ apply (mul (screen h) (screen h)) (V a b) = V a b.
Proof.
  intros h a b. unfold apply, mul, new, screen. cbn. repeat split; apply vec_eq; cbn; ring.
Qed.
Print Assumptions C159_screen.

(** Nine numbers are read row by row; any other count is refused. *)
Theorem C159_nine_numbers : forall l, (exists t, of_list l = Ok t) <-> length l = 9%nat.
Proof.
  intros l. unfold of_list. split.
  - intros (t & E). do 9 (destruct l as [|? l]; [discriminate|]). destruct l; [reflexivity|discriminate].
  - intros E. do 9 (destruct l as [|? l]; [discriminate|]). destruct l; [eauto|discriminate].
Qed.
Print Assumptions C159_nine_numbers.
Theorem C159_rows : forall a b c d e f g h i t x y, of_list [a; b; c; d; e; f; g; h; i] = Ok t ->
  apply t (V x y) = V (a * x + b * y + c) (d * x + e * y + f).
Proof. intros a b c d e f g h i t x y E. injection E as <-. unfold apply. cbn. apply vec_eq; cbn; ring. Qed.
Print Assumptions C159_rows.
Example C159_case : exists t, of_list [1; 2; 3; 4; 5; 6; 0; 0; 1] = Ok t /\ apply t (V 1 1) = V 6 15.
Proof. eexists. split; [reflexivity|]. unfold apply. cbn. apply vec_eq; cbn; ring. Qed.
