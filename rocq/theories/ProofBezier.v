(** Lemmas on Bezier curves. *)
From Coq Require Import Bool Reals List ZArith Lra Lia Psatz.
From Coquelicot Require Import Coquelicot.
From Verif Require Import Base ModelVector SpecVector ProofVector ModelRoot ProofRoot ModelLine
  SpecLine ProofLine ProofSegment ModelBezier SpecBezier.
Import ListNotations.
Local Open Scope R_scope.

Definition quad_points (c : quadratic) := [q0 c; q1 c; q2 c].
Definition cubic_points (c : cubic) := [c0 c; c1 c; c2 c; c3p c].

Lemma INR_unbounded x : exists n, x < INR n.
Proof.
  destruct (archimed x) as [H _]. exists (Z.to_nat (up x)). rewrite INR_IZR_INZ.
  destruct (Z_le_dec 0 (up x)).
  - rewrite Z2Nat.id by auto. exact H.
  - apply Rlt_le_trans with (IZR (up x)); [exact H|]. apply IZR_le. lia.
Qed.

(** ** Evaluation *)

Lemma quad_eval c t : quad_point_at_t c t = bezier (quad_points c) t.
Proof. apply vec_eq; cbn; ring. Qed.
Lemma cubic_eval c t : cubic_point_at_t c t = bezier (cubic_points c) t.
Proof. apply vec_eq; cbn; ring. Qed.

Lemma C_2 : Binomial.C 2 0 = 1 /\ Binomial.C 2 1 = 2 /\ Binomial.C 2 2 = 1.
Proof. unfold Binomial.C; simpl. repeat split; field. Qed.
Lemma C_3 : Binomial.C 3 0 = 1 /\ Binomial.C 3 1 = 3 /\ Binomial.C 3 2 = 3 /\ Binomial.C 3 3 = 1.
Proof. unfold Binomial.C; simpl. repeat split; field. Qed.

Lemma quad_bernstein c t : quad_point_at_t c t =
  V (bernstein_sum (map vx (quad_points c)) t) (bernstein_sum (map vy (quad_points c)) t).
Proof.
  destruct C_2 as (A & B & D). apply vec_eq; unfold bernstein_sum, bernstein; cbn [map quad_points length Nat.sub sum_f_R0 nth vx vy];
  rewrite A, B, D; cbn; ring.
Qed.
Lemma cubic_bernstein c t : cubic_point_at_t c t =
  V (bernstein_sum (map vx (cubic_points c)) t) (bernstein_sum (map vy (cubic_points c)) t).
Proof.
  destruct C_3 as (A & B & D & F). apply vec_eq; unfold bernstein_sum, bernstein; cbn [map cubic_points length Nat.sub sum_f_R0 nth vx vy];
  rewrite A, B, D, F; cbn; ring.
Qed.

Lemma quad_ends c : quad_point_at_t c 0 = q0 c /\ quad_point_at_t c 1 = q2 c.
Proof. split; apply vec_eq; cbn; ring. Qed.
Lemma cubic_ends c : cubic_point_at_t c 0 = c0 c /\ cubic_point_at_t c 1 = c3p c.
Proof. split; apply vec_eq; cbn; ring. Qed.

Lemma quad_velocity c t : velocity (quad_point_at_t c) t (vscale (quad_tangent_at c t) 2).
Proof. split; apply is_derive_Reals; cbn; auto_derive; auto; cbn; ring. Qed.
Lemma cubic_velocity c t : velocity (cubic_point_at_t c) t (vscale (cubic_tangent_at c t) 3).
Proof. split; apply is_derive_Reals; cbn; auto_derive; auto; cbn; ring. Qed.

Lemma to_cubic_ok c : exists d, to_cubic c = Ok d /\
  forall t, cubic_point_at_t d t = quad_point_at_t c t.
Proof.
  unfold to_cubic, vdiv. rewrite Reqb_false by lra. cbn [bind].
  eexists; split; [reflexivity|]. intros t. apply vec_eq; cbn; field.
Qed.

Lemma quad_tangent0_ok c : q0 c <> q1 c -> exists w, quad_tangent0 c = Ok w /\ len w = 1 /\
  exists k, 0 < k /\ velocity (quad_point_at_t c) 0 (vscale w k).
Proof.
  intros N. assert (M : ~ null (vsub (q1 c) (q0 c))).
  { intros [X Y]. apply N. unfold vsub in X, Y; simpl in X, Y. apply vec_eq; lra. }
  destruct (normalise_ok _ M) as (w & E & L & X & Y). exists w. split; [exact E|]. split; [exact L|].
  exists (2 * len (vsub (q1 c) (q0 c))). split; [pose proof (len_pos _ M); lra|].
  replace (vscale w (2 * len (vsub (q1 c) (q0 c)))) with (vscale (quad_tangent_at c 0) 2); [apply quad_velocity|].
  apply vec_eq; unfold vscale, quad_tangent_at, vadd, vscale, vsub in *; cbn in *; lra.
Qed.

Lemma cubic_tangent1_ok c : c2 c <> c3p c -> exists w, cubic_tangent1 c = Ok w /\ len w = 1 /\
  exists k, 0 < k /\ velocity (cubic_point_at_t c) 1 (vscale w k).
Proof.
  intros N. assert (M : ~ null (vsub (c3p c) (c2 c))).
  { intros [X Y]. apply N. unfold vsub in X, Y; simpl in X, Y. apply vec_eq; lra. }
  destruct (normalise_ok _ M) as (w & E & L & X & Y). exists w. split; [exact E|]. split; [exact L|].
  exists (3 * len (vsub (c3p c) (c2 c))). split; [pose proof (len_pos _ M); lra|].
  replace (vscale w (3 * len (vsub (c3p c) (c2 c)))) with (vscale (cubic_tangent_at c 1) 3); [apply cubic_velocity|].
  apply vec_eq; unfold vscale, cubic_tangent_at, vadd, vscale, vsub in *; cbn in *; lra.
Qed.

(** ** Splitting *)

Lemma cubic_split_ok c t : forall s,
  cubic_point_at_t (fst (cubic_split_at_t c t)) s = cubic_point_at_t c (t * s) /\
  cubic_point_at_t (snd (cubic_split_at_t c t)) s = cubic_point_at_t c (t + (1 - t) * s).
Proof. intros s. split; apply vec_eq; cbn; ring. Qed.

Lemma quad_split_ok c t : 0 < t < 1 -> exists l r, quad_split_at_t c t = (Some l, Some r) /\
  forall s, quad_point_at_t l s = quad_point_at_t c (t * s) /\
            quad_point_at_t r s = quad_point_at_t c (t + (1 - t) * s).
Proof.
  intros H. unfold quad_split_at_t. rewrite !Rleb_false by lra. do 2 eexists. split; [reflexivity|].
  intros s. split; apply vec_eq; cbn; ring.
Qed.

Lemma quad_split_out c t : (t <= 0 -> quad_split_at_t c t = (None, Some c)) /\
  (1 <= t -> quad_split_at_t c t = (Some c, None)).
Proof.
  unfold quad_split_at_t. split; intros.
  - rewrite Rleb_true; auto.
  - rewrite Rleb_false, Rleb_true by lra. auto.
Qed.

Lemma cubic_split_two_ok c t1 t2 : t1 <> t2 -> Rmax t1 t2 <= 1 ->
  exists d, cubic_split_at_two_t c t1 t2 = Ok (PCurve d) /\
  forall s, cubic_point_at_t d s =
    cubic_point_at_t c (Rmin t1 t2 + (Rmax t1 t2 - Rmin t1 t2) * s).
Proof.
  intros N M. unfold cubic_split_at_two_t. rewrite Reqb_false by auto.
  assert (K : forall a b, a < b -> b <= 1 ->
    exists d, (let curve := snd (cubic_split_at_t c a) in
    if Rltb b 1 then bind (fdiv (b - a) (1 - a)) (fun t => Ok (PCurve (fst (cubic_split_at_t curve t))))
    else Ok (PCurve curve)) = Ok (PCurve d) /\
    forall s, cubic_point_at_t d s = cubic_point_at_t c (a + (b - a) * s)).
  { intros a b L U. destruct (Rltb_spec b 1) as [B|B].
    - rewrite fdiv_ok by lra. cbn [bind]. eexists. split; [reflexivity|]. intros s.
      destruct (cubic_split_ok (snd (cubic_split_at_t c a)) ((b - a) / (1 - a)) s) as [-> _].
      destruct (cubic_split_ok c a ((b - a) / (1 - a) * s)) as [_ ->]. f_equal. field. lra.
    - eexists. split; [reflexivity|]. intros s.
      destruct (cubic_split_ok c a s) as [_ ->]. f_equal. replace b with 1 by lra. ring. }
  destruct (Rltb_spec t2 t1) as [L|L].
  - rewrite Rmax_left in M by lra. rewrite Rmax_left, Rmin_right by lra. apply K; lra.
  - rewrite Rmax_right in M by lra. rewrite Rmax_right, Rmin_left by lra. apply K; lra.
Qed.

Lemma quad_split_two_ok c t1 t2 : t1 <> t2 -> 0 <= Rmin t1 t2 -> Rmax t1 t2 <= 1 ->
  exists d, quad_split_at_two_t c t1 t2 = Ok (PCurve d) /\
  forall s, quad_point_at_t d s =
    quad_point_at_t c (Rmin t1 t2 + (Rmax t1 t2 - Rmin t1 t2) * s).
Proof.
  intros N Z M. unfold quad_split_at_two_t. rewrite Reqb_false by auto.
  assert (K : forall a b, 0 <= a -> a < b -> b <= 1 ->
    exists d, (let curve := snd (quad_split_at_t c a) in
    if Rltb b 1 then bind (fdiv (b - a) (1 - a)) (fun t => match curve with
       | None => Raise AttributeError
       | Some curve => match fst (quad_split_at_t curve t) with None => Ok PNone | Some c => Ok (PCurve c) end end)
    else match curve with None => Ok PNone | Some c => Ok (PCurve c) end) = Ok (PCurve d) /\
    forall s, quad_point_at_t d s = quad_point_at_t c (a + (b - a) * s)).
  { intros a b P L U.
    assert (E : exists r, snd (quad_split_at_t c a) = Some r /\
      forall s, quad_point_at_t r s = quad_point_at_t c (a + (1 - a) * s)).
    { destruct (Rle_lt_dec a 0).
      - replace a with 0 by lra. destruct (quad_split_out c 0) as [E _]. rewrite E by lra.
        exists c. split; [reflexivity|]. intros; f_equal; ring.
      - destruct (quad_split_ok c a) as (l & r' & E & S); [lra|]. rewrite E. exists r'. split; [reflexivity|].
        intros s. apply S. }
    destruct E as (r & E & S). cbv zeta. rewrite E.
    destruct (Rltb_spec b 1) as [B|B].
    - rewrite fdiv_ok by lra. cbn [bind].
      assert (T : 0 < (b - a) / (1 - a) < 1).
      { split. apply Rdiv_lt_0_compat; lra. apply Rmult_lt_reg_r with (1 - a); [lra|].
        replace ((b - a) / (1 - a) * (1 - a)) with (b - a) by (field; lra). lra. }
      destruct (quad_split_ok r _ T) as (l & r' & E' & S'). rewrite E'. cbn [fst].
      eexists. split; [reflexivity|]. intros s. destruct (S' s) as [-> _]. rewrite S. f_equal. field. lra.
    - eexists. split; [reflexivity|]. intros s. rewrite S. f_equal. replace b with 1 by lra. ring. }
  destruct (Rltb_spec t2 t1) as [L|L].
  - rewrite Rmax_left in M by lra. rewrite Rmin_right in Z by lra. rewrite Rmax_left, Rmin_right by lra. apply K; lra.
  - rewrite Rmax_right in M by lra. rewrite Rmin_left in Z by lra. rewrite Rmax_right, Rmin_left by lra. apply K; lra.
Qed.

(** ** Length of a quadratic curve *)

Section Length.
Context (a b c : R) (Hc : 0 < c).
Let f t := c * (t * t) + b * t + a.
Let q := 4 * a * c - b * b.
Let g t := 2 * sqrt c * sqrt (f t) + (2 * c * t + b).
Let F t := (2 * c * t + b) / (4 * c) * sqrt (f t) + q / (8 * (c * sqrt c)) * ln (g t).

Lemma F_derive t : 0 < f t -> 0 < g t -> is_derive F t (sqrt (f t)).
Proof.
  intros P G. unfold F, g, f in *. auto_derive.
  - repeat split; auto; lra.
  - set (s := sqrt (c * (t * t) + b * t + a)) in *. set (k := sqrt c) in *.
    assert (Hs : 0 < s) by (apply sqrt_lt_R0; auto).
    assert (Hk : 0 < k) by (apply sqrt_lt_R0; auto).
    assert (Ss : s * s = c * (t * t) + b * t + a) by (apply sqrt_sqrt; lra).
    assert (Sk : k * k = c) by (apply sqrt_sqrt; lra).
    clearbody s k. unfold q.
    assert (G' : 2 * k * s + (2 * c * t + b) <> 0) by lra.
    match goal with |- ?x = _ => transitivity (s / 2 + (2 * c * t + b) * (2 * c * t + b) / (8 * c * s) + (4 * a * c - b * b) / (8 * c * s)) end.
    + assert (E : 2 * k * (1 * (c * (1 * t + t * 1) + b * 1 + 0) * / (2 * s)) + 2 * c = (k / s) * (2 * k * s + (2 * c * t + b))).
      { rewrite <- Sk. field. lra. }
      replace ((4 * a * c - b * b) / (8 * c * s)) with ((4 * a * c - b * b) / (8 * (c * k)) * (((k / s) * (2 * k * s + (2 * c * t + b))) * / (2 * k * s + (2 * c * t + b)))) by (field; repeat split; lra).
      rewrite <- E. field. repeat split; lra.
    + replace (s / 2 + (2 * c * t + b) * (2 * c * t + b) / (8 * c * s) + (4 * a * c - b * b) / (8 * c * s)) with
        (s / 2 + (c * (t * t) + b * t + a) / (2 * s)) by (field; lra).
      rewrite <- Ss. field. lra.
Qed.

Lemma length_RInt : (forall t, 0 <= t <= 1 -> 0 < f t /\ 0 < g t) ->
  is_RInt (fun t => sqrt (f t)) 0 1 (F 1 - F 0).
Proof.
  intros H. apply (is_RInt_derive F (fun t => sqrt (f t))).
  - intros t Ht. rewrite Rmin_left, Rmax_right in Ht by lra. destruct (H t Ht). apply F_derive; auto.
  - intros t Ht. rewrite Rmin_left, Rmax_right in Ht by lra. destruct (H t Ht).
    apply (ex_derive_continuous (V := R_NormedModule)). unfold f in *. auto_derive. auto.
Qed.

Lemma positive_case : 0 < q -> forall t, 0 < f t /\ 0 < g t.
Proof.
  intros Q t. assert (P : 0 < f t).
  { unfold f. apply Rmult_lt_reg_l with (4 * c); [lra|]. rewrite Rmult_0_r.
    replace (4 * c * (c * (t * t) + b * t + a)) with ((2 * c * t + b) * (2 * c * t + b) + q) by (unfold q; ring).
    pose proof (Rle_0_sqr (2 * c * t + b)); unfold Rsqr in *; lra. }
  split; auto. unfold g. rewrite (Rmult_assoc 2). assert (0 < sqrt c * sqrt (f t)) by (apply Rmult_lt_0_compat; apply sqrt_lt_R0; auto).
  assert (E : (2 * (sqrt c * sqrt (f t))) * (2 * (sqrt c * sqrt (f t))) = (2 * c * t + b) * (2 * c * t + b) + q).
  { transitivity (4 * (sqrt c * sqrt c) * (sqrt (f t) * sqrt (f t))); [ring|]. rewrite !sqrt_sqrt by lra. unfold f, q. ring. }
  set (z := sqrt c * sqrt (f t)) in *. clearbody z.
  destruct (Rle_lt_dec 0 (2 * c * t + b)); [lra|].
  assert (- (2 * c * t + b) < 2 * z); [|lra].
  apply Rsqr_incrst_0; unfold Rsqr; lra.
Qed.

Lemma flat_case : q = 0 -> 0 < b -> forall t, 0 <= t <= 1 -> 0 < f t /\ 0 < g t.
Proof.
  intros Q B t Ht.
  assert (P : 0 < 2 * c * t + b) by nra.
  assert (0 < f t).
  { unfold f. apply Rmult_lt_reg_l with (4 * c); [lra|]. rewrite Rmult_0_r.
    replace (4 * c * (c * (t * t) + b * t + a)) with ((2 * c * t + b) * (2 * c * t + b) + q) by (unfold q; ring).
    rewrite Q. nra. }
  split; auto. unfold g. rewrite (Rmult_assoc 2). assert (0 < sqrt c * sqrt (f t)) by (apply Rmult_lt_0_compat; apply sqrt_lt_R0; auto). lra.
Qed.

Lemma F_difference : (0 <= f 0) -> (0 <= f 1) ->
  F 1 - F 0 = 1 / 4 / c * ((2 * c + b) * sqrt (f 1) - b * sqrt (f 0)) +
    q / (8 * (c * sqrt c)) * (ln (2 * sqrt (c * f 1) + (2 * c + b)) - ln (2 * sqrt (c * f 0) + b)).
Proof.
  intros H0 H1. unfold F, g. rewrite !sqrt_mult by lra.
  replace (2 * c * 1 + b) with (2 * c + b) by ring. replace (2 * c * 0 + b) with b by ring.
  rewrite !Rmult_assoc. set (x := ln _). set (y := ln _).
  assert (0 < sqrt c) by (apply sqrt_lt_R0; auto).
  field. split; lra.
Qed.

Lemma length_integral : (forall t, 0 <= t <= 1 -> 0 < f t /\ 0 < g t) ->
  is_RInt (fun t => sqrt (f t)) 0 1 (1 / 4 / c * ((2 * c + b) * sqrt (f 1) - b * sqrt (f 0)) +
    q / (8 * (c * sqrt c)) * (ln (2 * sqrt (c * f 1) + (2 * c + b)) - ln (2 * sqrt (c * f 0) + b))).
Proof.
  intros H. destruct (H 0), (H 1); try lra. rewrite <- F_difference by lra. apply length_RInt. exact H.
Qed.
End Length.

Lemma fpow_32 c : 0 < c -> fpow c (3 / 2) = c * sqrt c.
Proof.
  intros H. unfold fpow. replace (3 / 2) with (1 + / 2) by field.
  rewrite Rpower_plus, Rpower_1, Rpower_sqrt by auto. reflexivity.
Qed.

Definition a0 (c : quadratic) := vsub (q1 c) (q0 c).
Definition a1 (c : quadratic) := vadd (vsub (q0 c) (vscale (q1 c) 2)) (q2 c).

Lemma quad_speed c t : len (vscale (quad_tangent_at c t) 2) =
  sqrt (4 * dot (a1 c) (a1 c) * (t * t) + 8 * dot (a0 c) (a1 c) * t + 4 * dot (a0 c) (a0 c)).
Proof. unfold len. f_equal. unfold dot, a0, a1. cbn. ring. Qed.

(** the control points are aligned and the point moves backwards at first *)
(** [a0] is the start velocity (halved), [a1] the acceleration (halved). *)
Definition brakes (c : quadratic) : Prop :=
  ~ null (a1 c) /\ crossv (a0 c) (a1 c) = 0 /\ dot (a0 c) (a1 c) <= 0.

Lemma quad_length_ok c : ~ brakes c -> exists l, quad_length c = Ok l /\
  arc_length (quad_point_at_t c) l.
Proof.
  intros NB.
  assert (AL : forall l, is_RInt (fun t => sqrt (4 * dot (a1 c) (a1 c) * (t * t) + 8 * dot (a0 c) (a1 c) * t + 4 * dot (a0 c) (a0 c))) 0 1 l ->
     arc_length (quad_point_at_t c) l).
  { intros l H. exists (fun t => vscale (quad_tangent_at c t) 2). split; [intros; apply quad_velocity|].
    eapply is_RInt_ext; [|exact H]. intros t _. symmetry. apply quad_speed. }
  unfold quad_length. fold (a0 c). fold (a1 c). unfold magnitude_square.
  destruct (Reqb_spec (dot (a1 c) (a1 c)) 0) as [Z|Z]; cbn [negb].
  - eexists. split; [reflexivity|]. apply AL.
    assert (N : vx (a1 c) = 0 /\ vy (a1 c) = 0) by (apply sumsq0; exact Z).
    destruct N as [Nx Ny].
    eapply is_RInt_ext with (f := fun _ => 2 * magnitude (a0 c)).
    + intros t _. unfold dot. rewrite Nx, Ny. unfold magnitude, magnitude_square, dot.
      replace (4 * (0 * 0 + 0 * 0) * (t * t) + 8 * (vx (a0 c) * 0 + vy (a0 c) * 0) * t + 4 * (vx (a0 c) * vx (a0 c) + vy (a0 c) * vy (a0 c)))
        with (4 * (vx (a0 c) * vx (a0 c) + vy (a0 c) * vy (a0 c))) by ring.
      rewrite sqrt_mult by (try lra; apply sumsq_nonneg). f_equal. symmetry.
      replace 4 with (2 * 2) by ring. apply sqrt_square. lra.
    + pose proof (is_RInt_const (V := R_NormedModule) 0 1 (2 * magnitude (a0 c))) as I.
      change (scal (1 - 0) (2 * magnitude (a0 c))) with ((1 - 0) * (2 * magnitude (a0 c))) in I.
      replace ((1 - 0) * (2 * magnitude (a0 c))) with (2 * magnitude (a0 c)) in I by ring. exact I.
  - set (cc := 4 * dot (a1 c) (a1 c)). set (bb := 8 * dot (a0 c) (a1 c)). set (aa := 4 * dot (a0 c) (a0 c)).
    assert (Hc : 0 < cc).
    { unfold cc. pose proof (sumsq_nonneg (vx (a1 c)) (vy (a1 c))). unfold dot in *. lra. }
    assert (Q : 4 * aa * cc - bb * bb = 64 * (crossv (a0 c) (a1 c) * crossv (a0 c) (a1 c))).
    { unfold aa, bb, cc, dot, crossv. ring. }
    assert (H : forall t, 0 <= t <= 1 -> 0 < cc * (t * t) + bb * t + aa /\
      0 < 2 * sqrt cc * sqrt (cc * (t * t) + bb * t + aa) + (2 * cc * t + bb)).
    { destruct (Req_dec (crossv (a0 c) (a1 c)) 0) as [K|K].
      - assert (B : 0 < bb).
        { destruct (Rlt_le_dec 0 bb); auto. elim NB. split; [|split; auto].
          - intros [Nx Ny]. apply Z. unfold dot. rewrite Nx, Ny. ring.
          - unfold bb in *. lra. }
        intros t Ht. apply flat_case; auto. rewrite Q, K. ring.
      - intros t _. apply positive_case; auto. rewrite Q. pose proof (Rlt_0_sqr _ K). unfold Rsqr in *. lra. }
    pose proof (length_integral aa bb cc Hc H) as I. cbv beta in I.
    destruct (H 0) as [P0 G0]; [lra|]. destruct (H 1) as [P1 G1]; [lra|].
    replace (cc * (1 * 1) + bb * 1 + aa) with (cc + bb + aa) in * by ring.
    replace (cc * (0 * 0) + bb * 0 + aa) with aa in * by ring.
    replace (2 * cc * 1 + bb) with (2 * cc + bb) in * by ring.
    replace (2 * cc * 0 + bb) with bb in * by ring.
    rewrite (Rmult_assoc 2), <- sqrt_mult in G0 by lra. rewrite (Rmult_assoc 2), <- sqrt_mult in G1 by lra.
    rewrite fpow_32 by auto.
    assert (0 < sqrt cc) by (apply sqrt_lt_R0; auto).
    assert (0 < cc * sqrt cc) by (apply Rmult_lt_0_compat; auto).
    unfold fsqrt, flog.
    rewrite !fdiv_ok by lra. cbn [bind]. rewrite !Rltb_false by (try lra; apply Rmult_le_pos; lra). cbn [bind].
    rewrite !Rleb_false by lra. cbn [bind].
    eexists. split; [reflexivity|]. apply AL. fold aa bb cc. exact I.
Qed.

Lemma quad_length_brakes c : brakes c -> quad_length c = Raise ValueError.
Proof.
  intros (N & K & B). unfold quad_length. fold (a0 c). fold (a1 c). unfold magnitude_square.
  assert (Z : dot (a1 c) (a1 c) <> 0).
  { intros Z. apply N. apply sumsq0. exact Z. }
  rewrite Reqb_false by exact Z. cbn [negb].
  set (cc := 4 * dot (a1 c) (a1 c)). set (bb := 8 * dot (a0 c) (a1 c)). set (aa := 4 * dot (a0 c) (a0 c)).
  assert (Hc : 0 < cc).
  { unfold cc. pose proof (sumsq_nonneg (vx (a1 c)) (vy (a1 c))). unfold dot in *. lra. }
  assert (Ha : 0 <= aa).
  { unfold aa. pose proof (sumsq_nonneg (vx (a0 c)) (vy (a0 c))). unfold dot in *. lra. }
  assert (Q : 4 * (cc * aa) = bb * bb).
  { transitivity (bb * bb + 64 * (crossv (a0 c) (a1 c) * crossv (a0 c) (a1 c))); [unfold aa, bb, cc, dot, crossv; ring|].
    rewrite K. ring. }
  assert (Hs : 0 <= cc + bb + aa).
  { replace (cc + bb + aa) with (4 * ((vx (a0 c) + vx (a1 c)) * (vx (a0 c) + vx (a1 c)) + (vy (a0 c) + vy (a1 c)) * (vy (a0 c) + vy (a1 c))))
      by (unfold aa, bb, cc, dot; ring).
    pose proof (sumsq_nonneg (vx (a0 c) + vx (a1 c)) (vy (a0 c) + vy (a1 c))). lra. }
  rewrite fpow_32 by auto.
  assert (0 < sqrt cc) by (apply sqrt_lt_R0; auto).
  assert (0 < cc * sqrt cc) by (apply Rmult_lt_0_compat; auto).
  unfold fsqrt. rewrite !fdiv_ok by lra. cbn [bind]. rewrite !Rltb_false by (try lra; apply Rmult_le_pos; lra). cbn [bind].
  assert (L : flog (2 * sqrt (cc * aa) + bb) = Raise ValueError).
  { unfold flog. rewrite Rleb_true; auto.
    assert (E : 2 * sqrt (cc * aa) = - bb).
    { apply sq_eq_nonneg; [|unfold bb; lra|].
      - pose proof (sqrt_pos (cc * aa)). lra.
      - transitivity (4 * (sqrt (cc * aa) * sqrt (cc * aa))); [ring|]. rewrite sqrt_sqrt by (apply Rmult_le_pos; lra).
        lra. }
    lra. }
  destruct (flog (2 * sqrt (cc * (cc + bb + aa)) + (2 * cc + bb))) as [x|e] eqn:E.
  - cbn [bind]. rewrite L. reflexivity.
  - unfold flog in E. destruct (Rleb _ 0); inversion E. reflexivity.
Qed.

Lemma quad_length_refuted : ~ (forall c, exists l, quad_length c = Ok l).
Proof.
  intros H. destruct (H (Quad (V 0 0) (V 2 0) (V 3 0))) as [l E].
  rewrite quad_length_brakes in E; [discriminate|].
  unfold brakes, null, a0, a1, crossv, dot, vadd, vsub, vscale; simpl. lra.
Qed.

(** ** Length of a cubic curve *)

Definition third (c : cubic) := vsub (vadd (vsub (c3p c) (vscale (c2 c) 3)) (vscale (c1 c) 3)) (c0 c).

Lemma t_max_ok c : ~ null (third c) -> exists t, t_max c = Ok t /\ 0 < t /\
  t * t * t * d01 c = 18 / sqrt 3 * interpolation_precision.
Proof.
  intros N. pose proof (len_pos _ N) as L. unfold t_max.
  assert (D : 0 < d01 c). { unfold d01. rewrite magnitude_len. fold (third c). lra. }
  assert (K : 0 < 18 / sqrt 3 * interpolation_precision).
  { unfold interpolation_precision. apply Rmult_lt_0_compat; [|lra].
    apply Rdiv_lt_0_compat; [lra|]. apply sqrt_lt_R0. lra. }
  rewrite fdiv_ok by lra. cbn [bind]. eexists. split; [reflexivity|].
  assert (P : 0 < 18 / sqrt 3 * interpolation_precision / d01 c) by (apply Rdiv_lt_0_compat; auto).
  split; [apply exp_pos|]. unfold fpow. rewrite <- !Rpower_plus.
  replace (1 / 3 + 1 / 3 + 1 / 3) with 1 by field. rewrite Rpower_1 by auto. set (k := 18 / sqrt 3 * interpolation_precision). field. lra.
Qed.

Lemma t_max_zero c : null (third c) -> t_max c = Raise ZeroDivisionError.
Proof.
  intros N. unfold t_max. assert (D : d01 c = 0).
  { unfold d01. rewrite magnitude_len. fold (third c). apply len_zero in N. rewrite N. lra. }
  rewrite D. unfold fdiv. rewrite Reqb_refl. reflexivity.
Qed.

Lemma cube_inj a b : 0 < a -> 0 < b -> a * a * a = b * b * b -> a = b.
Proof.
  intros Ha Hb E. destruct (Rtotal_order a b) as [L|[L|L]]; auto; exfalso.
  - assert (a * a < b * b) by nra. nra.
  - assert (b * b < a * a) by nra. nra.
Qed.

Lemma third_split c t : third (snd (cubic_split_at_t c t)) = vscale (third c) ((1 - t) * (1 - t) * (1 - t)).
Proof. apply vec_eq; cbn; ring. Qed.

Lemma d01_split c t : t < 1 -> d01 (snd (cubic_split_at_t c t)) = (1 - t) * (1 - t) * (1 - t) * d01 c.
Proof.
  intros H. unfold d01. rewrite !magnitude_len. fold (third c).
  change (len (third (snd (cubic_split_at_t c t))) / 2 = (1 - t) * (1 - t) * (1 - t) * (len (third c) / 2)).
  rewrite third_split. set (k := (1 - t) * (1 - t) * (1 - t)).
  assert (Hk : 0 < k) by (unfold k; repeat apply Rmult_lt_0_compat; lra).
  assert (E : len (vscale (third c) k) = k * len (third c)).
  { apply sq_eq_nonneg; [apply len_nonneg| apply Rmult_le_pos; [lra|apply len_nonneg] |].
    rewrite len_sq. transitivity (k * k * (len (third c) * len (third c))); [|ring]. rewrite len_sq. cbn. ring. }
  rewrite E. field.
Qed.

(** consecutive pieces of the curve [f] from the parameter [a] to 1 *)
Fixpoint pieces (f : R -> vec) (a : R) (segments : list cubic) : Prop :=
  match segments with
  | [] => a = 1
  | s :: rest => exists b, a < b <= 1 /\
      (forall x, cubic_point_at_t s x = f (a + (b - a) * x)) /\ pieces f b rest
  end.

Lemma adaptive_ok f n : forall c t acc a, ~ null (third c) -> t_max c = Ok t -> / t <= INR n ->
  a < 1 -> (forall x, cubic_point_at_t c x = f (a + (1 - a) * x)) ->
  exists l, adaptive_segments (S n) c acc = Ok (acc ++ l) /\ pieces f a l.
Proof.
  induction n as [|n IH]; intros c t acc a N E T A S.
  - destruct (t_max_ok c N) as (t' & E' & P & _). rewrite E in E'. injection E' as <-.
    apply Rinv_0_lt_compat in P. simpl in T. lra.
  - destruct (t_max_ok c N) as (t' & E' & P & K). rewrite E in E'. injection E' as <-.
    cbn [adaptive_segments]. rewrite E. cbn [bind].
    destruct (Rltb_spec t 1) as [L|L].
    + remember (cubic_split_at_t c t) as lr eqn:R. destruct lr as [left right].
      assert (N' : ~ null (third right)).
      { intros [X Y]. apply N. replace right with (snd (cubic_split_at_t c t)) in X, Y by (rewrite <- R; reflexivity).
        rewrite third_split in X, Y. cbn [vscale vx vy] in X, Y.
        assert (0 < (1 - t) * (1 - t) * (1 - t)) by (repeat apply Rmult_lt_0_compat; lra).
        split; [apply Rmult_integral in X|apply Rmult_integral in Y]; lra. }
      destruct (t_max_ok right N') as (u & Eu & Pu & Ku).
      assert (D : d01 right = (1 - t) * (1 - t) * (1 - t) * d01 c).
      { rewrite <- d01_split by auto. rewrite <- R. reflexivity. }
      assert (Pd : 0 < d01 c).
      { unfold d01. rewrite magnitude_len. fold (third c). pose proof (len_pos _ N). lra. }
      assert (U : u * (1 - t) = t).
      { apply cube_inj; auto.
        - apply Rmult_lt_0_compat; lra.
        - apply Rmult_eq_reg_r with (d01 c); [|lra]. rewrite K, <- Ku, D. ring. }
      assert (IU : / u = / t - 1).
      { replace t with (u * (1 - t)) at 1 by auto. rewrite Rinv_mult_distr by lra.
        replace (/ u) with (/ u * / (1 - t) * (1 - t)) at 1 by (field; lra).
        replace 1 with (u * (1 - t) * (/ u * / (1 - t))) at 4 by (field; lra).
        rewrite U. ring. }
      assert (Sp : forall s, cubic_point_at_t left s = cubic_point_at_t c (t * s) /\
                 cubic_point_at_t right s = cubic_point_at_t c (t + (1 - t) * s)).
      { intros s. pose proof (cubic_split_ok c t s) as H. rewrite <- R in H. exact H. }
      assert (A' : a + (1 - a) * t < 1) by nra.
      destruct (IH right u (acc ++ [left]) (a + (1 - a) * t) N' Eu) as (l & El & Pl).
      * rewrite IU. rewrite S_INR in T. lra.
      * exact A'.
      * intros x. destruct (Sp x) as [_ ->]. rewrite S. f_equal. ring.
      * exists (left :: l). rewrite <- app_assoc in El. split; [exact El|].
        exists (a + (1 - a) * t). split; [split; [nra|lra]|]. split; [|exact Pl].
        intros x. destruct (Sp x) as [-> _]. rewrite S. f_equal. ring.
    + exists [c]. split; [reflexivity|]. exists 1. split; [lra|]. split; [exact S|reflexivity].
Qed.

Lemma adaptive_terminates c : ~ null (third c) -> exists n l, 
  (forall m, (n <= m)%nat -> adaptive_segments m c [] = Ok l) /\ pieces (cubic_point_at_t c) 0 l.
Proof.
  intros N. destruct (t_max_ok c N) as (t & E & P & _).
  destruct (INR_unbounded (/ t)) as [n Hn].
  destruct (adaptive_ok (cubic_point_at_t c) n c t [] 0 N E) as (l & El & Pl).
  - lra.
  - lra.
  - intros x. f_equal. ring.
  - exists (S n), l. split; [|exact Pl].
    assert (Mono : forall k c acc l, adaptive_segments k c acc = Ok l ->
      forall m, (k <= m)%nat -> adaptive_segments m c acc = Ok l).
    { induction k as [|k IH]; intros d acc l' Ed m Hm; [discriminate|].
      destruct m as [|m]; [lia|]. cbn [adaptive_segments] in *.
      destruct (t_max d) as [td|e]; cbn [bind] in *; [|discriminate].
      destruct (Rltb td 1); [|exact Ed]. destruct (cubic_split_at_t d td) as [l1 r1].
      apply IH; [exact Ed|lia]. }
    apply Mono. exact El.
Qed.

Lemma adaptive_degenerate c fuel acc : null (third c) -> 
  adaptive_segments (S fuel) c acc = Raise ZeroDivisionError.
Proof. intros N. cbn [adaptive_segments]. rewrite t_max_zero by auto. reflexivity. Qed.

Lemma cubic_length_refuted : forall c fuel, exists d, to_cubic c = Ok d /\
  cubic_length (S fuel) d = Raise ZeroDivisionError.
Proof.
  intros c fuel. unfold to_cubic, vdiv. rewrite Reqb_false by lra. cbn [bind].
  eexists; split; [reflexivity|]. unfold cubic_length. rewrite adaptive_degenerate; [reflexivity|].
  unfold null, third; cbn. split; field.
Qed.

(** the quadratic approximation has the right ends and the right middle *)
Lemma mid_point_ok c : exists q, mid_point_quadratic_approximation c = Ok q /\
  quad_point_at_t q 0 = cubic_point_at_t c 0 /\
  quad_point_at_t q (1/2) = cubic_point_at_t c (1/2) /\
  quad_point_at_t q 1 = cubic_point_at_t c 1.
Proof.
  unfold mid_point_quadratic_approximation, q_point, vdiv. rewrite Reqb_false by lra. cbn [bind].
  eexists; split; [reflexivity|]. repeat split; apply vec_eq; cbn; field.
Qed.

(** ** Interpolated length *)

Lemma triangle_ineq a b c : dist a c <= dist a b + dist b c.
Proof.
  apply sq_le_nonneg; [pose proof (dist_nonneg a b); pose proof (dist_nonneg b c); lra|].
  pose proof (dist_sq a b). pose proof (dist_sq b c). rewrite dist_sq.
  set (x := dist a b) in *. set (y := dist b c) in *.
  assert (0 <= x) by apply dist_nonneg. assert (0 <= y) by apply dist_nonneg.
  set (p := vx a - vx b) in *. set (q := vy a - vy b) in *. set (r := vx b - vx c) in *. set (s := vy b - vy c) in *.
  replace (vx a - vx c) with (p + r) by (unfold p, r; ring). replace (vy a - vy c) with (q + s) by (unfold q, s; ring).
  clearbody x y p q r s.
  assert (p * r + q * s <= x * y).
  { destruct (Rle_lt_dec (p * r + q * s) 0); [nra|]. apply sq_le_nonneg; [nra|].
    replace (x * y * (x * y)) with ((x * x) * (y * y)) by ring. rewrite H, H0.
    pose proof (Rle_0_sqr (p * s - q * r)). unfold Rsqr in *. nra. }
  nra.
Qed.

Lemma interpolated_loop f dt : 0 < dt -> forall n t l, t <= 1 -> 1 - t <= INR n * dt ->
  exists r, interpolated_length_loop (S n) f dt l t = Ok r /\ l + dist (f t) (f 1) <= r.
Proof.
  intros D. induction n as [|n IH]; intros t l T B.
  - simpl in B. assert (t = 1) by lra. subst. cbn [interpolated_length_loop]. rewrite Rltb_false by lra.
    exists l. split; auto. assert (dist (f 1) (f 1) = 0); [|lra].
    apply sq_eq_nonneg; auto using dist_nonneg; try lra. rewrite dist_sq. ring.
  - cbn [interpolated_length_loop]. destruct (Rltb_spec t 1) as [L|L].
    + cbv zeta. set (t' := Rmin (t + dt) 1). 
      destruct (IH t' (l + magnitude (vsub (f t') (f t)))) as (r & E & H).
      * apply Rmin_r.
      * rewrite S_INR in B. unfold t', Rmin. destruct (Rle_dec (t + dt) 1); [lra|].
        assert (0 <= INR n) by apply pos_INR. nra.
      * exists r. split; [exact E|]. rewrite magnitude_len, len_dist0 in H.
        pose proof (triangle_ineq (f t) (f t') (f 1)). rewrite (dist_sym (f t')) in H. lra.
    + assert (t = 1) by lra. subst. exists l. split; auto. assert (dist (f 1) (f 1) = 0); [|lra].
      apply sq_eq_nonneg; auto using dist_nonneg; try lra. rewrite dist_sq. ring.
Qed.

Lemma interpolated_length_ok f dt : 0 < dt -> exists n l, interpolated_length n f dt = Ok l /\
  dist (f 0) (f 1) <= l.
Proof.
  intros D. destruct (INR_unbounded (1 / dt)) as [n Hn].
  destruct (interpolated_loop f dt D n 0 0) as (r & E & H).
  - lra.
  - apply Rlt_le. apply Rmult_lt_reg_r with (/ dt); [apply Rinv_0_lt_compat; auto|].
    replace (INR n * dt * / dt) with (INR n) by (field; lra). lra.
  - exists (S n), r. split; [exact E|lra].
Qed.

Lemma interpolated_length_stuck f dt : dt <= 0 -> forall n, interpolated_length n f dt = Raise OutOfFuel.
Proof.
  intros D n. unfold interpolated_length. assert (H : forall n t l, t <= 0 -> interpolated_length_loop n f dt l t = Raise OutOfFuel).
  { clear n. induction n as [|n IH]; intros t l T; [reflexivity|]. cbn [interpolated_length_loop].
    rewrite Rltb_true by lra. apply IH. apply Rle_trans with (t + dt); [apply Rmin_l|lra]. }
  apply H. lra.
Qed.

(** ** Flatness, fat line, area *)

Lemma flat_enough_ok c f : is_flat_enough c f = true -> forall t, 0 <= t <= 1 ->
  dist (cubic_point_at_t c t) (interpolate_two_points (c0 c) (c3p c) t) <= Rabs f.
Proof.
  unfold is_flat_enough.
  set (u := vsub (vsub (vscale (c1 c) 3) (vscale (c0 c) 2)) (c3p c)).
  set (v := vsub (vsub (vscale (c2 c) 3) (vscale (c3p c) 2)) (c0 c)).
  cbv zeta. destruct (Rleb_spec (Rmax (vx u ^ 2) (vx v ^ 2) + Rmax (vy u ^ 2) (vy v ^ 2)) (16 * f ^ 2)) as [H|H]; [|discriminate].
  intros _ t Ht. apply sq_le_nonneg; [apply Rabs_pos|].
  rewrite <- Rabs_mult, (Rabs_right (f * f)) by nra. rewrite dist_sq.
  assert (B : forall a b, (t * (1 - t) * ((1 - t) * a + t * b)) * (t * (1 - t) * ((1 - t) * a + t * b)) <= Rmax (a ^ 2) (b ^ 2) / 16).
  { intros a b. set (m := Rmax (a ^ 2) (b ^ 2)).
    assert (Ha : a * a <= m) by (replace (a * a) with (a ^ 2) by ring; apply Rmax_l).
    assert (Hb : b * b <= m) by (replace (b * b) with (b ^ 2) by ring; apply Rmax_r).
    assert (K : ((1 - t) * a + t * b) * ((1 - t) * a + t * b) <= m).
    { apply Rle_trans with ((1 - t) * (a * a) + t * (b * b)); [|nra].
      assert (0 <= t * (1 - t) * ((a - b) * (a - b))).
      { apply Rmult_le_pos; [apply Rmult_le_pos; lra|apply Rle_0_sqr]. }
      nra. }
    assert (W : 0 <= t * (1 - t) <= 1 / 4).
    { split; [apply Rmult_le_pos; lra|]. pose proof (Rle_0_sqr (t - 1/2)). unfold Rsqr in *. nra. }
    set (w := t * (1 - t)) in *. set (z := (1 - t) * a + t * b) in *.
    assert (0 <= z * z) by apply Rle_0_sqr.
    assert (w * w <= 1 / 16) by nra.
    replace (w * z * (w * z)) with ((w * w) * (z * z)) by ring. nra. }
  replace (vx (cubic_point_at_t c t) - vx (interpolate_two_points (c0 c) (c3p c) t))
    with (t * (1 - t) * ((1 - t) * vx u + t * vx v)) by (unfold u, v; cbn; ring).
  replace (vy (cubic_point_at_t c t) - vy (interpolate_two_points (c0 c) (c3p c) t))
    with (t * (1 - t) * ((1 - t) * vy u + t * vy v)) by (unfold u, v; cbn; ring).
  pose proof (B (vx u) (vx v)). pose proof (B (vy u) (vy v)). lra.
Qed.

Lemma bernstein_bounds t : 0 <= t <= 1 ->
  0 <= 3 * t * (1 - t) * (1 - t) <= 4 / 9 /\ 0 <= 3 * t * t * (1 - t) <= 4 / 9 /\
  3 * t * (1 - t) * (1 - t) + 3 * t * t * (1 - t) <= 3 / 4.
Proof.
  intros H. repeat split.
  - repeat apply Rmult_le_pos; lra.
  - assert (E : 4 / 9 - 3 * t * (1 - t) * (1 - t) = (t - 1/3) * (t - 1/3) * (3 * (4/3 - t))) by field.
    assert (0 <= (t - 1/3) * (t - 1/3) * (3 * (4/3 - t))) by (apply Rmult_le_pos; [apply Rle_0_sqr|lra]). lra.
  - repeat apply Rmult_le_pos; lra.
  - assert (E : 4 / 9 - 3 * t * t * (1 - t) = (t - 2/3) * (t - 2/3) * (3 * (t + 1/3))) by field.
    assert (0 <= (t - 2/3) * (t - 2/3) * (3 * (t + 1/3))) by (apply Rmult_le_pos; [apply Rle_0_sqr|lra]). lra.
  - pose proof (Rle_0_sqr (t - 1/2)). unfold Rsqr in *. nra.
Qed.

Lemma fat_line_ok c : c0 c <> c3p c -> exists l dmin dmax, cubic_fat_line c = Ok (l, dmin, dmax) /\
  on_line l (c0 c) /\ on_line l (c3p c) /\
  forall t, 0 <= t <= 1 -> exists d, distance_to_line l (cubic_point_at_t c t) = Ok d /\ dmin <= d <= dmax.
Proof.
  intros N. set (l := line_from_two_points (c0 c) (c3p c)).
  assert (M : ~ null (l_v l)).
  { intros [X Y]. apply N. unfold l, vsub in X, Y; simpl in X, Y. apply vec_eq; lra. }
  pose proof (len_pos _ M) as L.
  assert (D : forall p, distance_to_line l p = Ok (cross (l_v l) (vsub p (c0 c)) / len (l_v l))).
  { intros p. unfold distance_to_line, deviation_with. rewrite magnitude_len, fdiv_ok by lra. reflexivity. }
  unfold cubic_fat_line. fold l. rewrite !D. cbn [bind].
  set (d1 := cross (l_v l) (vsub (c1 c) (c0 c)) / len (l_v l)).
  set (d2 := cross (l_v l) (vsub (c2 c) (c0 c)) / len (l_v l)).
  do 3 eexists. split; [reflexivity|]. split; [exists 0; cbn; split; ring|]. split; [exists 1; cbn; split; ring|].
  intros t Ht. eexists. split; [apply D|].
  assert (E : cross (l_v l) (vsub (cubic_point_at_t c t) (c0 c)) / len (l_v l) =
    3 * t * (1 - t) * (1 - t) * d1 + 3 * t * t * (1 - t) * d2).
  { unfold d1, d2.
    replace (cross (l_v l) (vsub (cubic_point_at_t c t) (c0 c))) with
      (3 * t * (1 - t) * (1 - t) * cross (l_v l) (vsub (c1 c) (c0 c)) +
       3 * t * t * (1 - t) * cross (l_v l) (vsub (c2 c) (c0 c))) by (unfold l, cross; cbn; ring).
    field. lra. }
  rewrite E. destruct (bernstein_bounds t Ht) as (B1 & B2 & B12).
  set (b1 := 3 * t * (1 - t) * (1 - t)) in *. set (b2 := 3 * t * t * (1 - t)) in *.
  clearbody d1 d2 b1 b2. clear E D.
  destruct (Rltb_spec 0 (d1 * d2)) as [S|S].
  - destruct (Rle_lt_dec d1 0) as [P|P].
    + assert (d2 < 0) by nra. rewrite (Rmax_left 0) by (apply Rmax_lub; lra). split; [|nra].
      rewrite (Rmin_right 0) by (eapply Rle_trans; [apply Rmin_l|lra]).
      unfold Rmin. destruct (Rle_dec d1 d2); nra.
    + assert (0 < d2) by nra. rewrite (Rmin_left 0) by (apply Rmin_glb; lra). split; [nra|].
      rewrite (Rmax_right 0) by (eapply Rle_trans; [|apply Rmax_l]; lra).
      unfold Rmax. destruct (Rle_dec d1 d2); nra.
  - assert (O : (d1 <= 0 /\ 0 <= d2) \/ (d2 <= 0 /\ 0 <= d1)).
    { destruct (Rle_lt_dec d1 0), (Rle_lt_dec 0 d2).
      - left; lra.
      - right. split; [lra|]. nra.
      - right. split; [nra|lra].
      - right; lra. }
    assert (Q1 : d1 <= 0 -> 4 / 9 * d1 <= b1 * d1 <= 0) by (intros; split; nra).
    assert (Q2 : d2 <= 0 -> 4 / 9 * d2 <= b2 * d2 <= 0) by (intros; split; nra).
    assert (P1 : 0 <= d1 -> 0 <= b1 * d1 <= 4 / 9 * d1) by (intros; split; nra).
    assert (P2 : 0 <= d2 -> 0 <= b2 * d2 <= 4 / 9 * d2) by (intros; split; nra).
    destruct O as [[O1 O2]|[O1 O2]].
    + rewrite (Rmin_left d1 d2), (Rmax_right d1 d2), Rmin_right, Rmax_right by lra.
      specialize (Q1 O1). specialize (P2 O2). lra.
    + rewrite (Rmin_right d1 d2), (Rmax_left d1 d2), Rmin_right, Rmax_right by lra.
      specialize (Q2 O1). specialize (P1 O2). lra.
Qed.

Lemma cubic_swept c : swept (cubic_point_at_t c) (cubic_area c).
Proof.
  assert (H : exists a, swept (cubic_point_at_t c) a /\ cubic_area c = a);
    [|destruct H as (a & H & E); rewrite E; exact H].
  eexists. split.
  - exists (fun t => vscale (cubic_tangent_at c t) 3). split; [intros; apply cubic_velocity|].
    set (x0 := vx (c0 c)). set (x1 := vx (c1 c)). set (x2 := vx (c2 c)). set (x3 := vx (c3p c)).
    set (y0 := vy (c0 c)). set (y1 := vy (c1 c)). set (y2 := vy (c2 c)). set (y3 := vy (c3p c)).
    apply (is_RInt_derive (fun t =>
      let a1 := 3 * (x1 - x0) in let a2 := 3 * (x2 - 2 * x1 + x0) in let a3 := x3 - 3 * x2 + 3 * x1 - x0 in
      let b1 := 3 * (y1 - y0) in let b2 := 3 * (y2 - 2 * y1 + y0) in let b3 := y3 - 3 * y2 + 3 * y1 - y0 in
      / 2 * ((x0 * b1 - y0 * a1) * t + (x0 * b2 - y0 * a2) * (t * t) + (x0 * b3 - y0 * a3) * (t * t * t)
        + (a1 * b2 - b1 * a2) * (t * t * t / 3) + (a1 * b3 - b1 * a3) * (2 * (t * t * t * t) / 4)
        + (a2 * b3 - b2 * a3) * (t * t * t * t * t / 5)))).
    + intros t _. cbv zeta. auto_derive; auto. unfold x0, x1, x2, x3, y0, y1, y2, y3. cbn. field.
    + intros t _. apply (ex_derive_continuous (V := R_NormedModule)). cbn. auto_derive. auto.
  - cbv zeta. unfold minus, plus, opp; simpl. unfold cubic_area. cbv zeta. field.
Qed.

Lemma swept_unique f a b : swept f a -> swept f b -> a = b.
Proof.
  intros (d & Vd & Id) (e & Ve & Ie).
  rewrite <- (is_RInt_unique _ _ _ _ Id), <- (is_RInt_unique _ _ _ _ Ie).
  apply RInt_ext. intros t _. destruct (Vd t) as [X Y], (Ve t) as [X' Y'].
  rewrite (uniqueness_limite _ _ _ _ X X'), (uniqueness_limite _ _ _ _ Y Y'). reflexivity.
Qed.

Lemma cubic_area_chord c a : on_line (line_from_two_points (c0 c) (c3p c)) (V 0 0) ->
  closed_by_chord (cubic_point_at_t c) a -> cubic_area c = a.
Proof.
  intros (s & X & Y) (b & Hb & ->). rewrite (swept_unique _ _ _ Hb (cubic_swept c)).
  destruct (cubic_ends c) as [-> ->]. cbn in X, Y.
  destruct (Req_dec s 0) as [S|S].
  - subst s. replace (vx (c0 c)) with 0 by lra. replace (vy (c0 c)) with 0 by lra. ring.
  - assert (K : s * (vx (c3p c) * vy (c0 c) - vy (c3p c) * vx (c0 c)) = 0).
    { transitivity ((s * (vx (c3p c) - vx (c0 c))) * vy (c0 c) - (s * (vy (c3p c) - vy (c0 c))) * vx (c0 c)); [ring|].
      replace (s * (vx (c3p c) - vx (c0 c))) with (- vx (c0 c)) by lra.
      replace (s * (vy (c3p c) - vy (c0 c))) with (- vy (c0 c)) by lra. ring. }
    apply Rmult_integral in K as [K|K]; [contradiction|]. rewrite K. ring.
Qed.

Lemma cubic_area_refuted : ~ (forall c a, closed_by_chord (cubic_point_at_t c) a -> cubic_area c = a).
Proof.
  intros H. set (c := Cub (V 5 5) (V 5 6) (V 6 6) (V 6 5)).
  specialize (H c _ (ex_intro _ _ (conj (cubic_swept c) eq_refl))).
  destruct (cubic_ends c) as [E0 E1]. rewrite E0, E1 in H. unfold c in H. cbn in H. lra.
Qed.

(** ** Closest point *)

Fixpoint horner (l : list R) (x acc : R) : R :=
  match l with [] => acc | c :: l => horner l x (acc * x + c) end.

Lemma critical_polynomial c p x :
  let n := third c in
  let r := vscale (vadd (vsub (c2 c) (vscale (c1 c) 2)) (c0 c)) 3 in
  let s := vscale (vsub (c1 c) (c0 c)) 3 in
  let v := c0 c in
  horner [-3 * magnitude_square n; -5 * dot n r; -2 * (2 * dot n s + magnitude_square r);
    3 * (dot p n - dot n v - dot r s); 2 * dot p r - 2 * dot r v - magnitude_square s;
    dot p s - dot s v] x 0
  = 3 * dot (vsub p (cubic_point_at_t c x)) (cubic_tangent_at c x).
Proof. unfold third, magnitude_square, dot. cbn. ring. Qed.

(** [f] gives exactly the roots of every polynomial that is not constantly zero *)
Definition right_roots (f : list R -> list R) : Prop :=
  forall l, (exists c, In c l /\ c <> 0) -> forall x, In x (f l) <-> horner l x 0 = 0.

Lemma closest_point_critical f c p q : right_roots f ->
  (exists t, cubic_point_at_t c t <> c0 c) -> cubic_closest_point f c p = Some q ->
  exists t, 0 <= t <= 1 /\ q = cubic_point_at_t c t /\
    perpendicular (vsub p q) (cubic_tangent_at c t).
Proof.
  intros RR (t0 & NC) H. unfold cubic_closest_point in H. fold (third c) in H. cbv zeta in H.
  set (r := vscale (vadd (vsub (c2 c) (vscale (c1 c) 2)) (c0 c)) 3) in *.
  set (s := vscale (vsub (c1 c) (c0 c)) 3) in *. 
  set (A := -3 * magnitude_square (third c)) in *. set (B := -5 * dot (third c) r) in *.
  set (C := -2 * (2 * dot (third c) s + magnitude_square r)) in *.
  set (D := 3 * (dot p (third c) - dot (third c) (c0 c) - dot r s)) in *.
  set (E := 2 * dot p r - 2 * dot r (c0 c) - magnitude_square s) in *.
  set (G := dot p s - dot s (c0 c)) in *.
  assert (CP : forall x, horner [A; B; C; D; E; G] x 0 = 3 * dot (vsub p (cubic_point_at_t c x)) (cubic_tangent_at c x)).
  { intros x. apply critical_polynomial. }
  assert (NZ : exists k, In k [A; B; C; D; E; G] /\ k <> 0).
  { destruct (Req_dec A 0) as [A0|A0]; [|exists A; simpl; auto].
    assert (N : null (third c)).
    { apply sumsq0. unfold A, magnitude_square, dot in A0. lra. }
    destruct N as [Nx Ny].
    destruct (Req_dec C 0) as [C0|C0]; [|exists C; simpl; auto].
    assert (Rn : vx r = 0 /\ vy r = 0).
    { apply sumsq0. unfold C, magnitude_square, dot in C0. rewrite Nx, Ny in C0. lra. }
    destruct Rn as [Rx Ry].
    exists E. split; [simpl; auto 10|]. intros E0. apply NC.
    assert (Sn : vx s = 0 /\ vy s = 0).
    { apply sumsq0. unfold E, magnitude_square, dot in E0. rewrite Rx, Ry in E0. lra. }
    destruct Sn as [Sx Sy].
    apply vec_eq.
    - transitivity (vx (c0 c) + vx s * t0 + vx r * t0 ^ 2 + vx (third c) * t0 ^ 3); [unfold s, r, third; cbn; ring|].
      rewrite Sx, Rx, Nx. ring.
    - transitivity (vy (c0 c) + vy s * t0 + vy r * t0 ^ 2 + vy (third c) * t0 ^ 3); [unfold s, r, third; cbn; ring|].
      rewrite Sy, Ry, Ny. ring. }
  assert (FR : forall x, In x (fifth_root f A B C D E G) -> dot (vsub p (cubic_point_at_t c x)) (cubic_tangent_at c x) = 0).
  { intros x Hx. assert (horner [A; B; C; D; E; G] x 0 = 0); [|rewrite CP in *; lra].
    unfold fifth_root in Hx. destruct (Reqb_spec A 0) as [A0|A0].
    - apply RR in Hx; auto.
    - apply RR in Hx; [|exists 1; split; [simpl; auto|lra]].
      replace (horner [A; B; C; D; E; G] x 0) with (A * horner [1; B / A; C / A; D / A; E / A; G / A] x 0).
      + rewrite Hx. ring.
      + cbn. field. auto. }
  assert (K : forall t, In t (filter (fun r => Rleb 0 r && Rleb r 1) (fifth_root f A B C D E G)) ->
    q = cubic_point_at_t c t -> exists t, 0 <= t <= 1 /\ q = cubic_point_at_t c t /\ perpendicular (vsub p q) (cubic_tangent_at c t)).
  { intros t Ht Q. apply filter_In in Ht as [Ht HB]. apply andb_true_iff in HB as [H1 H2].
    destruct (Rleb_spec 0 t), (Rleb_spec t 1); try discriminate.
    exists t. split; [lra|]. split; auto. subst q. apply FR in Ht. exact Ht. }
  destruct (filter _ _) as [|t1 [|t2 [|t3 rest]]]; try discriminate.
  - injection H as <-. apply (K t1); simpl; auto.
  - destruct (Reqb t1 0); [|discriminate]. injection H as <-. apply (K t2); simpl; auto.
Qed.

(** A curve with a single critical point in [0, 1] that is the farthest point of the curve. *)
Definition arch : cubic := Cub (V (-1) 0) (V (-1/3) (4/3)) (V (1/3) (4/3)) (V 1 0).

Lemma sqrt_32 : sqrt (3/2) * sqrt (3/2) = 3/2 /\ 1 < sqrt (3/2).
Proof.
  assert (E : sqrt (3/2) * sqrt (3/2) = 3/2) by (apply sqrt_sqrt; lra). split; auto.
  assert (0 <= sqrt (3/2)) by apply sqrt_pos. nra.
Qed.

Lemma arch_critical t : dot (vsub (V 0 (-1)) (cubic_point_at_t arch t)) (cubic_tangent_at arch t) = 0 <->
  In t [1/2; (1 - sqrt (3/2)) / 2; (1 + sqrt (3/2)) / 2].
Proof.
  destruct sqrt_32 as [S P]. set (k := sqrt (3/2)) in *.
  assert (E : dot (vsub (V 0 (-1)) (cubic_point_at_t arch t)) (cubic_tangent_at arch t) =
    -64/3 * ((t - 1/2) * (t - (1 - k) / 2) * (t - (1 + k) / 2)) * / 2 * 1).
  { transitivity (-64/3 * ((t - 1/2) * (t * t - t + (1 - k * k) / 4)) * / 2); [|field].
    rewrite S. unfold dot. cbn. field. }
  rewrite E. simpl. split.
  - intros H. assert (Z : (t - 1/2) * (t - (1 - k) / 2) * (t - (1 + k) / 2) = 0) by lra.
    apply Rmult_integral in Z as [Z|Z]; [apply Rmult_integral in Z as [Z|Z]|]; [left|right; left|right; right; left]; lra.
  - intros [<-|[<-|[<-|[]]]]; field.
Qed.

Lemma closest_point_wrong : exists c p roots q,
  (forall t, In t roots <-> dot (vsub p (cubic_point_at_t c t)) (cubic_tangent_at c t) = 0) /\ NoDup roots /\
  cubic_closest_point (fun _ => roots) c p = Some q /\
  (forall t, 0 <= t <= 1 -> dist p (cubic_point_at_t c t) <= dist p q) /\
  dist p (cubic_point_at_t c 0) < dist p q.
Proof.
  destruct sqrt_32 as [S P].
  exists arch, (V 0 (-1)), [1/2; (1 - sqrt (3/2)) / 2; (1 + sqrt (3/2)) / 2], (cubic_point_at_t arch (1/2)).
  split; [intros; symmetry; apply arch_critical|]. split.
  { repeat constructor; simpl; lra. }
  split.
  { unfold cubic_closest_point, fifth_root.
    match goal with |- context [if Reqb ?x 0 then ?a else ?a] => replace (if Reqb x 0 then a else a) with a by (destruct (Reqb x 0); reflexivity) end.
    cbn [filter]. rewrite (Rleb_true 0 (1/2)), (Rleb_true (1/2) 1), (Rleb_false 0 ((1 - sqrt (3/2)) / 2)), (Rleb_false ((1 + sqrt (3/2)) / 2) 1) by lra.
    rewrite andb_false_r. reflexivity. }
  assert (D : forall t, dist (V 0 (-1)) (cubic_point_at_t arch t) * dist (V 0 (-1)) (cubic_point_at_t arch t) =
    (2 * t - 1) * (2 * t - 1) + (2 - (2 * t - 1) * (2 * t - 1)) * (2 - (2 * t - 1) * (2 * t - 1))).
  { intros t. rewrite dist_sq. cbn. field. }
  assert (D2 : dist (V 0 (-1)) (cubic_point_at_t arch (1/2)) * dist (V 0 (-1)) (cubic_point_at_t arch (1/2)) = 4).
  { rewrite D. field. }
  split.
  - intros t Ht. apply sq_le_nonneg; [apply dist_nonneg|]. rewrite D2, D.
    set (w := (2 * t - 1) * (2 * t - 1)). assert (0 <= w <= 1) by (unfold w; split; [apply Rle_0_sqr|nra]). nra.
  - apply Rsqr_incrst_0; unfold Rsqr; auto using dist_nonneg. rewrite D2, D. lra.
Qed.

Lemma quad_closest_never f c p q : quad_closest_point f c p <> Ok (Some q).
Proof.
  unfold quad_closest_point. cbv zeta. destruct (cubic_root _ _ _ _ _) as [r|e]; cbn [bind]; [|discriminate].
  destruct r as [|x|x y|l]; cbn [bind]; try discriminate;
  destruct (filter _ _) as [|t1 [|t2 rest]]; discriminate.
Qed.

(** ** Intersection with the axis *)

Lemma quad_axis_ok c : ~ (forall t, vy (quad_point_at_t c t) = vy (q0 c)) ->
  exists r, quad_intersect_axis c = Ok r /\
    forall t, In t (rv r) <-> vy (quad_point_at_t c t) = 0.
Proof.
  intros N. unfold quad_intersect_axis.
  assert (H : vy (q2 c) - 2 * vy (q1 c) + vy (q0 c) <> 0 \/ 2 * (vy (q1 c) - vy (q0 c)) <> 0).
  { destruct (Req_dec (vy (q2 c) - 2 * vy (q1 c) + vy (q0 c)) 0) as [A|A]; auto.
    destruct (Req_dec (2 * (vy (q1 c) - vy (q0 c))) 0) as [B|B]; auto.
    elim N. intros t. transitivity ((vy (q2 c) - 2 * vy (q1 c) + vy (q0 c)) * t ^ 2 + 2 * (vy (q1 c) - vy (q0 c)) * t + vy (q0 c)); [cbn; ring|].
    rewrite A, B. ring. }
  destruct (quadratic_root_ok _ _ (vy (q0 c)) H) as (r & E & _ & R). exists r. split; [exact E|].
  intros t. rewrite R.
  replace (vy (quad_point_at_t c t)) with ((vy (q2 c) - 2 * vy (q1 c) + vy (q0 c)) * t * t + 2 * (vy (q1 c) - vy (q0 c)) * t + vy (q0 c)) by (cbn; ring).
  tauto.
Qed.

Lemma cubic_axis_ok f c : (forall a b c d x, a <> 0 -> (In x (f a b c d) <-> a * x * x * x + b * x * x + c * x + d = 0)) ->
  ~ (forall t, vy (cubic_point_at_t c t) = vy (c0 c)) ->
  exists r, cubic_intersect_axis f c = Ok r /\
    forall t, In t (rv r) <-> vy (cubic_point_at_t c t) = 0.
Proof.
  intros F N. unfold cubic_intersect_axis. cbv zeta.
  set (A := vy (c3p c) - 3 * vy (c2 c) + 3 * vy (c1 c) - vy (c0 c)).
  set (B := 3 * (vy (c2 c) - vy (c1 c) * 2 + vy (c0 c))). set (C := 3 * (vy (c1 c) - vy (c0 c))).
  assert (P : forall t, vy (cubic_point_at_t c t) = A * t * t * t + B * t * t + C * t + vy (c0 c)).
  { intros t. unfold A, B, C. cbn. ring. }
  destruct (Req_dec A 0) as [A0|A0].
  - rewrite A0. destruct (cubic_root_degenerate f B C (vy (c0 c))) as (r & E & R).
    + destruct (Req_dec B 0) as [B0|B0]; auto. destruct (Req_dec C 0) as [C0|C0]; auto.
      elim N. intros t. rewrite P, A0, B0, C0. ring.
    + exists r. split; [exact E|]. intros t. rewrite R, P, A0. tauto.
  - unfold cubic_root. rewrite Reqb_false by auto. eexists. split; [reflexivity|]. intros t. cbn [rv].
    rewrite F by auto. rewrite P. tauto.
Qed.

(** ** t_at_length *)

Lemma t_at_length_ok l x e r : 0 <= e -> t_at_length (Ok l) x e = Ok r ->
  (x = 0 /\ r = 0) \/ (l - e <= x /\ r = 1).
Proof.
  intros E H. unfold t_at_length in H. destruct (Rltb_spec x 0); [discriminate|].
  destruct (Reqb_spec x 0).
  - injection H as <-. auto.
  - cbn [bind] in H. destruct (Rleb_spec (l - x) e).
    + injection H as <-. right. lra.
    + destruct (Rltb l x); discriminate.
Qed.
Lemma t_at_length_refuted l x e : 0 < x -> x < l - e -> 0 <= e ->
  t_at_length (Ok l) x e = Raise AttributeError.
Proof.
  intros. unfold t_at_length. rewrite Rltb_false, Reqb_false by lra. cbn [bind].
  rewrite Rleb_false, Rltb_false by lra. reflexivity.
Qed.
Lemma t_at_length_beyond l x e : 0 <= e -> 0 < x -> l < x -> t_at_length (Ok l) x e = Ok 1.
Proof.
  intros. unfold t_at_length. rewrite Rltb_false, Reqb_false by lra. cbn [bind].
  rewrite Rleb_true by lra. reflexivity.
Qed.

(** For t in [0,1] each coordinate stays between the bounds of the control points. *)
Lemma quad_box c t lo hi : 0 <= t <= 1 -> (forall q, In q [q0 c; q1 c; q2 c] -> lo <= vx q <= hi) ->
  lo <= vx (quad_point_at_t c t) <= hi.
Proof.
  intros Ht H. pose proof (H _ (or_introl eq_refl)). pose proof (H _ (or_intror (or_introl eq_refl))).
  pose proof (H _ (or_intror (or_intror (or_introl eq_refl)))). clear H.
  rewrite quad_eval; cbn.
  assert (A : forall u v, lo <= u <= hi -> lo <= v <= hi -> lo <= u + t * (v - u) <= hi) by (intros; nra).
  apply A; apply A; auto.
Qed.
Lemma quad_box_y c t lo hi : 0 <= t <= 1 -> (forall q, In q [q0 c; q1 c; q2 c] -> lo <= vy q <= hi) ->
  lo <= vy (quad_point_at_t c t) <= hi.
Proof.
  intros Ht H. pose proof (H _ (or_introl eq_refl)). pose proof (H _ (or_intror (or_introl eq_refl))).
  pose proof (H _ (or_intror (or_intror (or_introl eq_refl)))). clear H.
  rewrite quad_eval; cbn.
  assert (A : forall u v, lo <= u <= hi -> lo <= v <= hi -> lo <= u + t * (v - u) <= hi) by (intros; nra).
  apply A; apply A; auto.
Qed.
Lemma cubic_box c t lo hi : 0 <= t <= 1 -> (forall q, In q [c0 c; c1 c; c2 c; c3p c] -> lo <= vx q <= hi) ->
  lo <= vx (cubic_point_at_t c t) <= hi.
Proof.
  intros Ht H. pose proof (H _ (or_introl eq_refl)). pose proof (H _ (or_intror (or_introl eq_refl))).
  pose proof (H _ (or_intror (or_intror (or_introl eq_refl)))).
  pose proof (H _ (or_intror (or_intror (or_intror (or_introl eq_refl))))). clear H.
  rewrite cubic_eval; cbn.
  assert (A : forall u v, lo <= u <= hi -> lo <= v <= hi -> lo <= u + t * (v - u) <= hi) by (intros; nra).
  repeat apply A; auto.
Qed.
Lemma cubic_box_y c t lo hi : 0 <= t <= 1 -> (forall q, In q [c0 c; c1 c; c2 c; c3p c] -> lo <= vy q <= hi) ->
  lo <= vy (cubic_point_at_t c t) <= hi.
Proof.
  intros Ht H. pose proof (H _ (or_introl eq_refl)). pose proof (H _ (or_intror (or_introl eq_refl))).
  pose proof (H _ (or_intror (or_intror (or_introl eq_refl)))).
  pose proof (H _ (or_intror (or_intror (or_intror (or_introl eq_refl))))). clear H.
  rewrite cubic_eval; cbn.
  assert (A : forall u v, lo <= u <= hi -> lo <= v <= hi -> lo <= u + t * (v - u) <= hi) by (intros; nra).
  repeat apply A; auto.
Qed.
Lemma control_box c d t lo hi : 0 <= t <= 1 ->
  ((forall q, In q [q0 c; q1 c; q2 c] -> vx lo <= vx q <= vx hi /\ vy lo <= vy q <= vy hi) ->
   vx lo <= vx (quad_point_at_t c t) <= vx hi /\ vy lo <= vy (quad_point_at_t c t) <= vy hi) /\
  ((forall q, In q [c0 d; c1 d; c2 d; c3p d] -> vx lo <= vx q <= vx hi /\ vy lo <= vy q <= vy hi) ->
   vx lo <= vx (cubic_point_at_t d t) <= vx hi /\ vy lo <= vy (cubic_point_at_t d t) <= vy hi).
Proof.
  intro Ht; split; intro H; split.
  - apply quad_box; auto. intros; apply H; auto.
  - apply quad_box_y; auto. intros; apply H; auto.
  - apply cubic_box; auto. intros; apply H; auto.
  - apply cubic_box_y; auto. intros; apply H; auto.
Qed.
