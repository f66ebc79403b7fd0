(** The distance to an ellipse. *)
From Coq Require Import Reals List Lra Lia Psatz ZArith Bool.
From Verif Require Import Base ModelVector ModelTransformation ModelLine ModelBezier ModelConic.
From Verif Require Import SpecVector SpecLine SpecConic GlueConic ProofVector ProofSegment ProofConic ProofConic2 ProofConic3.
Import ListNotations.
Local Open Scope R_scope.
Local Open Scope result_scope.

Definition on_axes (e0 e1 : R) (z : vec) : Prop := (vx z / e0) ^ 2 + (vy z / e1) ^ 2 = 1.
(** A point of the ellipse whose offset from [y] is normal, with a small enough multiplier, is nearest. *)
Lemma lagrange e0 e1 y0 y1 x0 x1 t : 0 < e0 -> 0 < e1 -> on_axes e0 e1 (V x0 x1) ->
  0 <= 1 + t / e0 ^ 2 -> 0 <= 1 + t / e1 ^ 2 ->
  x0 * (1 + t / e0 ^ 2) = y0 -> x1 * (1 + t / e1 ^ 2) = y1 ->
  nearest (on_axes e0 e1) (V y0 y1) (V x0 x1).
Proof.
  intros E0 E1 O A B X Y. split; [exact O|]. intros z Z. apply sq_le_nonneg; [apply dist_nonneg|]. rewrite !dist_sq.
  unfold on_axes in *. destruct z as [z0 z1]. cbn [vx vy] in *.
  set (a := 1 + t / e0 ^ 2) in *. set (b := 1 + t / e1 ^ 2) in *.
  assert (Ha : t * (z0 / e0) ^ 2 = (a - 1) * z0 ^ 2) by (unfold a; field; lra).
  assert (Hb : t * (z1 / e1) ^ 2 = (b - 1) * z1 ^ 2) by (unfold b; field; lra).
  assert (Ha' : t * (x0 / e0) ^ 2 = (a - 1) * x0 ^ 2) by (unfold a; field; lra).
  assert (Hb' : t * (x1 / e1) ^ 2 = (b - 1) * x1 ^ 2) by (unfold b; field; lra).
  assert (S : (a - 1) * z0 ^ 2 + (b - 1) * z1 ^ 2 = (a - 1) * x0 ^ 2 + (b - 1) * x1 ^ 2).
  { rewrite <- Ha, <- Hb, <- Ha', <- Hb', <- !Rmult_plus_distr_l, O, Z. reflexivity. }
  assert (P : 0 <= a * (z0 - x0) ^ 2 + b * (z1 - x1) ^ 2).
  { apply Rplus_le_le_0_compat; apply Rmult_le_pos; try assumption; apply pow2_ge_0. }
  rewrite <- X, <- Y. nra.
Qed.

Lemma on_axes_x e0 e1 x : 0 < e0 -> 0 < e1 -> x ^ 2 <= 1 -> on_axes e0 e1 (V (e0 * x) (e1 * sqrt (1 - x ^ 2))).
Proof.
  intros A B X. unfold on_axes. cbn [vx vy]. replace (e0 * x / e0) with x by (field; lra).
  replace (e1 * sqrt (1 - x ^ 2) / e1) with (sqrt (1 - x ^ 2)) by (field; lra).
  rewrite <- (Rsqr_pow2 (sqrt _)), Rsqr_sqrt by lra. ring.
Qed.

(** ** The function whose root is sought *)
Definition gap (r0 n0 z1 s : R) : R := (n0 / (s + r0)) ^ 2 + (z1 / (s + 1)) ^ 2 - 1.
Lemma gap_decreasing r0 n0 z1 s s' : 1 <= r0 -> 0 < z1 -> -1 < s -> s < s' -> gap r0 n0 z1 s' < gap r0 n0 z1 s.
Proof.
  intros R0 Z S L. unfold gap.
  assert (I : forall u v, 0 < u -> u <= v -> (/ v) ^ 2 <= (/ u) ^ 2).
  { intros u v U W. assert (/ v <= / u) by (apply Rinv_le_contravar; lra). assert (0 < / v) by (apply Rinv_0_lt_compat; lra). nra. }
  assert (J : (/ (s' + 1)) ^ 2 < (/ (s + 1)) ^ 2).
  { assert (/ (s' + 1) < / (s + 1)) by (apply Rinv_lt_contravar; [apply Rmult_lt_0_compat; lra|lra]).
    assert (0 < / (s' + 1)) by (apply Rinv_0_lt_compat; lra). nra. }
  pose proof (I (s + r0) (s' + r0) ltac:(lra) ltac:(lra)) as A.
  unfold Rdiv. rewrite !Rpow_mult_distr.
  assert (n0 ^ 2 * (/ (s' + r0)) ^ 2 <= n0 ^ 2 * (/ (s + r0)) ^ 2) by (apply Rmult_le_compat_l; [apply pow2_ge_0|exact A]).
  assert (z1 ^ 2 * (/ (s' + 1)) ^ 2 < z1 ^ 2 * (/ (s + 1)) ^ 2) by (apply Rmult_lt_compat_l; [apply pow_lt; lra|exact J]).
  lra.
Qed.
Lemma gap_root r0 n0 z1 s0 s1 : 1 <= r0 -> 0 < z1 -> -1 < s0 -> s0 < s1 ->
  0 <= gap r0 n0 z1 s0 -> gap r0 n0 z1 s1 <= 0 -> exists s, s0 <= s <= s1 /\ gap r0 n0 z1 s = 0.
Proof.
  intros R0 Z S L G0 G1.
  set (h := fun s => n0 ^ 2 * (s + 1) ^ 2 + z1 ^ 2 * (s + r0) ^ 2 - (s + 1) ^ 2 * (s + r0) ^ 2).
  assert (E : forall s, -1 < s -> h s = gap r0 n0 z1 s * ((s + 1) ^ 2 * (s + r0) ^ 2)).
  { intros s A. unfold h, gap. field. split; lra. }
  assert (P : forall s, -1 < s -> 0 < (s + 1) ^ 2 * (s + r0) ^ 2).
  { intros s A. apply Rmult_lt_0_compat; apply pow_lt; lra. }
  assert (C : continuity h) by (unfold h; reg).
  destruct (IVT_cor h s0 s1 C) as (s & B & H); [lra| |].
  - rewrite !E by lra. pose proof (P s0 ltac:(lra)). pose proof (P s1 ltac:(lra)).
    assert (0 <= gap r0 n0 z1 s0 * ((s0 + 1) ^ 2 * (s0 + r0) ^ 2)) by (apply Rmult_le_pos; lra).
    assert (gap r0 n0 z1 s1 * ((s1 + 1) ^ 2 * (s1 + r0) ^ 2) <= 0).
    { replace 0 with (0 * ((s1 + 1) ^ 2 * (s1 + r0) ^ 2)) by ring. apply Rmult_le_compat_r; lra. }
    nra.
  - exists s. split; [exact B|]. rewrite E in H by lra. apply Rmult_integral in H. destruct H as [H|H]; [exact H|].
    pose proof (P s ltac:(lra)). lra.
Qed.

Lemma loop_ok r0 n0 z1 x n : forall s0 s1 s, 1 <= r0 -> 0 < z1 -> -1 < s0 -> s0 < s1 ->
  s0 <= x <= s1 -> gap r0 n0 z1 x = 0 -> (n = O -> s0 <= s <= s1) ->
  exists s', bisection_loop n r0 n0 z1 s0 s1 s = Ok s' /\ s0 <= s' <= s1 /\ Rabs (s' - x) <= (s1 - s0) / 2 ^ n.
Proof.
  induction n as [|n IH]; intros s0 s1 s R0 Z Hs L X G N; cbn [bisection_loop].
  - exists s. specialize (N eq_refl). split; [reflexivity|]. split; [exact N|]. simpl. apply Rabs_le. lra.
  - cbn zeta. set (m := (s0 + s1) / 2). assert (M : s0 < m < s1) by (unfold m; lra).
    rewrite !Reqb_false by lra. cbn [orb]. rewrite !fdiv_ok by lra. cbn [bind].
    change ((n0 / (m + r0)) ^ 2 + (z1 / (m + 1)) ^ 2 - 1) with (gap r0 n0 z1 m).
    assert (W : forall a b, (a = s0 /\ b = m) \/ (a = m /\ b = s1) -> (b - a) / 2 ^ n = (s1 - s0) / 2 ^ (S n)).
    { intros a b H. assert (T : b - a = (s1 - s0) / 2) by (unfold m in H; destruct H as [[-> ->]|[-> ->]]; field). rewrite T. simpl. field. apply pow_nonzero. lra. }
    destruct (Rltb_spec 0 (gap r0 n0 z1 m)) as [A|A].
    { assert (m <= x).
      { destruct (Rle_dec m x) as [T|T]; [exact T|]. pose proof (gap_decreasing r0 n0 z1 x m R0 Z ltac:(lra) ltac:(lra)). lra. }
      destruct (IH m s1 m) as (s' & E & B & D); try assumption; try lra. exists s'. split; [exact E|]. split; [lra|].
      rewrite <- (W m s1) by auto. exact D. }
    destruct (Rltb_spec (gap r0 n0 z1 m) 0) as [A'|A'].
    { assert (x <= m).
      { destruct (Rle_dec x m) as [T|T]; [exact T|]. pose proof (gap_decreasing r0 n0 z1 m x R0 Z ltac:(lra) ltac:(lra)). lra. }
      destruct (IH s0 m m) as (s' & E & B & D); try assumption; try lra. exists s'. split; [exact E|]. split; [lra|].
      rewrite <- (W s0 m) by auto. exact D. }
    exists m. split; [reflexivity|]. split; [lra|].
    assert (m = x).
    { destruct (Rtotal_order m x) as [T|[T|T]]; [|exact T|].
      - pose proof (gap_decreasing r0 n0 z1 m x R0 Z ltac:(lra) T). lra.
      - pose proof (gap_decreasing r0 n0 z1 x m R0 Z ltac:(lra) ltac:(lra)). lra. }
    subst x. rewrite Rminus_diag_eq, Rabs_R0 by reflexivity. apply Rmult_le_pos; [lra|]. apply Rlt_le, Rinv_0_lt_compat, pow_lt. lra.
Qed.

Lemma robust_length_ok x y : 0 < x -> 0 < y -> robust_length x y = Ok (sqrt (x * x + y * y)).
Proof.
  assert (T : forall u v, 0 < u -> Rabs u * sqrt (1 + (v / u) ^ 2) = sqrt (u * u + v * v)).
  { intros u v U. rewrite Rabs_pos_eq by lra. rewrite <- (sqrt_square u) at 1 by lra. rewrite <- sqrt_mult; [|nra|].
    - f_equal. field. lra.
    - pose proof (pow2_ge_0 (v / u)). lra. }
  intros X Y. unfold robust_length. destruct (Rltb_spec x y) as [L|L]; rewrite fdiv_ok by lra; cbn [bind]; rewrite T by assumption; do 2 f_equal; ring.
Qed.

Lemma bisection_ok r0 z0 z1 g : 1 <= r0 -> 0 < z0 -> 0 < z1 -> g = z0 ^ 2 + z1 ^ 2 - 1 -> g <> 0 ->
  exists s x, distance_point_bisection r0 z0 z1 g = Ok s /\ gap r0 (r0 * z0) z1 x = 0 /\
   z1 - 1 <= x /\ z1 - 1 <= s /\ Rabs (s - x) <= (1 + r0 * z0) / 2 ^ 1074.
Proof.
  intros R0 Z0 Z1 EG G0. unfold distance_point_bisection. cbn zeta. set (n0 := r0 * z0).
  assert (N0 : 0 < n0) by (unfold n0; apply Rmult_lt_0_compat; lra).
  assert (GS : 0 <= gap r0 n0 z1 (z1 - 1)).
  { unfold gap. replace (z1 / (z1 - 1 + 1)) with 1 by (field; lra). pose proof (pow2_ge_0 (n0 / (z1 - 1 + r0))). lra. }
  assert (B : exists s1, (if Rltb g 0 then Ok 0 else (l <- robust_length n0 z1 ;; Ok (l - 1))) = Ok s1 /\
    z1 - 1 < s1 /\ s1 - (z1 - 1) <= 1 + n0 /\ gap r0 n0 z1 s1 <= 0).
  { destruct (Rltb_spec g 0) as [L|L].
    - exists 0. split; [reflexivity|]. assert (z1 < 1) by nra. split; [lra|]. split; [lra|].
      unfold gap. replace (n0 / (0 + r0)) with z0 by (unfold n0; field; lra). replace (z1 / (0 + 1)) with z1 by field. lra.
    - rewrite robust_length_ok by assumption. cbn [bind]. set (q := sqrt (n0 * n0 + z1 * z1)).
      assert (Q : q * q = n0 * n0 + z1 * z1) by (apply sqrt_sqrt; nra). assert (Q0 : 0 <= q) by apply sqrt_pos.
      exists (q - 1). split; [reflexivity|]. assert (z1 < q) by nra. assert (q <= n0 + z1) by (apply sq_le_nonneg; nra).
      split; [lra|]. split; [lra|]. unfold gap. replace (q - 1 + 1) with q by ring.
      assert (A : (n0 / (q - 1 + r0)) ^ 2 <= (n0 / q) ^ 2).
      { assert (/ (q - 1 + r0) <= / q) by (apply Rinv_le_contravar; lra). assert (0 < / (q - 1 + r0)) by (apply Rinv_0_lt_compat; lra).
        unfold Rdiv. rewrite !Rpow_mult_distr. apply Rmult_le_compat_l; [apply pow2_ge_0|]. nra. }
      assert (T : (n0 / q) ^ 2 + (z1 / q) ^ 2 = 1).
      { replace ((n0 / q) ^ 2 + (z1 / q) ^ 2) with ((n0 * n0 + z1 * z1) / (q * q)) by (field; lra). rewrite <- Q. field. lra. }
      lra. }
  destruct B as (s1 & E & L & W & G1). rewrite E. cbn [bind].
  destruct (gap_root r0 n0 z1 (z1 - 1) s1) as (x & X & GX); try assumption; try lra.
  destruct (loop_ok r0 n0 z1 x 1074 (z1 - 1) s1 0) as (s & Es & Bs & D); try assumption; try lra; try discriminate.
  exists s, x. split; [exact Es|]. split; [exact GX|]. split; [lra|]. split; [lra|].
  apply Rle_trans with (1 := D). unfold Rdiv. apply Rmult_le_compat_r; [|lra]. apply Rlt_le, Rinv_0_lt_compat, pow_lt. lra.
Qed.

Lemma dist_abs a b : dist a b <= Rabs (vx a - vx b) + Rabs (vy a - vy b).
Proof.
  apply sq_le_nonneg; [apply Rplus_le_le_0_compat; apply Rabs_pos|]. rewrite dist_sq.
  assert (A : forall u, Rabs u * Rabs u = u * u) by (intro u; rewrite <- Rabs_mult; apply Rabs_pos_eq, Rle_0_sqr).
  pose proof (A (vx a - vx b)). pose proof (A (vy a - vy b)). pose proof (Rabs_pos (vx a - vx b)). pose proof (Rabs_pos (vy a - vy b)). nra.
Qed.

Lemma eberly_ok e y : 0 < e_ry e -> e_ry e <= e_rx e -> 0 <= vx y -> 0 <= vy y ->
  exists d p x, eberly_distance e y = Ok (d, p) /\ dist y p = d /\ nearest (on_axes (e_rx e) (e_ry e)) y x /\
    0 <= vx p /\ 0 <= vy p /\
    (vx y = 0 \/ vy y = 0 \/ on_axes (e_rx e) (e_ry e) y -> p = x) /\
    (0 < vy y -> dist p x <= tolerance (e_rx e) (e_ry e) (vx y) (vy y)).
Proof.
  destruct y as [y0 y1]. unfold eberly_distance. cbn zeta. cbn [vx vy]. set (e0 := e_rx e). set (e1 := e_ry e).
  intros E1 E01 Y0 Y1. assert (E0 : 0 < e0) by lra.
  assert (Tol : 0 < y1 -> 0 <= tolerance e0 e1 y0 y1).
  { intro P. unfold tolerance. assert (0 <= (e0 / e1) ^ 2) by apply pow2_ge_0. assert (0 <= y0 / e0) by (apply Rmult_le_pos; [lra|apply Rlt_le, Rinv_0_lt_compat; lra]).
    apply Rmult_le_pos; [|apply Rlt_le, Rinv_0_lt_compat, pow_lt; lra]. apply Rmult_le_pos.
    - apply Rmult_le_pos; nra.
    - apply Rlt_le, Rinv_0_lt_compat, pow_lt. apply Rdiv_lt_0_compat; lra. }
  assert (Self : forall p, dist p p = 0) by (intro p; unfold dist; rewrite !Rminus_diag_eq by reflexivity; rewrite Rmult_0_l, Rplus_0_l; apply sqrt_0).
  destruct (Rltb_spec 0 y1) as [P1|P1].
  - destruct (Rltb_spec 0 y0) as [P0|P0].
    + rewrite (fdiv_ok y0 e0), (fdiv_ok y1 e1) by lra. cbn [bind]. set (z0 := y0 / e0). set (z1 := y1 / e1).
      assert (Z0 : 0 < z0) by (apply Rdiv_lt_0_compat; lra). assert (Z1 : 0 < z1) by (apply Rdiv_lt_0_compat; lra).
      destruct (Reqb_spec (z0 ^ 2 + z1 ^ 2 - 1) 0) as [G|G]; cbn [negb].
      { exists 0, (V y0 y1), (V y0 y1). split; [reflexivity|]. split; [apply Self|]. split; [|split; [cbn; lra|split; [cbn; lra|split; [reflexivity|rewrite Self; exact Tol]]]].
        apply (lagrange e0 e1 y0 y1 y0 y1 0); try assumption; try (unfold Rdiv; rewrite Rmult_0_l; lra). unfold on_axes. cbn [vx vy]. fold z0 z1. lra. }
      rewrite fdiv_ok by lra. cbn [bind]. set (r0 := (e0 / e1) ^ 2).
      assert (R0 : 1 <= r0).
      { unfold r0. assert (1 <= e0 / e1); [|nra]. apply (Rmult_le_reg_r e1); [lra|]. unfold Rdiv. rewrite Rmult_assoc, Rinv_l by lra. lra. }
      destruct (bisection_ok r0 z0 z1 _ R0 Z0 Z1 eq_refl G) as (s & x & Es & GX & X & S & D). rewrite Es. cbn [bind].
      rewrite !fdiv_ok by lra. cbn [bind].
      eexists _, (V (r0 * y0 / (s + r0)) (y1 / (s + 1))), (V (r0 * y0 / (x + r0)) (y1 / (x + 1))).
      split; [reflexivity|]. split; [|split; [|split; [|split; [|split]]]].
      * unfold dist. cbn [vx vy]. f_equal. ring.
      * apply (lagrange e0 e1 y0 y1 _ _ (x * e1 ^ 2)); try assumption.
        -- unfold on_axes. cbn [vx vy]. unfold gap in GX.
           replace (r0 * y0 / (x + r0) / e0) with (r0 * z0 / (x + r0)) by (unfold z0; field; split; lra).
           replace (y1 / (x + 1) / e1) with (z1 / (x + 1)) by (unfold z1; field; split; lra). lra.
        -- replace (x * e1 ^ 2 / e0 ^ 2) with (x / r0) by (unfold r0; field; split; lra).
           replace (1 + x / r0) with ((x + r0) / r0) by (field; lra). apply Rmult_le_pos; [lra|apply Rlt_le, Rinv_0_lt_compat; lra].
        -- replace (x * e1 ^ 2 / e1 ^ 2) with x by (field; lra). lra.
        -- replace (x * e1 ^ 2 / e0 ^ 2) with (x / r0) by (unfold r0; field; split; lra). field. lra.
        -- replace (x * e1 ^ 2 / e1 ^ 2) with x by (field; lra). field. lra.
      * cbn [vx]. apply Rmult_le_pos; [nra|apply Rlt_le, Rinv_0_lt_compat; lra].
      * cbn [vy]. apply Rmult_le_pos; [lra|apply Rlt_le, Rinv_0_lt_compat; lra].
      * intros [H|[H|H]]; [lra|lra|]. exfalso. apply G. unfold on_axes in H. cbn [vx vy] in H. fold z0 z1 in H. lra.
      * intros _. apply Rle_trans with (1 := dist_abs _ _). cbn [vx vy].
        assert (Dz : 0 <= / z1 ^ 2) by (apply Rlt_le, Rinv_0_lt_compat, pow_lt; lra).
        assert (Bd : forall k c, 0 <= k -> 1 <= c -> Rabs (k / (s + c) - k / (x + c)) <= k * Rabs (s - x) * / z1 ^ 2).
        { intros k c K C. replace (k / (s + c) - k / (x + c)) with (k * (- (s - x)) * / ((s + c) * (x + c))) by (field; split; lra).
          rewrite !Rabs_mult, Rabs_Ropp, (Rabs_pos_eq k K). apply Rmult_le_compat_l; [apply Rmult_le_pos; [lra|apply Rabs_pos]|].
          rewrite Rabs_pos_eq by (apply Rlt_le, Rinv_0_lt_compat, Rmult_lt_0_compat; lra).
          apply Rinv_le_contravar; [apply pow_lt; lra|]. replace (z1 ^ 2) with (z1 * z1) by ring. apply Rmult_le_compat; lra. }
        pose proof (Bd (r0 * y0) r0 ltac:(nra) R0) as B0. pose proof (Bd y1 1 ltac:(lra) ltac:(lra)) as B1.
        unfold tolerance. fold r0 z0 z1.
        apply Rle_trans with ((r0 * y0 + y1) * Rabs (s - x) * / z1 ^ 2); [lra|].
        apply Rle_trans with ((r0 * y0 + y1) * ((1 + r0 * z0) / 2 ^ 1074) * / z1 ^ 2); [|right; unfold Rdiv; ring].
        apply Rmult_le_compat_r; [exact Dz|]. apply Rmult_le_compat_l; [nra|exact D].
    + assert (y0 = 0) by lra. subst y0. exists (Rabs (y1 - e1)), (V 0 e1), (V 0 e1). split; [reflexivity|]. split; [|split; [|split; [cbn; lra|split; [cbn; lra|split; [reflexivity|rewrite Self; exact Tol]]]]].
      * unfold dist. cbn [vx vy]. replace ((0 - 0) * (0 - 0) + (y1 - e1) * (y1 - e1)) with (Rsqr (y1 - e1)) by (unfold Rsqr; ring). apply sqrt_Rsqr_abs.
      * apply (lagrange e0 e1 0 y1 0 e1 (e1 * (y1 - e1))); try assumption.
        -- unfold on_axes. cbn [vx vy]. field. split; lra.
        -- replace (1 + e1 * (y1 - e1) / e0 ^ 2) with ((e0 ^ 2 - e1 ^ 2 + e1 * y1) * / e0 ^ 2) by (field; lra).
           apply Rmult_le_pos; [nra|]. apply Rlt_le, Rinv_0_lt_compat, pow_lt. lra.
        -- replace (1 + e1 * (y1 - e1) / e1 ^ 2) with (y1 * / e1) by (field; lra). apply Rmult_le_pos; [lra|apply Rlt_le, Rinv_0_lt_compat; lra].
        -- ring.
        -- field. lra.
  - assert (y1 = 0) by lra. subst y1. destruct (Rltb_spec (e0 * y0) (e0 ^ 2 - e1 ^ 2)) as [L|L].
    + assert (Dp : 0 < e0 ^ 2 - e1 ^ 2) by nra. rewrite fdiv_ok by lra. cbn [bind]. set (q := e0 * y0 / (e0 ^ 2 - e1 ^ 2)).
      assert (Q0 : 0 <= q) by (apply Rmult_le_pos; [nra|apply Rlt_le, Rinv_0_lt_compat; lra]).
      assert (Q1 : q < 1).
      { unfold q. apply (Rmult_lt_reg_r (e0 ^ 2 - e1 ^ 2)); [lra|]. unfold Rdiv. rewrite Rmult_assoc, Rinv_l by lra. lra. }
      rewrite Rltb_false by nra. cbn [bind]. eexists _, (V (e0 * q) (e1 * sqrt (1 - q ^ 2))), (V (e0 * q) (e1 * sqrt (1 - q ^ 2))).
      split; [reflexivity|]. split; [|split; [|split; [cbn; nra|split; [|split; [reflexivity|intro; lra]]]]].
      * unfold dist. cbn [vx vy]. f_equal. ring.
      * apply (lagrange e0 e1 y0 0 _ _ (- e1 ^ 2)); try assumption.
        -- apply on_axes_x; try assumption. nra.
        -- replace (1 + - e1 ^ 2 / e0 ^ 2) with ((e0 ^ 2 - e1 ^ 2) * / e0 ^ 2) by (field; lra).
           apply Rmult_le_pos; [lra|]. apply Rlt_le, Rinv_0_lt_compat, pow_lt. lra.
        -- replace (1 + - e1 ^ 2 / e1 ^ 2) with 0 by (field; lra). lra.
        -- unfold q. field. split; lra.
        -- replace (1 + - e1 ^ 2 / e1 ^ 2) with 0 by (field; lra). ring.
      * cbn [vy]. apply Rmult_le_pos; [lra|apply sqrt_pos].
    + exists (Rabs (y0 - e0)), (V e0 0), (V e0 0). split; [reflexivity|]. split; [|split; [|split; [cbn; lra|split; [cbn; lra|split; [reflexivity|intro; lra]]]]].
      * unfold dist. cbn [vx vy]. replace ((y0 - e0) * (y0 - e0) + (0 - 0) * (0 - 0)) with (Rsqr (y0 - e0)) by (unfold Rsqr; ring). apply sqrt_Rsqr_abs.
      * apply (lagrange e0 e1 y0 0 e0 0 (e0 * (y0 - e0))); try assumption.
        -- unfold on_axes. cbn [vx vy]. field. split; lra.
        -- replace (1 + e0 * (y0 - e0) / e0 ^ 2) with (y0 * / e0) by (field; lra). apply Rmult_le_pos; [lra|apply Rlt_le, Rinv_0_lt_compat; lra].
        -- replace (1 + e0 * (y0 - e0) / e1 ^ 2) with ((e0 * y0 - (e0 ^ 2 - e1 ^ 2)) * / e1 ^ 2) by (field; lra).
           apply Rmult_le_pos; [lra|]. apply Rlt_le, Rinv_0_lt_compat, pow_lt. lra.
        -- field. lra.
        -- ring.
Qed.

(** ** Back to the plane *)
Lemma frame_dist c phi q q' u v u' v' : frame c phi q u v -> frame c phi q' u' v' -> dist q q' = dist (V u v) (V u' v').
Proof.
  intros [A B] [C D]. apply sq_eq_nonneg; try apply dist_nonneg. rewrite !dist_sq. cbn [vx vy]. rewrite A, B, C, D.
  pose proof (sin2_cos2 (rad phi)) as T. unfold Rsqr in T. set (s := sin (rad phi)) in *. set (k := cos (rad phi)) in *.
  transitivity ((s * s + k * k) * ((u - u') * (u - u') + (v - v') * (v - v'))); [ring|]. rewrite T. ring.
Qed.
Definition flip (w p : vec) : vec := V (sign (vx w) * vx p) (sign (vy w) * vy p).
Lemma sign_sq x : sign x * sign x = 1. Proof. unfold sign. destruct (Rltb x 0); ring. Qed.
Lemma flip_flip w p : flip w (flip w p) = p.
Proof.
  unfold flip. cbn [vx vy]. apply vec_eq; cbn [vx vy]; rewrite <- Rmult_assoc, sign_sq; ring.
Qed.
Lemma flip_dist w p q : dist (flip w p) (flip w q) = dist p q.
Proof.
  apply sq_eq_nonneg; try apply dist_nonneg. rewrite !dist_sq. cbn [flip vx vy].
  transitivity (sign (vx w) * sign (vx w) * ((vx p - vx q) * (vx p - vx q)) + sign (vy w) * sign (vy w) * ((vy p - vy q) * (vy p - vy q))); [ring|].
  rewrite !sign_sq. ring.
Qed.
Lemma flip_axes e0 e1 w p : on_axes e0 e1 p <-> on_axes e0 e1 (flip w p).
Proof.
  unfold on_axes, flip. cbn [vx vy].
  replace ((sign (vx w) * vx p / e0) ^ 2 + (sign (vy w) * vy p / e1) ^ 2) with
    (sign (vx w) * sign (vx w) * (vx p / e0) ^ 2 + sign (vy w) * sign (vy w) * (vy p / e1) ^ 2) by (unfold Rdiv; ring).
  rewrite !sign_sq, !Rmult_1_l. reflexivity.
Qed.
Lemma flip_abs w : flip w (V (Rabs (vx w)) (Rabs (vy w))) = w.
Proof.
  assert (T : forall x, sign x * Rabs x = x).
  { intro x. unfold sign. destruct (Rltb_spec x 0); [rewrite Rabs_left by assumption|rewrite Rabs_pos_eq by lra]; ring. }
  unfold flip. apply vec_eq; cbn [vx vy]; apply T.
Qed.

Lemma ellipse_distance_ok e y : 0 < e_ry e -> e_ry e <= e_rx e ->
  let w := point_in_ellipse_frame e y in
  exists d p x, ellipse_distance_to_point e y = Ok (d, p) /\ dist y p = d /\
    nearest (on_ellipse (e_center e) (e_rx e) (e_ry e) (e_angle e)) y x /\
    (vx w = 0 \/ vy w = 0 \/ on_ellipse (e_center e) (e_rx e) (e_ry e) (e_angle e) y -> p = x) /\
    (vy w <> 0 -> dist p x <= tolerance (e_rx e) (e_ry e) (Rabs (vx w)) (Rabs (vy w))).
Proof.
  intros E1 E01 w. unfold ellipse_distance_to_point. cbn zeta. fold w.
  destruct (eberly_ok e (V (Rabs (vx w)) (Rabs (vy w))) E1 E01 (Rabs_pos _) (Rabs_pos _)) as (d & p & x & E & D & [Nx N] & _ & _ & Ex & T).
  cbn [vx vy] in Ex, T. rewrite E. cbn [bind]. set (g := point_from_ellipse_frame e). 
  assert (GD : forall a b, dist (g (flip w a)) (g (flip w b)) = dist a b).
  { intros a b. unfold g. rewrite (frame_dist _ _ _ _ _ _ _ _ (frame_from e (flip w a)) (frame_from e (flip w b))). apply flip_dist. }
  assert (GY : g (flip w (V (Rabs (vx w)) (Rabs (vy w)))) = y) by (rewrite flip_abs; apply frames_inverse).
  assert (ON : forall q, on_ellipse (e_center e) (e_rx e) (e_ry e) (e_angle e) (g q) <-> on_axes (e_rx e) (e_ry e) q).
  { intro q. split.
    - intros (u & v & F & H). destruct (frame_unique _ _ _ _ _ _ _ F (frame_from e q)) as [-> ->]. exact H.
    - intro H. exists (vx q), (vy q). split; [apply frame_from|exact H]. }
  exists d, (g (flip w p)), (g (flip w x)). split; [reflexivity|]. split; [|split; [split|split]].
  - rewrite <- D, <- GY. apply GD.
  - apply ON. apply (proj1 (flip_axes _ _ w x)). exact Nx.
  - intros z Z. assert (EZ : z = g (flip w (flip w (point_in_ellipse_frame e z)))) by (rewrite flip_flip; symmetry; apply frames_inverse).
    rewrite <- GY, EZ, !GD. apply N. apply (proj1 (flip_axes _ _ w _)). apply ON. unfold g. rewrite (proj1 (frames_inverse e z)). exact Z.
  - intros H. rewrite Ex; [reflexivity|]. destruct H as [H|[H|H]].
    + left. rewrite H. apply Rabs_R0.
    + right. left. rewrite H. apply Rabs_R0.
    + right. right. rewrite (flip_axes _ _ w), flip_abs. apply ON. unfold g, w. rewrite (proj1 (frames_inverse e y)). exact H.
  - intro H. rewrite GD. apply T. apply Rabs_pos_lt. exact H.
Qed.

(** A taller than wide ellipse, seen from a point of its long axis. *)
Lemma tall_refuted : let e := Ell (V 0 0) 1 2 0 None in
  exists d p, ellipse_distance_to_point e (V 0 (1/2)) = Ok (d, p) /\ d = 3 / 2 /\
    exists z, on_ellipse (V 0 0) 1 2 0 z /\ dist (V 0 (1/2)) z < d.
Proof.
  cbn zeta. unfold ellipse_distance_to_point. cbn zeta. set (e := Ell _ _ _ _ _).
  assert (W : point_in_ellipse_frame e (V 0 (1/2)) = V 0 (1/2)).
  { unfold point_in_ellipse_frame, rotate, e. cbn [negb e_angle e_center vsub vx vy]. replace (radians (-0)) with 0 by (unfold radians; field).
    rewrite cos_0, sin_0. apply vec_eq; cbn [vx vy]; ring. }
  rewrite W. cbn [vx vy]. rewrite Rabs_R0, (Rabs_pos_eq (1/2)) by lra. unfold eberly_distance. cbn zeta. cbn [vx vy e e_rx e_ry]. fold e.
  rewrite (Rltb_true 0) by lra. rewrite Rltb_false by lra. cbn [bind]. eexists _, _. split; [reflexivity|].
  rewrite Rabs_left by lra. split; [lra|]. exists (V 1 0). split.
  - exists 1, 0. split; [unfold frame; cbn [vx vy]; rewrite rad_0, cos_0, sin_0; split; ring|]. lra.
  - unfold dist. cbn [vx vy]. apply Rlt_le_trans with (sqrt ((3/2) * (3/2))); [apply sqrt_lt_1; lra|rewrite sqrt_square; lra].
Qed.

Lemma inside_far_refuted : let e := Ell (V 10 0) 2 1 0 None in
  ellipse_is_point_inside e (V 20 0) = Ok true /\ (forall z, on_ellipse (V 10 0) 2 1 0 z -> vx z <= 12).
Proof.
  cbn zeta. set (e := Ell _ _ _ _ _). split.
  - unfold ellipse_is_point_inside. cbn zeta.
    assert (W : point_in_ellipse_frame e (V 20 0) = V 10 0).
    { unfold point_in_ellipse_frame, rotate, e. cbn [negb e_angle e_center vsub vx vy]. replace (radians (-0)) with 0 by (unfold radians; field).
      rewrite cos_0, sin_0. apply vec_eq; cbn [vx vy]; ring. }
    rewrite W. cbn [vx vy]. rewrite Rabs_R0, (Rabs_pos_eq 10) by lra. unfold eberly_distance. cbn zeta. cbn [vx vy e e_rx e_ry]. fold e.
    rewrite (Rltb_false 0) by lra. rewrite Rltb_false by lra. cbn [bind]. rewrite Rleb_true; [reflexivity|].
    unfold magnitude_square, dot, vsub, e. cbn. lra.
  - intros z (u & v & [A _] & H). cbn [vx] in A. rewrite rad_0, cos_0, sin_0 in A. rewrite A. nra.
Qed.
