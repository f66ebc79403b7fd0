(** Lemmas for C172: dot products, lengths, quotients, arc cosines. *)
From Coq Require Import Reals Lra Lia List Bool ZArith.
From Flocq Require Import Core Relative BinarySingleNaN.
From Verif Require Import Base ModelColor ModelDouble ModelDecide ModelDoubleRotation ModelDoubleDirection ProofDouble PropDouble ProofAccuracy PropAccuracy ProofCurveAccuracy ProofRotation PropRotation.
Import ListNotations.
Local Open Scope R_scope.

(** ** Quotients *)
Lemma quotient_near (x y : float) N R W e f : finite x -> finite y -> 0 < R -> scale W -> 0 <= e <= 20 -> 0 <= f <= 20 ->
  Rabs (val x - N) <= e * u * (R * W) -> Rabs N <= R * W -> Rabs (val y - R) <= f * u * R ->
  finite (fdiv x y) /\ Rabs (val (fdiv x y) - N / R) <= (e + f + 1.05) * u * W /\ (Bsign (fdiv x y) = xorb (Bsign x) (Bsign y)).
Proof.
  intros FX FY R0 SW E F HX HN HY. pose proof (scale_pos W SW) as W0. pose proof u_tiny as U.
  assert (FU : 0 <= f * u <= / 1000000) by (split; nra).
  assert (Y0 : R * (1 - f * u) <= val y). { apply Rabs_le_inv in HY. nra. }
  assert (YP : 0 < val y) by nra.
  assert (Q : Rabs (val x / val y - N / R) <= (e + f + / 100) * u * W).
  { replace (val x / val y - N / R) with (((val x - N) * R - N * (val y - R)) / (val y * R)) by (field; lra).
    unfold Rdiv. rewrite Rabs_mult, (Rabs_pos_eq (/ (val y * R))) by (left; apply Rinv_0_lt_compat; nra).
    apply Rmult_le_reg_r with (val y * R); [nra|]. rewrite Rmult_assoc, Rinv_l, Rmult_1_r by nra.
    assert (T : Rabs ((val x - N) * R - N * (val y - R)) <= (e * u * (R * W)) * R + (R * W) * (f * u * R)).
    { unfold Rminus at 1. apply Rle_trans with (1 := Rabs_triang _ _). rewrite Rabs_Ropp, !Rabs_mult, (Rabs_pos_eq R) by lra. apply Rplus_le_compat.
      - apply Rmult_le_compat_r; lra.
      - apply Rmult_le_compat; auto using Rabs_pos. }
    apply Rle_trans with (1 := T). assert (RW : 0 < R * R * W) by (repeat apply Rmult_lt_0_compat; assumption).
    apply Rle_trans with ((e + f + / 100) * u * W * (R * (1 - f * u) * R)).
    - replace (e * u * (R * W) * R + R * W * (f * u * R)) with ((e + f) * u * (R * R * W)) by ring.
      replace ((e + f + / 100) * u * W * (R * (1 - f * u) * R)) with ((e + f + / 100) * (1 - f * u) * u * (R * R * W)) by ring.
      apply Rmult_le_compat_r; [lra|]. apply Rmult_le_compat_r; [lra|]. nra.
    - apply Rmult_le_compat_l; [apply Rmult_le_pos; [apply Rmult_le_pos|]; lra|]. apply Rmult_le_compat_r; lra. }
  assert (B : Rabs (N / R) <= 1 * W).
  { unfold Rdiv. rewrite Rabs_mult, (Rabs_pos_eq (/ R)) by (left; apply Rinv_0_lt_compat; lra). apply Rmult_le_reg_r with R; [lra|]. rewrite Rmult_assoc, Rinv_l by lra. lra. }
  destruct (round_within W (val x / val y) (N / R) (e + f + / 100) 1 SW ltac:(lra) ltac:(lra) Q B) as (L & H).
  pose proof (@Bdiv_correct 53 1024 prec_ok emax_ok mode_NE x y ltac:(unfold val in YP; lra)) as C.
  change (round radix2 fexp (round_mode mode_NE) (B2R x / B2R y)) with (rnd (val x / val y)) in C. rewrite Rlt_bool_true in C by exact L.
  destruct C as (C1 & C2 & C3). split; [unfold finite, fdiv; rewrite C2; exact FX|]. split.
  - unfold val at 1, fdiv. rewrite C1. apply Rle_trans with (1 := H). assert (0 < u * W) by nra. nra.
  - apply C3. unfold finite in FX. rewrite FX in C2. destruct (Bdiv mode_NE x y); cbn in *; congruence.
Qed.

(** ** Lengths *)
Lemma norm_pos a b : 0 <= norm a b. Proof. apply sqrt_pos. Qed.
Lemma norm_square a b : norm a b * norm a b = a * a + b * b.
Proof. unfold norm. rewrite sqrt_sqrt by nra. ring. Qed.
Lemma norm_left a b : Rabs a <= norm a b /\ Rabs b <= norm a b.
Proof.
  pose proof (norm_pos a b). pose proof (norm_square a b). split; apply Rsqr_incr_0_var; auto; rewrite <- Rsqr_abs; unfold Rsqr; nra.
Qed.
Lemma norm_sum a b : norm a b <= Rabs a + Rabs b.
Proof.
  pose proof (Rabs_pos a). pose proof (Rabs_pos b). apply Rsqr_incr_0_var; [|lra]. unfold Rsqr. rewrite norm_square.
  pose proof (Rsqr_abs a) as A. pose proof (Rsqr_abs b) as B. unfold Rsqr in A, B. nra.
Qed.
(** The inequality of Cauchy and Schwarz, with absolute values. *)
Lemma products_le a b c d : Rabs (a * c) + Rabs (b * d) <= norm a b * norm c d.
Proof.
  rewrite !Rabs_mult. set (p := Rabs a). set (q := Rabs b). set (r := Rabs c). set (s := Rabs d).
  assert (E1 : norm a b * norm a b = p * p + q * q). { rewrite norm_square. pose proof (Rsqr_abs a) as A. pose proof (Rsqr_abs b) as B. unfold Rsqr in A, B. unfold p, q. lra. }
  assert (E2 : norm c d * norm c d = r * r + s * s). { rewrite norm_square. pose proof (Rsqr_abs c) as A. pose proof (Rsqr_abs d) as B. unfold Rsqr in A, B. unfold r, s. lra. }
  pose proof (norm_pos a b). pose proof (norm_pos c d). apply Rsqr_incr_0_var; [|nra]. unfold Rsqr.
  replace (norm a b * norm c d * (norm a b * norm c d)) with ((norm a b * norm a b) * (norm c d * norm c d)) by ring. rewrite E1, E2.
  pose proof (Rle_0_sqr (p * s - q * r)) as Q. unfold Rsqr in Q. nra.
Qed.

Definition not_null (a : dvec) : Prop := ordinary_point a /\ (B2R (d_x a) <> 0 \/ B2R (d_y a) <> 0).
Lemma not_null_norm a : not_null a -> bpow radix2 (-500) <= norm (B2R (d_x a)) (B2R (d_y a)) <= bpow radix2 501.
Proof.
  intros (((_ & BX) & (_ & BY)) & NN). set (x := B2R (d_x a)) in *. set (y := B2R (d_y a)) in *. destruct (norm_left x y) as (L1 & L2). pose proof (norm_sum x y) as S.
  change 501%Z with (1 + 500)%Z. rewrite bpow_plus. change (bpow radix2 1) with 2. pose proof (bpow_gt_0 radix2 500) as P.
  assert (X1 : Rabs x <= bpow radix2 500) by (destruct BX as [->|B]; [rewrite Rabs_R0|]; lra).
  assert (Y1 : Rabs y <= bpow radix2 500) by (destruct BY as [->|B]; [rewrite Rabs_R0|]; lra).
  split; [|lra]. destruct NN as [N|N]; [destruct BX as [B|B]|destruct BY as [B|B]]; try contradiction; lra.
Qed.
Lemma magnitude_near fused a : not_null a -> let r := norm (B2R (d_x a)) (B2R (d_y a)) in
  finite (d_magnitude fused a) /\ Rabs (val (d_magnitude fused a) - r) <= 3 * u * r /\ band (-501) 502 (val (d_magnitude fused a)) /\ Bsign (d_magnitude fused a) = false.
Proof.
  intros NN r. destruct (not_null_norm a NN) as (N1 & N2). fold r in N1, N2. destruct NN as (O & _). destruct (C166_length_partial fused a O) as (F & E). cbv zeta in E.
  assert (ER : sqrt (B2R (d_x a) * B2R (d_x a) + B2R (d_y a) * B2R (d_y a)) = r) by (unfold r, norm; f_equal; ring). rewrite ER in E. replace (3 / 2 ^ 53) with (3 * u) in E by (unfold u; field).
  pose proof (bpow_gt_0 radix2 (-500)) as P. pose proof u_tiny as U. fold (val (d_magnitude fused a)) in E. pose proof E as E'. apply Rabs_le_inv in E'.
  assert (LO : / 2 * r <= val (d_magnitude fused a) <= 2 * r) by nra.
  split; [exact F|]. split; [exact E|]. split.
  - right. rewrite Rabs_pos_eq by lra. change (-501)%Z with (-1 + -500)%Z. change 502%Z with (1 + 501)%Z. rewrite !bpow_plus. change (bpow radix2 (-1)) with (/ 2). change (bpow radix2 1) with 2. lra.
  - unfold val in LO. destruct (d_magnitude fused a) as [s|s| |s m e H]; cbn [B2R Bsign] in *; try discriminate F; [lra|]. destruct s; [|reflexivity].
    exfalso. assert (F2R (Float radix2 (Zneg m) e) < 0) by (apply F2R_lt_0; cbn; lia). cbn [cond_Zopp Z.opp] in LO. lra.
Qed.

(** ** Dot products *)
Lemma dot_near fused a b : ordinary_point a -> ordinary_point b ->
  let p := B2R (d_x a) * B2R (d_x b) in let q := B2R (d_y a) * B2R (d_y b) in
  finite (d_dot fused a b) /\ Rabs (val (d_dot fused a b) - (p + q)) <= 3 * u * (Rabs p + Rabs q).
Proof.
  intros [[FXA BXA] [FYA BYA]] [[FXB BXB] [FYB BYB]] p q. pose proof u_tiny as U.
  destruct (mul_near (-500) 500 (-500) 500 _ _ FXA FXB BXA BXB ltac:(lia) ltac:(lia)) as (F1 & B1 & d1 & D1 & E1).
  destruct (mul_near (-500) 500 (-500) 500 _ _ FYA FYB BYA BYB ltac:(lia) ltac:(lia)) as (F2 & B2 & d2 & D2 & E2).
  pose proof (band_mul (-500) 500 (-500) 500 _ _ BXA BXB) as BP. pose proof (band_mul (-500) 500 (-500) 500 _ _ BYA BYB) as BQ. fold p in BP. fold q in BQ.
  change (val (d_x a) * val (d_x b)) with p in E1. change (val (d_y a) * val (d_y b)) with q in E2.
  assert (K : exists d3, Rabs d3 <= u /\ (Rabs (rnd (p * (1 + d1) + q * (1 + d3))) < bpow radix2 1024 -> finite (d_dot fused a b) /\ val (d_dot fused a b) = rnd (p * (1 + d1) + q * (1 + d3)))).
  { unfold d_dot. destruct fused.
    - exists 0. split; [rewrite Rabs_R0; lra|]. intros L. pose proof (@Bfma_correct 53 1024 prec_ok emax_ok mode_NE _ _ _ FYA FYB F1) as C. cbv zeta in C.
      change (round radix2 fexp (round_mode mode_NE) (B2R (d_y a) * B2R (d_y b) + B2R (fmul (d_x a) (d_x b)))) with (rnd (q + val (fmul (d_x a) (d_x b)))) in C. rewrite E1 in C.
      replace (q + p * (1 + d1)) with (p * (1 + d1) + q * (1 + 0)) in C by ring. rewrite Rlt_bool_true in C by exact L. destruct C as (C1 & C2 & _). split; [exact C2|exact C1].
    - exists d2. split; [exact D2|]. intros L. pose proof (@Bplus_correct 53 1024 prec_ok emax_ok mode_NE _ _ F1 F2) as C.
      change (round radix2 fexp (round_mode mode_NE) (B2R (fmul (d_x a) (d_x b)) + B2R (fmul (d_y a) (d_y b)))) with (rnd (val (fmul (d_x a) (d_x b)) + val (fmul (d_y a) (d_y b)))) in C. rewrite E1, E2 in C.
      rewrite Rlt_bool_true in C by exact L. destruct C as (C1 & C2 & _). split; [exact C2|exact C1]. }
  destruct K as (d3 & D3 & K). set (m := p * (1 + d1) + q * (1 + d3)) in *. set (n := Rabs p + Rabs q).
  pose proof (Rabs_pos p) as P0. pose proof (Rabs_pos q) as Q0.
  assert (MN : Rabs (m - (p + q)) <= u * n).
  { unfold m, n. replace (p * (1 + d1) + q * (1 + d3) - (p + q)) with (p * d1 + q * d3) by ring. apply Rle_trans with (1 := Rabs_triang _ _). rewrite !Rabs_mult. nra. }
  assert (PQ : Rabs (p + q) <= n) by apply Rabs_triang.
  assert (M2 : Rabs m <= (1 + u) * n). { replace m with (m - (p + q) + (p + q)) by ring. apply Rle_trans with (1 := Rabs_triang _ _). lra. }
  assert (NB : n <= 2 * bpow radix2 1000). { pose proof (band_le _ _ _ BP : _ <= bpow radix2 1000). pose proof (band_le _ _ _ BQ : _ <= bpow radix2 1000). unfold n. lra. }
  destruct K as (F & V).
  { apply (round_small _ 1002); [lia|]. change 1002%Z with (2 + 1000)%Z. rewrite bpow_plus. change (bpow radix2 2) with 4. pose proof (bpow_gt_0 radix2 1000). assert (0 <= n) by (unfold n; lra). nra. }
  split; [exact F|]. rewrite V.
  assert (Z : Rabs (rnd m - m) <= u * Rabs m + / 1000 * u * n).
  { destruct (Req_dec n 0) as [N0|N0].
    - assert (M0 : m = 0). { rewrite N0, Rmult_0_r in M2. pose proof (Rabs_pos m). destruct (Req_dec m 0) as [E|E]; [exact E|]. apply Rabs_pos_lt in E. lra. }
      rewrite M0, rnd_0, Rminus_0_r, Rabs_R0, N0. lra.
    - apply Rle_trans with (1 := rnd_error m). apply Rplus_le_compat_l.
      assert (N1 : bpow radix2 (-1000) <= n).
      { unfold n. destruct BP as [BP|[BP _]]; [destruct BQ as [BQ|[BQ _]]|].
        - exfalso. apply N0. unfold n. rewrite BP, BQ, Rabs_R0. ring.
        - change (-500 + -500)%Z with (-1000)%Z in BQ. lra.
        - change (-500 + -500)%Z with (-1000)%Z in BP. lra. }
      apply Rle_trans with (/ 1000 * u * bpow radix2 (-1000)); [|apply Rmult_le_compat_l; lra].
      change (-1074)%Z with (-74 + -1000)%Z. rewrite bpow_plus. pose proof (bpow_gt_0 radix2 (-1000)). rewrite <- Rmult_assoc. apply Rmult_le_compat_r; [lra|].
      unfold u. cbn. unfold Z.pow_pos. cbn. lra. }
  replace (rnd m - (p + q)) with (rnd m - m + (m - (p + q))) by ring. apply Rle_trans with (1 := Rabs_triang _ _). fold n. assert (N0 : 0 <= n) by (unfold n; lra).
  assert (G1 : u * Rabs m <= u * ((1 + u) * n)) by (apply Rmult_le_compat_l; lra). assert (G2 : 0 <= u * n) by nra. assert (G3 : u * (u * n) <= / 10 * (u * n)) by (apply Rmult_le_compat_r; lra).
  replace (u * ((1 + u) * n)) with (u * n + u * (u * n)) in G1 by ring. lra.
Qed.

(** ** The clamp *)
Lemma neg_one : finite (dbl_neg one) /\ val (dbl_neg one) = -1.
Proof. destruct one_val as (V & F & _). split; [reflexivity|]. unfold dbl_neg, val. rewrite B2R_Bopp. fold (val one). rewrite V. reflexivity. Qed.
Lemma clamp_near x c d : finite x -> -1 <= c <= 1 -> Rabs (val x - c) <= d -> finite (d_clamp x) /\ -1 <= val (d_clamp x) <= 1 /\ Rabs (val (d_clamp x) - c) <= d /\ Bsign (d_clamp x) = Bsign x.
Proof.
  intros F C D. destruct one_val as (VO & FO & SO). destruct neg_one as (FN & VN). unfold d_clamp, dbl_lt. rewrite !Bltb_correct by assumption. fold (val one) (val x) (val (dbl_neg one)). rewrite VO, VN.
  apply Rabs_le_inv in D. 
  assert (SG : forall y : float, (0 < val y -> Bsign y = false) /\ (val y < 0 -> Bsign y = true)).
  { intros [s|s| |s m e H]; unfold val; cbn [B2R Bsign]; split; intros L; try lra; destruct s; try reflexivity; exfalso; cbn [cond_Zopp Z.opp] in L.
    - assert (F2R (Float radix2 (Zneg m) e) < 0) by (apply F2R_lt_0; cbn; lia). lra.
    - assert (0 < F2R (Float radix2 (Zpos m) e)) by (apply F2R_gt_0; cbn; lia). lra. }
  case Rlt_bool_spec; intros L1; [|case Rlt_bool_spec; intros L2].
  - split; [exact FO|]. rewrite VO. split; [lra|]. split; [apply Rabs_le; lra|]. rewrite SO. symmetry. apply SG. lra.
  - split; [exact FN|]. rewrite VN. split; [lra|]. split; [apply Rabs_le; lra|]. symmetry. rewrite (proj2 (SG x)) by lra. reflexivity.
  - split; [exact F|]. split; [lra|]. split; [apply Rabs_le; lra|reflexivity].
Qed.

(** ** Arc cosines of near numbers *)
Lemma sin_low t : 0 <= t <= PI / 2 -> 0.588 * t <= sin t.
Proof.
  intros T. destruct pi_digits as (P1 & P2). destruct (sin_bound t 0) as (A & _); [lra|lra|]. unfold sin_approx, sin_term in A. cbn [sum_f_R0 Nat.mul Nat.add] in A. cbn in A. nra.
Qed.
Lemma cos_apart a b : 0 <= a <= PI -> 0 <= b <= PI -> 0.1728 * ((a - b) * (a - b)) <= Rabs (cos a - cos b).
Proof.
  assert (G : forall a b, 0 <= a -> a <= b -> b <= PI -> 0.1728 * ((a - b) * (a - b)) <= cos a - cos b).
  { clear. intros a b A AB B. pose proof PI_RGT_0 as P. rewrite form2. set (t := (b - a) / 2). set (m := (a + b) / 2). replace ((a - b) / 2) with (- t) by (unfold t; field).
    rewrite sin_neg. pose proof (sin_low t ltac:(unfold t; lra)) as S1.
    assert (S2 : sin t <= sin m).
    { destruct (Rle_dec m (PI / 2)) as [M|M].
      - apply sin_incr_1; unfold t, m in *; lra.
      - rewrite <- (sin_PI_x m). apply sin_incr_1; unfold t, m in *; lra. }
    replace (a - b) with (-2 * t) by (unfold t; field). assert (0 <= t) by (unfold t; lra). nra. }
  intros A B. destruct (Rle_dec a b) as [L|L].
  - rewrite Rabs_pos_eq; [apply G; lra|]. apply Rle_trans with (2 := G a b ltac:(lra) L ltac:(lra)). nra.
  - rewrite Rabs_minus_sym, Rabs_pos_eq; [replace ((a - b) * (a - b)) with ((b - a) * (b - a)) by ring; apply G; lra|]. apply Rle_trans with (2 := G b a ltac:(lra) ltac:(lra) ltac:(lra)). nra.
Qed.
