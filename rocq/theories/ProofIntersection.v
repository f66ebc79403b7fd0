(** Lemmas for C173. *)
From Coq Require Import Reals Lra Lia List Bool ZArith.
From Flocq Require Import Core Relative BinarySingleNaN.
From Verif Require Import Base ModelColor ModelDouble ModelDecide ModelDoubleIntersection ProofDouble PropDouble ProofAccuracy PropAccuracy ProofCurveAccuracy PropCurveAccuracy ProofArea PropArea.
Import ListNotations.
Local Open Scope R_scope.

Notation eta := (/ 2 * bpow radix2 (-1074)).
Lemma mul_error x y : finite x -> finite y -> Rabs (val x * val y) <= bpow radix2 1000 ->
  finite (fmul x y) /\ Rabs (val (fmul x y) - val x * val y) <= u * Rabs (val x * val y) + eta.
Proof.
  intros FX FY B. assert (L : Rabs (rnd (val x * val y)) < bpow radix2 1024) by (apply (round_small _ 1000); [lia|exact B]).
  pose proof (@Bmult_correct 53 1024 prec_ok emax_ok mode_NE x y) as C. change (round radix2 fexp (round_mode mode_NE) (B2R x * B2R y)) with (rnd (val x * val y)) in C.
  rewrite Rlt_bool_true in C by exact L. destruct C as (C1 & C2 & _). split; [unfold finite, fmul; rewrite C2; unfold finite in FX, FY; rewrite FX, FY; reflexivity|].
  unfold val at 1, fmul. rewrite C1. apply rnd_error.
Qed.
Lemma add_error x y : finite x -> finite y -> Rabs (val x + val y) <= bpow radix2 1000 ->
  finite (dbl_add x y) /\ Rabs (val (dbl_add x y) - (val x + val y)) <= u * Rabs (val x + val y) + eta.
Proof.
  intros FX FY B. assert (L : Rabs (rnd (val x + val y)) < bpow radix2 1024) by (apply (round_small _ 1000); [lia|exact B]).
  pose proof (@Bplus_correct 53 1024 prec_ok emax_ok mode_NE x y FX FY) as C. change (round radix2 fexp (round_mode mode_NE) (B2R x + B2R y)) with (rnd (val x + val y)) in C.
  rewrite Rlt_bool_true in C by exact L. destruct C as (C1 & C2 & _). split; [exact C2|]. unfold val at 1, dbl_add. rewrite C1. apply rnd_error.
Qed.
Lemma inverse_error y : finite y -> bpow radix2 (-900) <= Rabs (val y) <= bpow radix2 900 ->
  finite (fdiv one y) /\ exists d, Rabs d <= u /\ val (fdiv one y) = / val y * (1 + d).
Proof.
  intros FY [B1 B2]. destruct one_val as (VO & FO & _). pose proof (bpow_gt_0 radix2 (-900)) as P.
  assert (NZ : val y <> 0) by (intros E; rewrite E, Rabs_R0 in B1; lra).
  assert (B : band (-900) 900 (1 / val y)).
  { right. unfold Rdiv. rewrite Rmult_1_l, Rabs_inv. assert (I1 : bpow radix2 (-900) = / bpow radix2 900) by (rewrite <- bpow_opp; reflexivity). assert (I2 : bpow radix2 900 = / bpow radix2 (-900)) by (rewrite <- bpow_opp; reflexivity).
    split; [rewrite I1|rewrite I2]; apply Rinv_le_contravar; try lra; apply bpow_gt_0. }
  destruct (band_round (-900) 900 _ ltac:(lia) ltac:(lia) B) as (B' & d & D & E).
  pose proof (@Bdiv_correct 53 1024 prec_ok emax_ok mode_NE one y NZ) as C. change (round radix2 fexp (round_mode mode_NE) (B2R one / B2R y)) with (rnd (val one / val y)) in C. rewrite VO in C.
  rewrite Rlt_bool_true in C by (apply (band_small (-900) 900); [lia|exact B']). destruct C as (C1 & C2 & _). split; [unfold finite, fdiv; rewrite C2; exact FO|].
  exists d. split; [exact D|]. unfold val at 1, fdiv. rewrite C1, E. unfold Rdiv. rewrite Rmult_1_l. reflexivity.
Qed.
(** The cross product of a vector which is known up to some units and of a vector of the drawing. *)
Lemma cross_wide s a x y e b w : side_size s -> 0 <= e <= 10 -> 0 <= b <= 10 -> within s (d_x a) x e b -> within s (d_y a) y e b -> in_drawing s w ->
  within (s * s) (d_cross a w) (x * Y w - y * X w) (2 * e + 4 * b + 0.1) (2 * b).
Proof.
  intros SS E B AX AY PW. destruct (square_scale s SS) as (P & S1 & S2). destruct (point_within s w PW) as (WX & WY).
  pose proof AX as (_ & _ & B1). pose proof AY as (_ & _ & B2). pose proof WX as (_ & _ & B3). pose proof WY as (_ & _ & B4).
  pose proof (product_le s _ _ b 1 B1 B4) as L1. pose proof (product_le s _ _ b 1 B2 B3) as L2. rewrite Rmult_1_r in L1, L2.
  pose proof (product_within s _ _ e b _ _ 0 1 b P S2 ltac:(lra) ltac:(lra) ltac:(lra) ltac:(lra) ltac:(lra) ltac:(lra) AX WY L1) as M1. apply (within_le _ _ _ _ _ (e + b + 0.03) b S2) in M1; try lra.
  pose proof (product_within s _ _ e b _ _ 0 1 b P S2 ltac:(lra) ltac:(lra) ltac:(lra) ltac:(lra) ltac:(lra) ltac:(lra) AY WX L2) as M2. apply (within_le _ _ _ _ _ (e + b + 0.03) b S2) in M2; try lra.
  assert (L : Rabs (x * Y w - y * X w) <= 2 * b * (s * s)). { unfold Rminus. apply Rle_trans with (1 := Rabs_triang _ _). rewrite Rabs_Ropp. lra. }
  pose proof (sub_within (s * s) _ _ (e + b + 0.03) b _ _ (e + b + 0.03) b (2 * b) S2 ltac:(lra) ltac:(lra) ltac:(lra) M1 M2 L) as M. apply (within_le _ _ _ _ _ (2 * e + 4 * b + 0.1) (2 * b) S2) in M; try lra.
  exact M.
Qed.
(** A quotient as the product by an inverse. *)
Lemma ratio_near (n c : float) N C S k : scale S -> 1 <= k <= 2 ^ 30 -> within S n N 12.3 4 -> within S c C 4.1 2 -> S <= k * Rabs C ->
  bpow radix2 (-860) <= Rabs C -> Rabs C <= bpow radix2 860 ->
  finite (fmul n (fdiv one c)) /\ Rabs (N / C) <= 4 * k /\ Rabs (val (fmul n (fdiv one c)) - N / C) <= (13 * k + 7 * k * Rabs (N / C)) * u /\ 0.99 * Rabs C <= Rabs (val c).
Proof.
  intros SS K (FN & EN & BN) (FC & EC & BC) SK LC HC. pose proof (scale_pos S SS) as P. pose proof u_tiny as U. pose proof (bpow_gt_0 radix2 (-860)) as PL.
  assert (UK : u * k <= / 8000000) by (unfold u; lra). assert (UK0 : 0 < u * k) by nra.
  set (g := Rabs C) in *. assert (G0 : 0 < g) by lra. assert (C0 : C <> 0) by (intros E; unfold g in G0; rewrite E, Rabs_R0 in G0; lra).
  assert (SG : u * S <= u * k * g) by (rewrite Rmult_assoc; apply Rmult_le_compat_l; lra).
  assert (E2 : Rabs (val c - C) <= 4.1 * (u * k * g)) by lra. assert (E3 : Rabs (val n - N) <= 12.3 * (u * k * g)) by lra.
  assert (UG : u * k * g <= / 8000000 * g) by (apply Rmult_le_compat_r; lra).
  assert (CL : 0.99 * g <= Rabs (val c)). { pose proof (Rabs_triang_inv C (C - val c)) as T. replace (C - (C - val c)) with (val c) in T by ring. rewrite (Rabs_minus_sym C (val c)) in T. fold g in T. lra. }
  assert (CH : Rabs (val c) <= 1.01 * g). { replace (val c) with (val c - C + C) by ring. apply Rle_trans with (1 := Rabs_triang _ _). fold g. lra. }
  assert (VC : val c <> 0) by (intros E; rewrite E, Rabs_R0 in CL; lra).
  destruct (inverse_error c FC) as (FD & d & D & ED).
  { split.
    - apply Rle_trans with (/ 2 * bpow radix2 (-860)); [|lra]. change (/ 2) with (bpow radix2 (-1)). rewrite <- bpow_plus. apply bpow_le. lia.
    - apply Rle_trans with (2 * bpow radix2 860); [lra|]. change 2 with (bpow radix2 1). rewrite <- bpow_plus. apply bpow_le. lia. }
  set (q := N / C). set (a := Rabs q).
  assert (A0 : 0 <= a) by apply Rabs_pos.
  assert (AK : a <= 4 * k).
  { unfold a, q, Rdiv. rewrite Rabs_mult, Rabs_inv. fold g. apply Rmult_le_reg_r with g; [lra|]. rewrite Rmult_assoc, Rinv_l, Rmult_1_r by lra. nra. }
  assert (Q : Rabs (val n / val c - q) <= (12.5 + 4.2 * a) * (u * k)).
  { replace (val n / val c - q) with (((val n - N) - q * (val c - C)) / val c) by (unfold q; field; auto).
    unfold Rdiv at 1. rewrite Rabs_mult, Rabs_inv. apply Rmult_le_reg_r with (Rabs (val c)); [lra|]. rewrite Rmult_assoc, Rinv_l, Rmult_1_r by lra.
    apply Rle_trans with (12.3 * (u * k * g) + a * (4.1 * (u * k * g))).
    - unfold Rminus at 1. apply Rle_trans with (1 := Rabs_triang _ _). rewrite Rabs_Ropp, Rabs_mult. fold a. apply Rplus_le_compat; [exact E3|apply Rmult_le_compat_l; assumption].
    - apply Rle_trans with ((12.5 + 4.2 * a) * (u * k) * (0.99 * g)); [|apply Rmult_le_compat_l; [apply Rmult_le_pos; lra|exact CL]].
      assert (H1 : 0 <= u * k * g) by nra. assert (H2 : 0 <= a * (u * k * g)) by (apply Rmult_le_pos; assumption). 
      replace ((12.5 + 4.2 * a) * (u * k) * (0.99 * g)) with (12.375 * (u * k * g) + 4.158 * (a * (u * k * g))) by lra. lra. }
  assert (Q2 : Rabs (val n / val c) <= 1.01 * a + 0.01).
  { replace (val n / val c) with (val n / val c - q + q) by ring. apply Rle_trans with (1 := Rabs_triang _ _). fold a. nra. }
  set (r := val n / val c) in *. assert (EV : val n * val (fdiv one c) = r * (1 + d)) by (rewrite ED; unfold r; field; exact VC).
  assert (R1 : Rabs (r * (1 + d) - r) <= u * (1.01 * a + 0.01)).
  { replace (r * (1 + d) - r) with (d * r) by ring. rewrite Rabs_mult. apply Rmult_le_compat; auto using Rabs_pos. }
  assert (R2 : Rabs (r * (1 + d)) <= 1.02 * a + 0.02). { replace (r * (1 + d)) with (r * (1 + d) - r + r) by ring. apply Rle_trans with (1 := Rabs_triang _ _). nra. }
  destruct (mul_error n (fdiv one c) FN FD) as (FM & EM).
  { rewrite EV. apply Rle_trans with (1 := R2). apply Rle_trans with (bpow radix2 40); [|apply bpow_le; lia]. change (bpow radix2 40) with 1099511627776. lra. }
  split; [exact FM|]. split; [exact AK|]. split; [|exact CL]. rewrite EV in EM.
  assert (TT : eta <= / 100 * u). { apply Rle_trans with (bpow radix2 (-63)); [|unfold u; cbn; unfold Z.pow_pos; cbn; lra]. apply Rle_trans with (bpow radix2 (-1074)); [pose proof (bpow_gt_0 radix2 (-1074)); lra|apply bpow_le; lia]. }
  set (m := val (fmul n (fdiv one c))) in *. replace (m - q) with (m - r * (1 + d) + ((r * (1 + d) - r) + (r - q))) by ring.
  apply Rle_trans with (1 := Rabs_triang _ _). pose proof (Rabs_triang (r * (1 + d) - r) (r - q)) as T.
  assert (EM2 : u * Rabs (r * (1 + d)) <= u * (1.02 * a + 0.02)) by (apply Rmult_le_compat_l; lra).
  assert (UA : 0 <= u * a) by (apply Rmult_le_pos; lra). assert (KA : u * a <= u * k * a) by (rewrite (Rmult_comm u k), Rmult_assoc; rewrite <- (Rmult_1_l (u * a)) at 1; apply Rmult_le_compat_r; lra).
  assert (K1 : u <= u * k) by nra. fold r in Q. replace ((13 * k + 7 * k * a) * u) with (13 * (u * k) + 7 * (u * k * a)) by ring.
  replace ((12.5 + 4.2 * a) * (u * k)) with (12.5 * (u * k) + 4.2 * (u * k * a)) in Q by lra. lra.
Qed.
