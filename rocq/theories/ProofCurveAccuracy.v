(** Lemmas on errors relative to a scale (C169). *)
From Coq Require Import Reals Lra Lia List Bool ZArith.
From Flocq Require Import Core Relative BinarySingleNaN.
From Verif Require Import Base ModelColor ModelDouble ProofDouble ProofAccuracy.
Local Open Scope R_scope.

(** A scale: neither very small nor very large. *)
Definition scale (S : R) : Prop := bpow radix2 (-900) <= S <= bpow radix2 900.
(** x is r up to e units of rounding of the scale, and r is at most b times the scale. *)
Definition within (S : R) (x : float) (r e b : R) : Prop := finite x /\ Rabs (val x - r) <= e * u * S /\ Rabs r <= b * S.

Lemma scale_pos S : scale S -> 0 < S.
Proof. intros [A _]. pose proof (bpow_gt_0 radix2 (-900)). lra. Qed.
Lemma scale_one : scale 1.
Proof. split; change 1 with (bpow radix2 0); apply bpow_le; lia. Qed.
Lemma u_tiny : 0 < u < / 1000000000. Proof. unfold u. lra. Qed.
Lemma tiny_scale S : scale S -> / 2 * bpow radix2 (-1074) <= u * S / 1000.
Proof.
  intros [A _]. apply Rle_trans with (u * bpow radix2 (-900) / 1000); [|pose proof u_tiny; nra].
  replace u with (bpow radix2 (-53)) by (unfold u; cbn; unfold Z.pow_pos; cbn; lra). rewrite <- bpow_plus.
  change (-53 + -900)%Z with (121 + -1074)%Z. rewrite bpow_plus. pose proof (bpow_gt_0 radix2 (-1074)).
  assert (1000 <= bpow radix2 121) by (apply Rle_trans with (bpow radix2 10); [cbn; lra|apply bpow_le; lia]). nra.
Qed.
Lemma rnd_error r : Rabs (rnd r - r) <= u * Rabs r + / 2 * bpow radix2 (-1074).
Proof.
  destruct (error_N_FLT radix2 (-1074) 53 eq_refl (fun x => negb (Z.even x)) r) as (e & f & E & F & _ & H).
  change (round radix2 (FLT_exp (-1074) 53) (Znearest (fun x => negb (Z.even x))) r) with (rnd r) in H. rewrite H.
  replace (r * (1 + e) + f - r) with (r * e + f) by ring. apply Rle_trans with (1 := Rabs_triang _ _). rewrite Rabs_mult.
  assert (U : / 2 * bpow radix2 (- (53) + 1) = u) by (unfold u; cbn; unfold Z.pow_pos; cbn; lra). rewrite U in E. pose proof (Rabs_pos r). nra.
Qed.
Lemma round_within S v r e b : scale S -> 0 <= e <= 10000 -> 0 <= b <= 1000 -> Rabs (v - r) <= e * u * S -> Rabs r <= b * S ->
  Rabs (rnd v) < bpow radix2 1024 /\ Rabs (rnd v - r) <= (e + b + / 100) * u * S.
Proof.
  intros SS E B V R. pose proof (scale_pos S SS) as P. pose proof (tiny_scale S SS) as T. pose proof u_tiny as U. pose proof (rnd_error v) as D.
  assert (EU : 0 <= e * u <= / 100000) by nra.
  assert (V2 : Rabs v <= (b + / 100000) * S).
  { replace v with (v - r + r) by ring. apply Rle_trans with (1 := Rabs_triang _ _). assert (e * u * S <= / 100000 * S) by nra. lra. }
  assert (D2 : Rabs (rnd v - v) <= (b + / 500) * (u * S)).
  { apply Rle_trans with (1 := D). assert (0 < u * S) by nra. assert (u * Rabs v <= u * ((b + / 100000) * S)) by nra. nra. }
  split.
  - apply (round_small _ 911); [lia|]. apply Rle_trans with (1 := V2). change 911%Z with (11 + 900)%Z. rewrite bpow_plus. destruct SS as [_ SS].
    apply Rmult_le_compat; try lra. cbn. lra.
  - replace (rnd v - r) with (rnd v - v + (v - r)) by ring. apply Rle_trans with (1 := Rabs_triang _ _). assert (0 < u * S) by nra. nra.
Qed.
Lemma add_within S x r e b y s f c d : scale S -> 0 <= e <= 1000 -> 0 <= f <= 1000 -> 0 <= d <= 1000 -> within S x r e b -> within S y s f c -> Rabs (r + s) <= d * S ->
  within S (dbl_add x y) (r + s) (e + f + d + / 100) d.
Proof.
  intros SS E F D (FX & AX & _) (FY & AY & _) B.
  destruct (round_within S (val x + val y) (r + s) (e + f) d SS) as (L & H); try lra.
  { replace (val x + val y - (r + s)) with (val x - r + (val y - s)) by ring. apply Rle_trans with (1 := Rabs_triang _ _). lra. }
  pose proof (@Bplus_correct 53 1024 prec_ok emax_ok mode_NE x y FX FY) as C.
  change (round radix2 fexp (round_mode mode_NE) (B2R x + B2R y)) with (rnd (val x + val y)) in C.
  rewrite Rlt_bool_true in C by exact L. destruct C as (C1 & C2 & _). split; [exact C2|]. split; [|exact B]. unfold val, dbl_add in *. rewrite C1. exact H.
Qed.
Lemma sub_within S x r e b y s f c d : scale S -> 0 <= e <= 1000 -> 0 <= f <= 1000 -> 0 <= d <= 1000 -> within S x r e b -> within S y s f c -> Rabs (r - s) <= d * S ->
  within S (dbl_sub x y) (r - s) (e + f + d + / 100) d.
Proof.
  intros SS E F D (FX & AX & _) (FY & AY & _) B.
  destruct (round_within S (val x - val y) (r - s) (e + f) d SS) as (L & H); try lra.
  { replace (val x - val y - (r - s)) with (val x - r + - (val y - s)) by ring. apply Rle_trans with (1 := Rabs_triang _ _). rewrite Rabs_Ropp. lra. }
  pose proof (@Bminus_correct 53 1024 prec_ok emax_ok mode_NE x y FX FY) as C.
  change (round radix2 fexp (round_mode mode_NE) (B2R x - B2R y)) with (rnd (val x - val y)) in C.
  rewrite Rlt_bool_true in C by exact L. destruct C as (C1 & C2 & _). split; [exact C2|]. split; [|exact B]. unfold val, dbl_sub in *. rewrite C1. exact H.
Qed.
(** The product of a weight and a length. *)
Lemma mul_within S x r e b y s f c d : scale S -> 0 <= e <= 1000 -> 0 <= f <= 1000 -> 0 <= b -> 0 <= c -> 0 <= d <= 1000 -> e * c + b * f <= 5000 ->
  within 1 x r e b -> within S y s f c -> Rabs (r * s) <= d * S -> within S (fmul x y) (r * s) (e * c + b * f + d + / 50) d.
Proof.
  intros SS E F HB HC D T (FX & AX & BX) (FY & AY & BY) B. rewrite Rmult_1_r in AX, BX. pose proof (scale_pos S SS) as P. pose proof u_tiny as U.
  assert (0 <= e * c) by nra. assert (0 <= b * f) by nra.
  destruct (round_within S (val x * val y) (r * s) (e * c + b * f + / 100) d SS) as (L & H1); try lra.
  { replace (val x * val y - r * s) with ((val x - r) * s + (r * (val y - s) + (val x - r) * (val y - s))) by ring.
    apply Rle_trans with (1 := Rabs_triang _ _). apply Rle_trans with (Rabs ((val x - r) * s) + (Rabs (r * (val y - s)) + Rabs ((val x - r) * (val y - s)))).
    { pose proof (Rabs_triang (r * (val y - s)) ((val x - r) * (val y - s))). lra. }
    rewrite !Rabs_mult.
    assert (M1 : Rabs (val x - r) * Rabs s <= (e * u) * (c * S)) by (apply Rmult_le_compat; auto using Rabs_pos).
    assert (M2 : Rabs r * Rabs (val y - s) <= b * (f * u * S)) by (apply Rmult_le_compat; auto using Rabs_pos).
    assert (M3 : Rabs (val x - r) * Rabs (val y - s) <= (e * u) * (f * u * S)) by (apply Rmult_le_compat; auto using Rabs_pos).
    assert (M4 : e * f * u <= / 100) by (assert (e * f <= 1000000) by nra; assert (0 <= e * f) by nra; nra).
    replace ((e * u) * (f * u * S)) with (e * f * u * (u * S)) in M3 by ring. assert (0 < u * S) by nra.
    replace ((e * c + b * f + / 100) * u * S) with (e * u * (c * S) + (b * (f * u * S) + / 100 * (u * S))) by ring. nra. }
  pose proof (@Bmult_correct 53 1024 prec_ok emax_ok mode_NE x y) as C.
  change (round radix2 fexp (round_mode mode_NE) (B2R x * B2R y)) with (rnd (val x * val y)) in C.
  rewrite Rlt_bool_true in C by exact L. destruct C as (C1 & C2 & _). rewrite FX, FY in C2. split; [exact C2|]. split; [|exact B]. unfold val, fmul in *. rewrite C1.
  apply Rle_trans with (1 := H1). assert (0 < u * S) by nra. nra.
Qed.
Lemma within_le S x r e b e' b' : scale S -> e <= e' -> b <= b' -> within S x r e b -> within S x r e' b'.
Proof.
  intros SS E B (F & A & R). pose proof (scale_pos S SS) as P. pose proof u_tiny as U. assert (0 < u * S) by nra. split; [exact F|]. split; nra.
Qed.
Lemma within_self S x : finite x -> Rabs (val x) <= S -> within S x (val x) 0 1.
Proof. intros F B. split; [exact F|]. rewrite Rminus_diag_eq, Rabs_R0 by reflexivity. lra. Qed.
(** A combination with positive weights. *)
Lemma combine_le S p q r s : 0 <= p -> 0 <= q -> Rabs r <= S -> Rabs s <= S -> Rabs (p * r + q * s) <= (p + q) * S.
Proof.
  intros P Q A B. apply Rle_trans with (1 := Rabs_triang _ _). rewrite !Rabs_mult, (Rabs_pos_eq p), (Rabs_pos_eq q) by assumption. nra.
Qed.
