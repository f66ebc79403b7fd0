(** Lemmas on sheets in double precision (C168). *)
From Coq Require Import String Ascii List Bool Reals Lra Lia ZArith.
From Flocq Require Import Core BinarySingleNaN.
From Verif Require Import Base ModelFormula ModelMeasure ModelXml ModelUnits ModelColor ModelDouble ModelDoublePaper ProofDouble ProofAccuracy.
Import ListNotations.
Local Open Scope R_scope.

(** x is r up to k units of rounding. *)
Definition close (k : R) (x r : R) : Prop := 0 < r /\ r * (1 - k * u) <= x <= r * (1 + k * u).

Lemma u_small : 0 < u < / 1000000000. Proof. unfold u. lra. Qed.
Lemma close_refl r : 0 < r -> close 0 r r.
Proof. intros P. split; [exact P|]. rewrite Rmult_0_l. lra. Qed.
Lemma close_le k l x r : k <= l -> close k x r -> close l x r.
Proof.
  intros L (P & A & B). pose proof u_small as U. split; [exact P|].
  assert (k * u <= l * u) by nra. split; nra.
Qed.
Lemma close_pos k x r : 0 <= k <= 1000 -> close k x r -> 0 < x /\ r / 2 <= x <= 2 * r.
Proof.
  intros K (P & A & B). pose proof u_small as U. assert (k * u <= / 1000000) by nra. assert (0 <= k * u) by nra. split; [nra|]. split; nra.
Qed.
Lemma close_mul k l x r y s : 0 <= k <= 1000 -> 0 <= l <= 1000 -> close k x r -> close l y s -> close (k + l + 1) (x * y) (r * s).
Proof.
  intros K L (P & A & B) (Q & C & D). pose proof u_small as U.
  assert (KU : 0 <= k * u <= / 1000000) by nra. assert (LU : 0 <= l * u <= / 1000000) by nra.
  assert (M : (k * u) * (l * u) <= u).
  { replace ((k * u) * (l * u)) with ((k * l * u) * u) by ring. assert (k * l <= 1000000) by nra. assert (0 <= k * l) by nra. assert (k * l * u <= 1) by nra. nra. }
  assert (M0 : 0 <= (k * u) * (l * u)) by nra.
  split; [nra|]. split.
  - apply Rle_trans with ((r * (1 - k * u)) * (s * (1 - l * u))).
    + replace (r * (1 - k * u) * (s * (1 - l * u))) with (r * s * (1 - k * u - l * u + k * u * (l * u))) by ring.
      apply Rmult_le_compat_l; [nra|]. nra.
    + apply Rmult_le_compat; nra.
  - apply Rle_trans with ((r * (1 + k * u)) * (s * (1 + l * u))).
    + apply Rmult_le_compat; nra.
    + replace (r * (1 + k * u) * (s * (1 + l * u))) with (r * s * (1 + k * u + l * u + k * u * (l * u))) by ring.
      apply Rmult_le_compat_l; [nra|]. nra.
Qed.
Lemma close_inv l y s : 0 <= l <= 500 -> close l y s -> close (l + 1) (/ y) (/ s).
Proof.
  intros L H. destruct (close_pos l y s ltac:(lra) H) as (Y & _). destruct H as (Q & C & D). pose proof u_small as U.
  assert (LU : 0 <= l * u <= / 1000000) by nra.
  assert (M : (l * u) * (l * u) * 4 <= u).
  { replace ((l * u) * (l * u) * 4) with ((4 * (l * l) * u) * u) by ring. assert (l * l <= 250000) by nra. assert (0 <= l * l) by nra. assert (4 * (l * l) * u <= 1) by nra. nra. }
  assert (I : 0 < / s) by (apply Rinv_0_lt_compat; exact Q).
  split; [exact I|]. split.
  - apply Rmult_le_reg_r with (y * s); [nra|]. replace (/ y * (y * s)) with s by (field; lra). replace (/ s * (1 - (l + 1) * u) * (y * s)) with (y * (1 - (l + 1) * u)) by (field; lra).
    assert (E : (1 + l * u) * (1 - (l + 1) * u) <= 1) by nra. assert (0 <= 1 - (l + 1) * u) by nra.
    apply Rle_trans with (s * (1 + l * u) * (1 - (l + 1) * u)); [apply Rmult_le_compat_r; assumption|]. rewrite Rmult_assoc. nra.
  - apply Rmult_le_reg_r with (y * s); [nra|]. replace (/ y * (y * s)) with s by (field; lra). replace (/ s * (1 + (l + 1) * u) * (y * s)) with (y * (1 + (l + 1) * u)) by (field; lra).
    assert (E : 1 <= (1 - l * u) * (1 + (l + 1) * u)) by nra.
    apply Rle_trans with (s * (1 - l * u) * (1 + (l + 1) * u)); [rewrite Rmult_assoc; nra|apply Rmult_le_compat_r; nra].
Qed.
Lemma close_div k l x r y s : 0 <= k <= 500 -> 0 <= l <= 500 -> close k x r -> close l y s -> close (k + l + 2) (x / y) (r / s).
Proof.
  intros K L A B. apply (close_le (k + (l + 1) + 1)); [lra|]. apply close_mul; try lra; [exact A|]. apply close_inv; assumption.
Qed.
Lemma close_pow k x r n : 0 <= k <= 1 -> close k x r -> (n <= 100)%nat -> close (2 * INR n) (x ^ n) (r ^ n).
Proof.
  intros K H. induction n as [|n IH]; intros N.
  - cbn. rewrite Rmult_0_r. apply close_refl. lra.
  - assert (B : INR n <= 100) by (apply (le_INR n 100) in N as _ || idtac; change 100 with (INR 100) || idtac; replace 100 with (INR 100) by (cbn; lra); apply le_INR; lia).
    pose proof (pos_INR n). rewrite S_INR. cbn [pow]. apply (close_le (k + 2 * INR n + 1)); [lra|]. apply close_mul; try lra; [exact H|]. apply IH. lia.
Qed.
(** Rounding adds one unit. *)
Lemma close_round k x r d : 0 <= k <= 500 -> Rabs d <= u -> close k x r -> close (k + 2) (x * (1 + d)) r.
Proof.
  intros K D H. replace r with (r * 1) by ring. apply (close_le (k + 1 + 1)); [lra|]. apply close_mul; try lra; [exact H|].
  apply Rabs_le_inv in D. split; lra.
Qed.
Lemma medium_band r : / 1048576 <= r <= 1048576 -> band (-20) 20 r.
Proof. intros [A B]. right. rewrite Rabs_pos_eq by lra. cbn. unfold Z.pow_pos. cbn. lra. Qed.

Lemma div_near l h x y : finite x -> val y <> 0 -> band l h (val x / val y) -> (-1022 <= l)%Z -> (l <= h < 1024)%Z ->
  finite (fdiv x y) /\ exists d, Rabs d <= u /\ val (fdiv x y) = val x / val y * (1 + d).
Proof.
  intros FX NY B L H. destruct (band_round l h _ L (proj1 H) B) as (B' & E).
  pose proof (@Bdiv_correct 53 1024 prec_ok emax_ok mode_NE x y NY) as C.
  change (round radix2 fexp (round_mode mode_NE) (B2R x / B2R y)) with (rnd (val x / val y)) in C.
  rewrite Rlt_bool_true in C by (apply (band_small _ _ _ H B')). destruct C as (C1 & C2 & _). rewrite FX in C2.
  split; [exact C2|]. unfold fdiv, val in *. rewrite C1. exact E.
Qed.
Lemma close_fdiv k l x r y s : finite x -> 0 <= k <= 100 -> 0 <= l <= 100 -> close k (val x) r -> close l (val y) s ->
  / 10000 <= r / s <= 10000 -> finite (fdiv x y) /\ close (k + l + 4) (val (fdiv x y)) (r / s).
Proof.
  intros F K L A B I. pose proof (close_div k l _ _ _ _ ltac:(lra) ltac:(lra) A B) as C.
  destruct (close_pos l _ _ ltac:(lra) B) as (Y & _). destruct (close_pos (k + l + 2) _ _ ltac:(lra) C) as (_ & M).
  destruct (div_near (-20) 20 x y F ltac:(lra) (medium_band (val x / val y) ltac:(lra)) ltac:(lia) ltac:(lia)) as (F' & d & D & E).
  split; [exact F'|]. rewrite E. apply (close_le (k + l + 2 + 2)); [lra|]. apply close_round; [lra|exact D|exact C].
Qed.
Lemma close_fmul k l x r y s : finite x -> finite y -> 0 <= k <= 100 -> 0 <= l <= 100 -> close k (val x) r -> close l (val y) s ->
  / 10000 <= r <= 10000 -> / 10000 <= s <= 10000 -> finite (fmul x y) /\ close (k + l + 3) (val (fmul x y)) (r * s).
Proof.
  intros F G K L A B I J. pose proof (close_mul k l _ _ _ _ ltac:(lra) ltac:(lra) A B) as C.
  destruct (close_pos k _ _ ltac:(lra) A) as (_ & M). destruct (close_pos l _ _ ltac:(lra) B) as (_ & N).
  destruct (mul_near (-20) 20 (-20) 20 x y F G (medium_band (val x) ltac:(lra)) (medium_band (val y) ltac:(lra)) ltac:(lia) ltac:(lia)) as (F' & _ & d & D & E).
  split; [exact F'|]. rewrite E. apply (close_le (k + l + 1 + 2)); [lra|]. apply close_round; [lra|exact D|exact C].
Qed.
