(** Lemmas on the rounding errors of double precision numbers (C166). *)
From Coq Require Import Reals Lra Lia List Bool ZArith.
From Flocq Require Import Core Relative Plus_error BinarySingleNaN.
From Verif Require Import Base ModelColor ModelDouble ProofDouble.
Local Open Scope R_scope.

(** The unit of rounding. *)
Definition u : R := / 2 ^ 53.
Definition band (l h : Z) (r : R) : Prop := r = 0 \/ bpow radix2 l <= Rabs r <= bpow radix2 h.

Lemma u_bounds : 0 < u < / 1000000. Proof. unfold u. lra. Qed.
Lemma power_format k : (-1074 <= k)%Z -> generic_format radix2 fexp (bpow radix2 k).
Proof. intros K. apply (generic_format_FLT radix2 (-1074) 53). exists (Float radix2 1 k); [unfold F2R; cbn; ring|cbn; lia|cbn; lia]. Qed.
Lemma band_round l h r : (-1022 <= l)%Z -> (l <= h)%Z -> band l h r -> band l h (rnd r) /\ exists d, Rabs d <= u /\ rnd r = r * (1 + d).
Proof.
  intros L H [->|[B1 B2]].
  - rewrite rnd_0. split; [left; reflexivity|]. exists 0. pose proof u_bounds. rewrite Rabs_R0. split; lra.
  - split.
    + right. split; [apply abs_round_ge_generic|apply abs_round_le_generic]; auto with typeclass_instances; apply power_format; lia.
    + destruct (relative_error_N_FLT_ex radix2 (-1074) 53 eq_refl (fun x => negb (Z.even x)) r) as (d & D & E).
      { apply Rle_trans with (2 := B1). apply bpow_le. lia. }
      exists d. split; [|exact E]. apply Rle_trans with (1 := D). unfold u. cbn. unfold Z.pow_pos. cbn. lra.
Qed.
Lemma band_mul l h l' h' r s : band l h r -> band l' h' s -> band (l + l') (h + h') (r * s).
Proof.
  intros [->|[A1 A2]] [->|[B1 B2]]; try (left; ring). right. rewrite Rabs_mult, !bpow_plus.
  split; apply Rmult_le_compat; auto using bpow_ge_0, Rabs_pos.
Qed.
Lemma band_small l h r : (l <= h < 1024)%Z -> band l h r -> Rabs r < bpow radix2 1024.
Proof.
  intros H [->|[_ B]]; [rewrite Rabs_R0; apply bpow_gt_0|]. apply Rle_lt_trans with (1 := B). apply bpow_lt. lia.
Qed.

Lemma mul_near l h l' h' x y : finite x -> finite y -> band l h (val x) -> band l' h' (val y) -> (-1022 <= l + l')%Z -> (l + l' <= h + h' < 1024)%Z ->
  finite (fmul x y) /\ band (l + l') (h + h') (val (fmul x y)) /\ exists d, Rabs d <= u /\ val (fmul x y) = val x * val y * (1 + d).
Proof.
  intros FX FY BX BY L H. destruct (band_round (l + l') (h + h') (val x * val y) L (proj1 H) (band_mul _ _ _ _ _ _ BX BY)) as (B & E).
  pose proof (@Bmult_correct 53 1024 prec_ok emax_ok mode_NE x y) as C.
  change (round radix2 fexp (round_mode mode_NE) (B2R x * B2R y)) with (rnd (val x * val y)) in C.
  rewrite Rlt_bool_true in C by (apply (band_small _ _ _ H B)). destruct C as (C1 & C2 & _). rewrite FX, FY in C2.
  split; [exact C2|]. unfold fmul, val in *. rewrite C1. split; assumption.
Qed.
Lemma add_near x y : finite x -> finite y -> finite (dbl_add x y) -> exists d, Rabs d <= u /\ val (dbl_add x y) = (val x + val y) * (1 + d).
Proof.
  intros FX FY F. rewrite (add_finite _ _ FX FY F).
  destruct (FLT_plus_error_N_ex radix2 (-1074) 53 (fun x => negb (Z.even x)) (val x) (val y)) as (d & D & E); [apply generic_format_B2R|apply generic_format_B2R|].
  exists d. split; [|exact E]. apply Rle_trans with (1 := D). assert (U : u_ro radix2 53 = u) by (unfold u_ro, u; cbn; unfold Z.pow_pos; cbn; lra).
  rewrite U. pose proof u_bounds. apply Rmult_le_reg_r with (1 + u); [lra|]. field_simplify; [nra|lra].
Qed.
Lemma sub_near x y : finite x -> finite y -> finite (dbl_sub x y) -> exists d, Rabs d <= u /\ val (dbl_sub x y) = (val x - val y) * (1 + d).
Proof.
  intros FX FY F. rewrite (sub_finite _ _ FX FY F).
  destruct (FLT_plus_error_N_ex radix2 (-1074) 53 (fun x => negb (Z.even x)) (val x) (- val y)) as (d & D & E);
    [apply generic_format_B2R|apply generic_format_opp, generic_format_B2R|].
  exists d. split; [|exact E]. apply Rle_trans with (1 := D). assert (U : u_ro radix2 53 = u) by (unfold u_ro, u; cbn; unfold Z.pow_pos; cbn; lra).
  rewrite U. pose proof u_bounds. apply Rmult_le_reg_r with (1 + u); [lra|]. field_simplify; [nra|lra].
Qed.
Lemma round_small r k : (-1074 <= k < 1024)%Z -> Rabs r <= bpow radix2 k -> Rabs (rnd r) < bpow radix2 1024.
Proof.
  intros K B. apply Rle_lt_trans with (bpow radix2 k); [|apply bpow_lt; lia].
  apply abs_round_le_generic; auto with typeclass_instances. apply power_format. lia.
Qed.
Lemma add_bounded x y h : finite x -> finite y -> Rabs (val x) <= bpow radix2 h -> Rabs (val y) <= bpow radix2 h -> (-1000 <= h < 1000)%Z ->
  finite (dbl_add x y) /\ finite (dbl_sub x y).
Proof.
  intros FX FY BX BY H.
  assert (P : bpow radix2 (h + 1) = 2 * bpow radix2 h) by (rewrite Z.add_comm, bpow_plus; reflexivity).
  pose proof (@Bplus_correct 53 1024 prec_ok emax_ok mode_NE x y FX FY) as C. pose proof (@Bminus_correct 53 1024 prec_ok emax_ok mode_NE x y FX FY) as M.
  change (round radix2 fexp (round_mode mode_NE) (B2R x + B2R y)) with (rnd (val x + val y)) in C.
  change (round radix2 fexp (round_mode mode_NE) (B2R x - B2R y)) with (rnd (val x - val y)) in M.
  rewrite Rlt_bool_true in C. 2:{ apply (round_small _ (h + 1)); [lia|]. rewrite P. apply Rle_trans with (1 := Rabs_triang _ _). lra. }
  rewrite Rlt_bool_true in M. 2:{ apply (round_small _ (h + 1)); [lia|]. rewrite P. unfold Rminus. apply Rle_trans with (1 := Rabs_triang _ _). rewrite Rabs_Ropp. lra. }
  split; [apply C|apply M].
Qed.
Lemma band_le l h r : band l h r -> Rabs r <= bpow radix2 h.
Proof. intros [->|[_ B]]; [rewrite Rabs_R0; apply bpow_ge_0|exact B]. Qed.

(** The square root of a number between r^2 (1 - u)^2 and r^2 (1 + u)^2. *)
Lemma root_between s r : 0 <= r -> r * r * ((1 - u) * (1 - u)) <= s <= r * r * ((1 + u) * (1 + u)) -> r * (1 - u) <= sqrt s <= r * (1 + u).
Proof.
  intros R [A B]. pose proof u_bounds. split.
  - rewrite <- (sqrt_square (r * (1 - u))) by nra. apply sqrt_le_1_alt. nra.
  - rewrite <- (sqrt_square (r * (1 + u))) by nra. apply sqrt_le_1_alt. nra.
Qed.
