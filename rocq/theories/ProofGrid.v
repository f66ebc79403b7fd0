(** Lemmas on double precision numbers which are small multiples of a power of two (C164). *)
From Coq Require Import Reals Lra Lia List Bool ZArith.
From Flocq Require Import Core BinarySingleNaN.
From Verif Require Import Base ModelColor ModelDouble ProofDouble.
Import ListNotations.
Local Open Scope R_scope.

(** The number [x] has the value [r], a multiple of 2^e by an integer of at most [m]. *)
Definition exactly (x : float) (r : R) (e m : Z) : Prop :=
  finite x /\ val x = r /\ exists z, r = IZR z * bpow radix2 e /\ (Z.abs z <= m)%Z.
Definition in_range (e m : Z) : Prop := (-1074 <= e <= 971 /\ m < 2 ^ 53)%Z.

Lemma representable z e m : in_range e m -> (Z.abs z <= m)%Z ->
  rnd (IZR z * bpow radix2 e) = IZR z * bpow radix2 e /\ Rabs (IZR z * bpow radix2 e) < bpow radix2 1024.
Proof.
  intros [E M] B. split.
  - apply round_generic; [auto with typeclass_instances|]. apply (generic_format_FLT radix2 (-1074) 53).
    exists (Float radix2 z e); [reflexivity|cbn [Fnum]; change (radix2 ^ 53)%Z with (2 ^ 53)%Z; lia|cbn [Fexp]; lia].
  - rewrite Rabs_mult, (Rabs_pos_eq (bpow _ _)) by apply bpow_ge_0. rewrite <- abs_IZR.
    apply Rlt_le_trans with (bpow radix2 53 * bpow radix2 e).
    + apply Rmult_lt_compat_r; [apply bpow_gt_0|]. change (bpow radix2 53) with (IZR (2 ^ 53)). apply IZR_lt. lia.
    + rewrite <- bpow_plus. apply bpow_le. lia.
Qed.
Lemma exact_round r e m : in_range e m -> (exists z, r = IZR z * bpow radix2 e /\ (Z.abs z <= m)%Z) ->
  rnd r = r /\ Rabs r < bpow radix2 1024.
Proof. intros R (z & -> & B). exact (representable z e m R B). Qed.

Lemma exact_add x y r s e m n : exactly x r e m -> exactly y s e n -> in_range e (m + n) -> exactly (dbl_add x y) (r + s) e (m + n).
Proof.
  intros (FX & VX & zx & EX & BX) (FY & VY & zy & EY & BY) R.
  assert (Z : exists z, r + s = IZR z * bpow radix2 e /\ (Z.abs z <= m + n)%Z).
  { exists (zx + zy)%Z. split; [rewrite plus_IZR, EX, EY; ring|lia]. }
  destruct (exact_round _ _ _ R Z) as (RE & RB).
  pose proof (@Bplus_correct 53 1024 prec_ok emax_ok mode_NE x y FX FY) as C. unfold val in VX, VY. rewrite VX, VY in C.
  change (round radix2 fexp (round_mode mode_NE) (r + s)) with (rnd (r + s)) in C. rewrite RE, Rlt_bool_true in C by exact RB.
  destruct C as (C1 & C2 & _). split; [exact C2|]. split; [exact C1|exact Z].
Qed.
Lemma exact_sub x y r s e m n : exactly x r e m -> exactly y s e n -> in_range e (m + n) -> exactly (dbl_sub x y) (r - s) e (m + n).
Proof.
  intros (FX & VX & zx & EX & BX) (FY & VY & zy & EY & BY) R.
  assert (Z : exists z, r - s = IZR z * bpow radix2 e /\ (Z.abs z <= m + n)%Z).
  { exists (zx - zy)%Z. split; [rewrite minus_IZR, EX, EY; ring|lia]. }
  destruct (exact_round _ _ _ R Z) as (RE & RB).
  pose proof (@Bminus_correct 53 1024 prec_ok emax_ok mode_NE x y FX FY) as C. unfold val in VX, VY. rewrite VX, VY in C.
  change (round radix2 fexp (round_mode mode_NE) (r - s)) with (rnd (r - s)) in C. rewrite RE, Rlt_bool_true in C by exact RB.
  destruct C as (C1 & C2 & _). split; [exact C2|]. split; [exact C1|exact Z].
Qed.
Lemma product_grid r s d e m n : (exists z, r = IZR z * bpow radix2 d /\ (Z.abs z <= m)%Z) ->
  (exists z, s = IZR z * bpow radix2 e /\ (Z.abs z <= n)%Z) ->
  exists z, r * s = IZR z * bpow radix2 (d + e) /\ (Z.abs z <= m * n)%Z.
Proof.
  intros (zx & EX & BX) (zy & EY & BY). exists (zx * zy)%Z. split; [rewrite mult_IZR, bpow_plus, EX, EY; ring|].
  rewrite Z.abs_mul. apply Z.mul_le_mono_nonneg; lia.
Qed.
Lemma exact_mul x y r s d e m n : exactly x r d m -> exactly y s e n -> in_range (d + e) (m * n) -> exactly (fmul x y) (r * s) (d + e) (m * n).
Proof.
  intros (FX & VX & ZX) (FY & VY & ZY) R. pose proof (product_grid _ _ _ _ _ _ ZX ZY) as Z.
  destruct (exact_round _ _ _ R Z) as (RE & RB).
  pose proof (@Bmult_correct 53 1024 prec_ok emax_ok mode_NE x y) as C. unfold val in VX, VY. rewrite VX, VY in C.
  change (round radix2 fexp (round_mode mode_NE) (r * s)) with (rnd (r * s)) in C. rewrite RE, Rlt_bool_true in C by exact RB.
  destruct C as (C1 & C2 & _). rewrite FX, FY in C2. split; [exact C2|]. split; [exact C1|exact Z].
Qed.
Lemma exact_fma x y z r s u d e m n k : exactly x r d m -> exactly y s e n -> exactly z u (d + e) k -> in_range (d + e) (m * n + k) ->
  exactly (dbl_fma x y z) (r * s + u) (d + e) (m * n + k).
Proof.
  intros (FX & VX & ZX) (FY & VY & ZY) (FZ & VZ & zz & EZ & BZ) R. destruct (product_grid _ _ _ _ _ _ ZX ZY) as (p & EP & BP).
  assert (Z : exists z, r * s + u = IZR z * bpow radix2 (d + e) /\ (Z.abs z <= m * n + k)%Z).
  { exists (p + zz)%Z. split; [rewrite plus_IZR, EP, EZ; ring|lia]. }
  destruct (exact_round _ _ _ R Z) as (RE & RB).
  pose proof (@Bfma_correct 53 1024 prec_ok emax_ok mode_NE x y z FX FY FZ) as C. cbv zeta in C. unfold val in VX, VY, VZ. rewrite VX, VY, VZ in C.
  change (round radix2 fexp (round_mode mode_NE) (r * s + u)) with (rnd (r * s + u)) in C. rewrite RE, Rlt_bool_true in C by exact RB.
  destruct C as (C1 & C2 & _). split; [exact C2|]. split; [exact C1|exact Z].
Qed.
Lemma exact_neg x r e m : exactly x r e m -> exactly (dbl_neg x) (- r) e m.
Proof.
  intros (F & V & z & E & B). unfold finite, val, dbl_neg in *. split; [unfold finite; rewrite is_finite_Bopp; exact F|].
  split; [unfold val; rewrite B2R_Bopp, V; reflexivity|]. exists (- z)%Z. split; [rewrite opp_IZR, E; ring|lia].
Qed.
Lemma exact_finer x r e m k : (0 <= k)%Z -> exactly x r e m -> exactly x r (e - k) (m * 2 ^ k).
Proof.
  intros K (F & V & z & E & B). split; [exact F|]. split; [exact V|]. exists (z * 2 ^ k)%Z. split.
  - rewrite mult_IZR. change 2%Z with (radix_val radix2) at 1. rewrite IZR_Zpower by exact K.
    rewrite E, Rmult_assoc, <- bpow_plus. do 2 f_equal. lia.
  - rewrite Z.abs_mul, (Z.abs_eq (2 ^ k)) by (apply Z.pow_nonneg; lia). apply Z.mul_le_mono_nonneg_r; [apply Z.pow_nonneg; lia|exact B].
Qed.
Lemma exact_more x r e m n : (m <= n)%Z -> exactly x r e m -> exactly x r e n.
Proof. intros L (F & V & z & E & B). split; [exact F|]. split; [exact V|]. exists z. split; [exact E|lia]. Qed.
Lemma exact_as x r s e f m n : r = s -> e = f -> (m <= n)%Z -> exactly x r e m -> exactly x s f n.
Proof. intros -> ->. apply exact_more. Qed.

Lemma exact_sqrt x r e m : exactly x r e m -> 0 <= r -> finite (dbl_sqrt x) /\ val (dbl_sqrt x) = rnd (sqrt r).
Proof.
  intros (F & V & _) P. destruct (@Bsqrt_correct 53 1024 prec_ok emax_ok mode_NE x) as (C1 & C2 & _). unfold val in V. rewrite V in C1.
  split; [|exact C1]. unfold finite, dbl_sqrt. rewrite C2. clear C1 C2. destruct x as [s|s| |s mx ex H]; try discriminate; [reflexivity|].
  destruct s; [|reflexivity]. exfalso. cbn in V. assert (F2R (Float radix2 (Z.neg mx) ex) < 0) by (apply F2R_lt_0; reflexivity). lra.
Qed.

Lemma exact_one : exactly one 1 0 1.
Proof. destruct one_val as (V & F & _). split; [exact F|]. split; [exact V|]. exists 1%Z. split; [cbn; ring|lia]. Qed.
Lemma exact_two : exactly two 2 0 2.
Proof.
  assert (T : val two = 2 /\ finite two) by (unfold finite, val; vm_compute; repeat split; lra). destruct T as [V F].
  split; [exact F|]. split; [exact V|]. exists 2%Z. split; [cbn; ring|lia].
Qed.
Lemma exact_three : exactly three 3 0 3.
Proof.
  assert (T : val three = 3 /\ finite three) by (unfold finite, val; vm_compute; repeat split; lra). destruct T as [V F].
  split; [exact F|]. split; [exact V|]. exists 3%Z. split; [cbn; ring|lia].
Qed.
Lemma exact_half : exactly half (/ 2) (-1) 1.
Proof.
  assert (T : val half = / 2 /\ finite half) by (unfold finite, val; vm_compute; repeat split; lra). destruct T as [V F].
  split; [exact F|]. split; [exact V|]. exists 1%Z. split; [cbn; lra|lia].
Qed.
