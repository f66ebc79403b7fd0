(** Lemmas on sums in double precision (C170). *)
From Coq Require Import Reals Lra Lia List Bool ZArith Permutation.
From Flocq Require Import Core Relative BinarySingleNaN.
From Verif Require Import Base ModelColor ModelDouble ModelDoublePolygon ModelDoubleArea ProofDouble ProofAccuracy PropAccuracy PropDoublePolygon ProofCurveAccuracy.
Import ListNotations.
Local Open Scope R_scope.

(** The product of two lengths. *)
Lemma product_within S x r e b y s f c d : 0 < S -> scale (S * S) -> 0 <= e <= 1000 -> 0 <= f <= 1000 -> 0 <= b -> 0 <= c -> 0 <= d <= 1000 -> e * c + b * f <= 5000 ->
  within S x r e b -> within S y s f c -> Rabs (r * s) <= d * (S * S) -> within (S * S) (fmul x y) (r * s) (e * c + b * f + d + / 50) d.
Proof.
  intros PS SS E F HB HC D T (FX & AX & BX) (FY & AY & BY) B. pose proof (scale_pos _ SS) as P. pose proof u_tiny as U.
  assert (0 <= e * c) by nra. assert (0 <= b * f) by nra.
  destruct (round_within (S * S) (val x * val y) (r * s) (e * c + b * f + / 100) d SS) as (L & H1); try lra.
  { replace (val x * val y - r * s) with ((val x - r) * s + (r * (val y - s) + (val x - r) * (val y - s))) by ring.
    apply Rle_trans with (1 := Rabs_triang _ _). apply Rle_trans with (Rabs ((val x - r) * s) + (Rabs (r * (val y - s)) + Rabs ((val x - r) * (val y - s)))).
    { pose proof (Rabs_triang (r * (val y - s)) ((val x - r) * (val y - s))). lra. }
    rewrite !Rabs_mult.
    assert (M1 : Rabs (val x - r) * Rabs s <= (e * u * S) * (c * S)) by (apply Rmult_le_compat; auto using Rabs_pos).
    assert (M2 : Rabs r * Rabs (val y - s) <= (b * S) * (f * u * S)) by (apply Rmult_le_compat; auto using Rabs_pos).
    assert (M3 : Rabs (val x - r) * Rabs (val y - s) <= (e * u * S) * (f * u * S)) by (apply Rmult_le_compat; auto using Rabs_pos).
    assert (M4 : e * f * u <= / 100) by (assert (e * f <= 1000000) by nra; assert (0 <= e * f) by nra; nra).
    set (W := S * S) in *. replace ((e * u * S) * (f * u * S)) with (e * f * u * (u * W)) in M3 by (unfold W; ring). assert (0 < u * W) by nra.
    replace (e * u * S * (c * S)) with (e * c * (u * W)) in M1 by (unfold W; ring). replace (b * S * (f * u * S)) with (b * f * (u * W)) in M2 by (unfold W; ring).
    replace ((e * c + b * f + / 100) * u * W) with (e * c * (u * W) + (b * f * (u * W) + / 100 * (u * W))) by ring. nra. }
  pose proof (@Bmult_correct 53 1024 prec_ok emax_ok mode_NE x y) as C.
  change (round radix2 fexp (round_mode mode_NE) (B2R x * B2R y)) with (rnd (val x * val y)) in C.
  rewrite Rlt_bool_true in C by exact L. destruct C as (C1 & C2 & _). rewrite FX, FY in C2. split; [exact C2|]. split; [|exact B]. unfold val, fmul in *. rewrite C1.
  apply Rle_trans with (1 := H1). assert (0 < u * (S * S)) by nra. nra.
Qed.

(** Sums of numbers which are not too many, in any order. *)
Definition count (l : list float) : R := INR (length l).
Lemma few_terms n : (Z.of_nat n <= 2 ^ 40)%Z -> 0 <= INR n <= 2 ^ 40.
Proof.
  intros N. split; [apply pos_INR|]. rewrite INR_IZR_INZ. rewrite (pow_IZR 2 40). apply IZR_le. exact N.
Qed.
Lemma count_app l m : count (l ++ m) = count l + count m.
Proof. unfold count. rewrite app_length. apply plus_INR. Qed.
Lemma total_bound M l : Forall (fun y => finite y /\ Rabs (val y) <= M) l -> Rabs (total (map val l)) <= count l * M.
Proof.
  intros F. unfold total, count. induction F as [|y l (_ & Hy) F IH]; [cbn; rewrite Rabs_R0; lra|]. cbn [map fold_right length]. rewrite S_INR.
  apply Rle_trans with (1 := Rabs_triang _ _). lra.
Qed.
Lemma sum_bounded h M l x : (-1000 <= h <= 900)%Z -> M <= bpow radix2 h -> 0 <= M -> np_sum l x -> Forall (fun y => finite y /\ Rabs (val y) <= M) l -> (Z.of_nat (length l) <= 2 ^ 40)%Z ->
  finite x /\ Rabs (val x - total (map val l)) <= 1.01 * (count l * (count l - 1)) * u * M /\ (l = [] -> val x = 0).
Proof.
  intros H MH M0 Sm. induction Sm as [| |x|l k x y S1 IH1 S2 IH2|l k x P S IH]; intros F N.
  - split; [reflexivity|]. unfold total, count. cbn. rewrite Rminus_0_r, Rabs_R0. split; [lra|reflexivity].
  - split; [reflexivity|]. unfold total, count. cbn. rewrite Rminus_0_r, Rabs_R0. split; [lra|reflexivity].
  - inversion F as [|? ? (FX & _) _]; subst. split; [exact FX|]. split; [|discriminate]. unfold total, count. cbn. rewrite Rplus_0_r, Rminus_diag_eq, Rabs_R0 by reflexivity. lra.
  - pose proof (total_bound M _ F) as TB. apply Forall_app in F. destruct F as [F1 F2]. rewrite app_length in N.
    destruct (IH1 F1 ltac:(lia)) as (FX & EX & ZX). destruct (IH2 F2 ltac:(lia)) as (FY & EY & ZY). rewrite map_app, total_app in *. rewrite count_app in *.
    pose proof (total_bound M _ F1) as T1. pose proof (total_bound M _ F2) as T2.
    destruct l as [|a l].
    { destruct (add_zero_l y x FY FX (ZX eq_refl)) as (V & FV). split; [exact FV|]. rewrite V. unfold total, count in *. cbn [map fold_right length app INR] in *. rewrite !Rplus_0_l.
      split; [exact EY|]. exact ZY. }
    destruct k as [|b k].
    { destruct (add_zero_r x y FX FY (ZY eq_refl)) as (V & FV). split; [exact FV|]. rewrite V. unfold total, count in *. cbn [map fold_right app] in *. cbn [length INR] in EX |- *. rewrite !Rplus_0_r.
      split; [exact EX|discriminate]. }
    assert (NA : 1 <= count (a :: l)) by (unfold count; cbn [length]; rewrite S_INR; pose proof (pos_INR (length l)); lra).
    assert (NB : 1 <= count (b :: k)) by (unfold count; cbn [length]; rewrite S_INR; pose proof (pos_INR (length k)); lra).
    pose proof (few_terms (length (a :: l) + length (b :: k)) N) as FT. rewrite plus_INR in FT. fold (count (a :: l)) (count (b :: k)) in FT.
    set (n := count (a :: l)) in *. set (m := count (b :: k)) in *. set (p := total (map val (a :: l))) in *. set (q := total (map val (b :: k))) in *.
    pose proof u_tiny as U. assert (UN : (n + m) * u <= / 8000) by (unfold u; apply Rle_trans with (2 ^ 40 * / 2 ^ 53); [apply Rmult_le_compat_r; [left; apply Rinv_0_lt_compat; lra|lra]|lra]).
    assert (V : Rabs (val x + val y - (p + q)) <= 1.01 * (n * (n - 1) + m * (m - 1)) * u * M).
    { replace (val x + val y - (p + q)) with (val x - p + (val y - q)) by ring. apply Rle_trans with (1 := Rabs_triang _ _). lra. }
    assert (UM : 0 <= u * M) by nra.
    assert (K1 : 1.01 * (n * (n - 1) + m * (m - 1)) * u <= / 1000 * (n + m)).
    { assert (n * (n - 1) + m * (m - 1) <= (n + m) * (n + m)) by nra. apply Rle_trans with (1.01 * ((n + m) * (n + m)) * u); [apply Rmult_le_compat_r; [lra|nra]|].
      replace (1.01 * ((n + m) * (n + m)) * u) with (1.01 * ((n + m) * u) * (n + m)) by ring. apply Rmult_le_compat_r; lra. }
    assert (W : Rabs (val x + val y) <= 1.001 * (n + m) * M).
    { replace (val x + val y) with (val x + val y - (p + q) + (p + q)) by ring. apply Rle_trans with (1 := Rabs_triang _ _).
      assert (1.01 * (n * (n - 1) + m * (m - 1)) * u * M <= / 1000 * (n + m) * M) by (apply Rmult_le_compat_r; lra). lra. }
    assert (FF : finite (dbl_add x y)).
    { pose proof (@Bplus_correct 53 1024 prec_ok emax_ok mode_NE x y FX FY) as C.
      change (round radix2 fexp (round_mode mode_NE) (B2R x + B2R y)) with (rnd (val x + val y)) in C. rewrite Rlt_bool_true in C; [apply C|].
      apply (round_small _ (41 + h)); [lia|]. apply Rle_trans with (1 := W). rewrite bpow_plus. assert (Q : bpow radix2 41 = 2 * 2 ^ 40) by (change (bpow radix2 41) with (IZR (2 ^ 41)); lra). rewrite Q.
      apply Rmult_le_compat; [lra|exact M0|lra|exact MH]. }
    split; [exact FF|]. split; [|discriminate]. destruct (add_near x y FX FY FF) as (d & D & E). rewrite E.
    replace ((val x + val y) * (1 + d) - (p + q)) with (val x + val y - (p + q) + (val x + val y) * d) by ring. apply Rle_trans with (1 := Rabs_triang _ _). rewrite Rabs_mult.
    assert (R1 : Rabs (val x + val y) * Rabs d <= 1.001 * (n + m) * M * u) by (apply Rmult_le_compat; auto using Rabs_pos).
    apply Rle_trans with (1.01 * (n * (n - 1) + m * (m - 1)) * (u * M) + 1.001 * (n + m) * (u * M)); [lra|].
    replace (1.01 * ((n + m) * (n + m - 1)) * u * M) with (1.01 * ((n + m) * (n + m - 1)) * (u * M)) by ring. rewrite <- Rmult_plus_distr_r. apply Rmult_le_compat_r; [exact UM|].
    assert (n + m <= 2 * (n * m)) by nra. nra.
  - assert (L : count k = count l) by (unfold count; rewrite (Permutation_length P); reflexivity). rewrite L.
    rewrite <- (total_perm _ _ (Permutation_map val P)). destruct (IH) as (I1 & I2 & I3).
    + eapply Permutation_Forall; [symmetry; exact P|exact F].
    + rewrite (Permutation_length P). exact N.
    + split; [exact I1|]. split; [exact I2|]. intros ->. apply Permutation_sym, Permutation_nil in P. auto.
Qed.
