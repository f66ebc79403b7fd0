(** C173: the accuracy of intersections of lines and segments in double precision. *)
From Coq Require Import Reals Lra Lia List Bool ZArith.
From Flocq Require Import Core Relative BinarySingleNaN.
From Verif Require Import Base ModelVector ProofVector ModelColor ModelDouble ModelDecide ModelDoubleIntersection ProofDouble PropDouble ProofAccuracy PropAccuracy ProofCurveAccuracy PropCurveAccuracy PropDecide ProofArea PropArea ProofIntersection.
Import ListNotations.
Local Open Scope R_scope.

(** ** What is expected *)
(** The two lines meet at the abscissae a and b. *)
Definition meet_at (l1 l2 : dline) (a b : R) : Prop :=
  X (dl_p l1) + a * X (dl_v l1) = X (dl_p l2) + b * X (dl_v l2) /\ Y (dl_p l1) + a * Y (dl_v l1) = Y (dl_p l2) + b * Y (dl_v l2).
Definition turn_of (l1 l2 : dline) : R := X (dl_v l1) * Y (dl_v l2) - Y (dl_v l1) * X (dl_v l2).
Definition line_in (s : R) (l : dline) : Prop := in_drawing s (dl_p l) /\ in_drawing s (dl_v l).
(** The lines cross: k measures how far they are from being parallel. *)
Definition crossing (k s : R) (l1 l2 : dline) : Prop :=
  side_size s /\ line_in s l1 /\ line_in s l2 /\ 1 <= k <= 2 ^ 30 /\ s * s <= k * Rabs (turn_of l1 l2) /\ / 10 ^ 7 <= Rabs (turn_of l1 l2).

(** ** Lemmas *)
Lemma small_turn s l1 l2 : side_size s -> line_in s l1 -> line_in s l2 -> Rabs (turn_of l1 l2) <= bpow radix2 860.
Proof.
  intros SS (_ & (_ & A1 & A2)) (_ & (_ & B1 & B2)). destruct (square_scale s SS) as (P & _). pose proof SS as (_ & H).
  apply Rle_trans with (2 * (s * s)).
  - unfold turn_of, Rminus. apply Rle_trans with (1 := Rabs_triang _ _). rewrite Rabs_Ropp, !Rabs_mult.
    assert (Rabs (X (dl_v l1)) * Rabs (Y (dl_v l2)) <= s * s) by (apply Rmult_le_compat; auto using Rabs_pos).
    assert (Rabs (Y (dl_v l1)) * Rabs (X (dl_v l2)) <= s * s) by (apply Rmult_le_compat; auto using Rabs_pos). lra.
  - apply Rle_trans with (bpow radix2 1 * (bpow radix2 400 * bpow radix2 400)).
    + change (bpow radix2 1) with 2. apply Rmult_le_compat_l; [lra|]. apply Rmult_le_compat; lra.
    + rewrite <- !bpow_plus. apply bpow_le. lia.
Qed.
Lemma abscissa_near k s l1 l2 v r N : crossing k s l1 l2 -> v = dl_v l1 \/ v = dl_v l2 ->
  N = (X (dl_p l2) - X (dl_p l1)) * Y v - (Y (dl_p l2) - Y (dl_p l1)) * X v -> N = r * turn_of l1 l2 ->
  let m := fmul (d_cross (d_sub (dl_p l2) (dl_p l1)) v) (fdiv one (d_cross (dl_v l1) (dl_v l2))) in
  finite m /\ Rabs r <= 4 * k /\ Rabs (val m - r) <= (13 * k + 7 * k * Rabs r) * u /\ d_rounds_to_zero (d_cross (dl_v l1) (dl_v l2)) = false.
Proof.
  intros (SS & L1 & L2 & K & HK & HT) HV EN ER m. destruct (square_scale s SS) as (P & S1 & S2).
  assert (IV : in_drawing s v) by (destruct HV as [->| ->]; [apply L1|apply L2]).
  destruct (point_within s _ (proj1 L1)) as (PX & PY), (point_within s _ (proj1 L2)) as (QX & QY). destruct (point_within s _ (proj2 L1)) as (VX & VY).
  assert (SUB : forall x y, within s x (B2R x) 0 1 -> within s y (B2R y) 0 1 -> within s (dbl_sub x y) (B2R x - B2R y) 2.05 2).
  { intros x y WX WY. pose proof WX as (_ & _ & B1). pose proof WY as (_ & _ & B2).
    assert (L : Rabs (B2R x - B2R y) <= 2 * s). { unfold Rminus. apply Rle_trans with (1 := Rabs_triang _ _). rewrite Rabs_Ropp. lra. }
    pose proof (sub_within s _ _ 0 1 _ _ 0 1 2 S1 ltac:(lra) ltac:(lra) ltac:(lra) WX WY L) as M. apply (within_le _ _ _ _ _ 2.05 2 S1) in M; try lra. exact M. }
  pose proof (cross_wide s (d_sub (dl_p l2) (dl_p l1)) _ _ 2.05 2 v SS ltac:(lra) ltac:(lra) (SUB _ _ QX PX) (SUB _ _ QY PY) IV) as W1. rewrite <- EN in W1.
  apply (within_le _ _ _ _ _ 12.3 4 S2) in W1; try lra.
  pose proof (cross_wide s (dl_v l1) _ _ 0 1 (dl_v l2) SS ltac:(lra) ltac:(lra) VX VY (proj2 L2)) as W2. fold (turn_of l1 l2) in W2. apply (within_le _ _ _ _ _ 4.1 2 S2) in W2; try lra.
  assert (LO : bpow radix2 (-860) <= Rabs (turn_of l1 l2)).
  { apply Rle_trans with (2 := HT). apply Rle_trans with (bpow radix2 (-30)); [apply bpow_le; lia|]. cbn. unfold Z.pow_pos. cbn. lra. }
  assert (T0 : turn_of l1 l2 <> 0). { intros E. rewrite E, Rabs_R0 in HT. lra. }
  destruct (ratio_near _ _ _ _ _ k S2 K W1 W2 HK LO (small_turn s l1 l2 SS L1 L2)) as (F & B & E & C). replace (N / turn_of l1 l2) with r in B, E by (rewrite ER; field; exact T0).
  split; [exact F|]. split; [exact B|]. split; [exact E|]. unfold d_rounds_to_zero. apply Rlt_bool_false. unfold val in C. lra.
Qed.

(** ** The theorems *)
(** Lines which cross meet at one place. *)
Theorem C173_meet : forall k s l1 l2, crossing k s l1 l2 -> exists a b, meet_at l1 l2 a b /\ forall a' b', meet_at l1 l2 a' b' -> a' = a /\ b' = b.
Proof.
  intros k s l1 l2 (_ & _ & _ & _ & _ & HT). set (t := turn_of l1 l2) in *. assert (T0 : t <> 0) by (intros E; rewrite E, Rabs_R0 in HT; lra).
  exists (((X (dl_p l2) - X (dl_p l1)) * Y (dl_v l2) - (Y (dl_p l2) - Y (dl_p l1)) * X (dl_v l2)) / t), (((X (dl_p l2) - X (dl_p l1)) * Y (dl_v l1) - (Y (dl_p l2) - Y (dl_p l1)) * X (dl_v l1)) / t).
  split; [split; unfold t, turn_of in *; field; exact T0|].
  intros a b (E1 & E2). assert (D1 : X (dl_p l2) - X (dl_p l1) = a * X (dl_v l1) - b * X (dl_v l2)) by lra. assert (D2 : Y (dl_p l2) - Y (dl_p l1) = a * Y (dl_v l1) - b * Y (dl_v l2)) by lra.
  rewrite D1, D2. split; unfold t, turn_of in *; field; exact T0.
Qed.
Print Assumptions C173_meet.

(** The abscissae of the intersection. *)
Theorem C173_abscissae : forall k s l1 l2 a b, crossing k s l1 l2 -> meet_at l1 l2 a b ->
  exists s1 s2, d_intersection_abscissae l1 l2 = Some (s1, s2) /\ number s1 /\ number s2 /\
    Rabs (B2R s1 - a) <= (13 * k + 7 * k * Rabs a) / 2 ^ 53 /\ Rabs (B2R s2 - b) <= (13 * k + 7 * k * Rabs b) / 2 ^ 53.
Proof.
  intros k s l1 l2 a b C (E1 & E2).
  assert (D1 : X (dl_p l2) - X (dl_p l1) = a * X (dl_v l1) - b * X (dl_v l2)) by lra. assert (D2 : Y (dl_p l2) - Y (dl_p l1) = a * Y (dl_v l1) - b * Y (dl_v l2)) by lra.
  destruct (abscissa_near k s l1 l2 (dl_v l2) a _ C (or_intror eq_refl) eq_refl) as (F1 & _ & A1 & Z); [rewrite D1, D2; unfold turn_of; ring|].
  destruct (abscissa_near k s l1 l2 (dl_v l1) b _ C (or_introl eq_refl) eq_refl) as (F2 & _ & A2 & _); [rewrite D1, D2; unfold turn_of; ring|].
  unfold d_intersection_abscissae. rewrite Z. eexists. eexists. split; [reflexivity|]. split; [exact F1|]. split; [exact F2|]. unfold Rdiv. change (/ 2 ^ 53) with u. split; assumption.
Qed.
Print Assumptions C173_abscissae.

(** The point of intersection is near the place where the lines meet. *)
Lemma point_near k s x v m a : scale s -> 1 <= k <= 2 ^ 30 -> within s x (B2R x) 0 1 -> within s v (B2R v) 0 1 -> finite m -> Rabs a <= 4 * k -> Rabs (val m - a) <= (13 * k + 7 * k * Rabs a) * u ->
  finite (dbl_add x (fmul m v)) /\ Rabs (val (dbl_add x (fmul m v)) - (B2R x + a * B2R v)) <= (17 * k + 10 * k * Rabs a) * u * s.
Proof.
  intros SS K (FX & _ & BX) (FV & _ & BV) FM AK E. pose proof (scale_pos s SS) as P. pose proof u_tiny as U. pose proof (tiny_scale s SS) as T. pose proof SS as (_ & SH). rewrite Rmult_1_l in BX, BV.
  fold (val x) (val v) in *. set (g := Rabs a) in *. assert (G0 : 0 <= g) by apply Rabs_pos. assert (K30 : k <= 1073741824) by lra.
  assert (G1 : g <= 4294967296) by lra.
  assert (KG : 0 <= k * g) by nra. assert (KG1 : k * g <= 4611686018427387904) by nra.
  set (e := (13 * k + 7 * k * g) * u) in *. assert (E0 : 0 <= e) by (unfold e; nra).
  assert (EB : e <= / 5000 * (1 + g)).
  { unfold e. replace ((13 * k + 7 * k * g) * u) with (13 * (u * k) + 7 * (u * k) * g) by ring. assert (UK : 0 <= u * k <= / 8000000) by (split; [nra|unfold u; lra]). nra. }
  assert (MB : Rabs (val m) <= g + / 5000 * (1 + g)). { replace (val m) with (val m - a + a) by ring. apply Rle_trans with (1 := Rabs_triang _ _). fold g. lra. }
  assert (P1 : Rabs (val m * val v) <= (g + / 5000 * (1 + g)) * s) by (rewrite Rabs_mult; apply Rmult_le_compat; auto using Rabs_pos).
  assert (BIG : forall z, z <= 8589934592 * s -> z <= bpow radix2 1000).
  { intros z HZ. apply Rle_trans with (1 := HZ). apply Rle_trans with (bpow radix2 33 * bpow radix2 900); [|rewrite <- bpow_plus; apply bpow_le; lia]. change (bpow radix2 33) with 8589934592. apply Rmult_le_compat_l; lra. }
  destruct (mul_error m v FM FV) as (F1 & R1). { apply BIG. apply Rle_trans with (1 := P1). apply Rmult_le_compat_r; lra. }
  set (w := val (fmul m v)) in *. assert (US : 0 < u * s) by nra.
  assert (R1' : Rabs (w - val m * val v) <= (g + / 5000 * (1 + g) + / 1000) * (u * s)).
  { apply Rle_trans with (1 := R1). assert (u * Rabs (val m * val v) <= u * ((g + / 5000 * (1 + g)) * s)) by (apply Rmult_le_compat_l; lra). lra. }
  assert (D1 : Rabs (val m * val v - a * val v) <= e * s). { replace (val m * val v - a * val v) with ((val m - a) * val v) by ring. rewrite Rabs_mult. apply Rmult_le_compat; auto using Rabs_pos. }
  assert (WB : Rabs w <= (g + / 2000 * (1 + g)) * s).
  { replace w with (w - val m * val v + val m * val v) by ring. apply Rle_trans with (1 := Rabs_triang _ _).
    assert ((g + / 5000 * (1 + g) + / 1000) * (u * s) <= / 10000 * (1 + g) * s). { replace (/ 10000 * (1 + g) * s) with ((1 + g) * / 10000 * s) by ring. rewrite <- Rmult_assoc. apply Rmult_le_compat_r; [lra|]. nra. }
    nra. }
  assert (SB : Rabs (val x + w) <= (1 + g + / 2000 * (1 + g)) * s). { apply Rle_trans with (1 := Rabs_triang _ _). lra. }
  destruct (add_error x (fmul m v) FX F1) as (F2 & R2). { fold w. apply BIG. apply Rle_trans with (1 := SB). apply Rmult_le_compat_r; lra. }
  split; [exact F2|]. fold w in R2. set (z := val (dbl_add x (fmul m v))) in *.
  assert (R2' : Rabs (z - (val x + w)) <= (1 + g + / 2000 * (1 + g) + / 1000) * (u * s)).
  { apply Rle_trans with (1 := R2). assert (u * Rabs (val x + w) <= u * ((1 + g + / 2000 * (1 + g)) * s)) by (apply Rmult_le_compat_l; lra). lra. }
  replace (z - (val x + a * val v)) with (z - (val x + w) + ((w - val m * val v) + (val m * val v - a * val v))) by ring.
  apply Rle_trans with (1 := Rabs_triang _ _). pose proof (Rabs_triang (w - val m * val v) (val m * val v - a * val v)) as T2.
  replace (e * s) with (13 * (k * (u * s)) + 7 * (k * g * (u * s))) in D1 by (unfold e; ring).
  replace ((17 * k + 10 * k * g) * u * s) with (17 * (k * (u * s)) + 10 * (k * g * (u * s))) by ring.
  assert (H1 : u * s <= k * (u * s)) by nra. assert (H2 : g * (u * s) <= k * g * (u * s)) by (apply Rmult_le_compat_r; [lra|nra]). assert (H3 : 0 <= g * (u * s)) by nra. lra.
Qed.
Theorem C173_point : forall k s l1 l2 a b, crossing k s l1 l2 -> meet_at l1 l2 a b ->
  exists w, d_intersection l1 l2 = Some w /\ near_point (17 * k + 10 * k * Rabs a) s w (X (dl_p l1) + a * X (dl_v l1)) (Y (dl_p l1) + a * Y (dl_v l1)).
Proof.
  intros k s l1 l2 a b C (E1 & E2). pose proof C as (SS & L1 & L2 & K & _). destruct (square_scale s SS) as (P & S1 & S2).
  assert (D1 : X (dl_p l2) - X (dl_p l1) = a * X (dl_v l1) - b * X (dl_v l2)) by lra. assert (D2 : Y (dl_p l2) - Y (dl_p l1) = a * Y (dl_v l1) - b * Y (dl_v l2)) by lra.
  destruct (abscissa_near k s l1 l2 (dl_v l2) a _ C (or_intror eq_refl) eq_refl) as (F1 & AK & A1 & Z); [rewrite D1, D2; unfold turn_of; ring|].
  destruct (point_within s _ (proj1 L1)) as (PX & PY). destruct (point_within s _ (proj2 L1)) as (VX & VY).
  unfold d_intersection, d_intersection_abscissae. rewrite Z. eexists. split; [reflexivity|].
  destruct (point_near k s _ _ _ _ S1 K PX VX F1 AK A1) as (FX & EX). destruct (point_near k s _ _ _ _ S1 K PY VY F1 AK A1) as (FY & EY).
  unfold near_point. replace ((17 * k + 10 * k * Rabs a) / 2 ^ 53) with ((17 * k + 10 * k * Rabs a) * u) by reflexivity. split; [split; assumption|]. split; assumption.
Qed.
Print Assumptions C173_point.
(** Where segments cross, the point is right to 27 k units of rounding of the size. *)
Theorem C173_segment : forall k s l1 l2 a b, crossing k s l1 l2 -> meet_at l1 l2 a b -> 0 <= a <= 1 ->
  exists w, d_intersection l1 l2 = Some w /\ near_point (27 * k) s w (X (dl_p l1) + a * X (dl_v l1)) (Y (dl_p l1) + a * Y (dl_v l1)).
Proof.
  intros k s l1 l2 a b C M A. destruct (C173_point k s l1 l2 a b C M) as (w & E & (N & B1 & B2)). exists w. split; [exact E|]. split; [exact N|].
  destruct C as (SS & _ & _ & K & _). destruct (square_scale s SS) as (P & _). rewrite (Rabs_pos_eq a) in B1, B2 by lra.
  assert (H : (17 * k + 10 * k * a) / 2 ^ 53 * s <= 27 * k / 2 ^ 53 * s) by (apply Rmult_le_compat_r; [lra|]; unfold Rdiv; apply Rmult_le_compat_r; [lra|nra]). lra.
Qed.
Print Assumptions C173_segment.

(** ** Segments *)
(** The vector of the segment has coordinates which are numbers of the machine. *)
Definition vector_of (p0 p1 v : dvec) : Prop := numbers v /\ X v = X p1 - X p0 /\ Y v = Y p1 - Y p0.
Lemma sub_number x y v : number x -> number y -> number v -> B2R v = B2R x - B2R y -> number (dbl_sub x y) /\ B2R (dbl_sub x y) = B2R v.
Proof.
  intros FX FY FV E. pose proof (@Bminus_correct 53 1024 prec_ok emax_ok mode_NE x y FX FY) as C. rewrite <- E in C.
  assert (R1 : round radix2 (SpecFloat.fexp 53 1024) (round_mode mode_NE) (B2R v) = B2R v) by apply (rnd_val v). rewrite R1 in C.
  rewrite Rlt_bool_true in C by apply (val_small v). destruct C as (C1 & C2 & _). split; assumption.
Qed.
Lemma vector_line p0 p1 v : numbers p0 -> numbers p1 -> vector_of p0 p1 v -> numbers (dl_v (d_to_line p0 p1)) /\ X (dl_v (d_to_line p0 p1)) = X v /\ Y (dl_v (d_to_line p0 p1)) = Y v.
Proof.
  intros (A1 & A2) (B1 & B2) ((V1 & V2) & E1 & E2). destruct (sub_number _ _ _ B1 A1 V1 E1) as (N1 & Q1). destruct (sub_number _ _ _ B2 A2 V2 E2) as (N2 & Q2). split; [split; assumption|]. split; assumption.
Qed.
Lemma segments_near k s p0 p1 q0 q1 v w a b : numbers p1 -> numbers q1 -> vector_of p0 p1 v -> vector_of q0 q1 w -> crossing k s (DL p0 v) (DL q0 w) -> meet_at (DL p0 v) (DL q0 w) a b ->
  exists s1 s2, d_intersection_abscissae (d_to_line p0 p1) (d_to_line q0 q1) = Some (s1, s2) /\ number s1 /\ number s2 /\
    Rabs (B2R s1 - a) <= (13 * k + 7 * k * Rabs a) / 2 ^ 53 /\ Rabs (B2R s2 - b) <= (13 * k + 7 * k * Rabs b) / 2 ^ 53.
Proof.
  intros FP FQ VP VQ (SS & (L1 & L1') & (L2 & L2') & K & HK & HT) (E1 & E2). cbn [dl_p dl_v] in *.
  destruct (vector_line p0 p1 v (proj1 L1) FP VP) as (N1 & X1 & Y1). destruct (vector_line q0 q1 w (proj1 L2) FQ VQ) as (N2 & X2 & Y2).
  apply (C173_abscissae k s).
  - unfold turn_of in HK, HT. cbn [dl_v] in HK, HT. rewrite <- X1, <- Y1, <- X2, <- Y2 in HK, HT. destruct L1' as (_ & B1 & B2), L2' as (_ & B3 & B4). rewrite <- X1 in B1. rewrite <- Y1 in B2. rewrite <- X2 in B3. rewrite <- Y2 in B4.
    split; [exact SS|]. split; [split; [exact L1|split; [exact N1|split; assumption]]|]. split; [split; [exact L2|split; [exact N2|split; assumption]]|]. split; [exact K|]. split; assumption.
  - unfold meet_at. rewrite X1, Y1, X2, Y2. cbn [d_to_line dl_p]. split; assumption.
Qed.
(** Segments which cross away from their ends are found to cross, at the right place; segments which do
    not, and whose lines do not meet near an end, are found not to. *)
Lemma inside k a (x : float) : 1 <= k <= 2 ^ 30 -> Rabs (B2R x - a) <= (13 * k + 7 * k * Rabs a) / 2 ^ 53 -> 20 * k / 2 ^ 53 <= a <= 1 - 20 * k / 2 ^ 53 -> 0 <= B2R x <= 1 /\ Rabs (B2R x - a) <= 20 * k / 2 ^ 53.
Proof.
  intros K E [A1 A2]. assert (U : 0 < / 2 ^ 53) by (apply Rinv_0_lt_compat, pow_lt; lra). unfold Rdiv in *. set (v := / 2 ^ 53) in *. rewrite (Rabs_pos_eq a) in E by nra.
  assert (H : (13 * k + 7 * k * a) * v <= 20 * k * v) by (apply Rmult_le_compat_r; [lra|nra]). assert (E' : Rabs (B2R x - a) <= 20 * k * v) by lra.
  split; [|exact E']. apply Rabs_le_inv in E'. lra.
Qed.
Lemma outside k a (x : float) : 1 <= k <= 2 ^ 30 -> Rabs (B2R x - a) <= (13 * k + 7 * k * Rabs a) / 2 ^ 53 -> a < - (21 * k / 2 ^ 53) \/ 1 + 21 * k / 2 ^ 53 < a -> B2R x < 0 \/ 1 < B2R x.
Proof.
  intros K E A. assert (V : 0 < / 2 ^ 53 * k <= / 8000000) by (split; [apply Rmult_lt_0_compat; [apply Rinv_0_lt_compat, pow_lt|]; lra|lra]).
  replace ((13 * k + 7 * k * Rabs a) / 2 ^ 53) with (13 * (/ 2 ^ 53 * k) + 7 * (/ 2 ^ 53 * k) * Rabs a) in E by (unfold Rdiv; ring). replace (21 * k / 2 ^ 53) with (21 * (/ 2 ^ 53 * k)) in A by (unfold Rdiv; ring).
  set (v := / 2 ^ 53 * k) in *. apply Rabs_le_inv in E. destruct A as [A|A]; [left; rewrite Rabs_left in E by lra|right; rewrite Rabs_pos_eq in E by lra].
  - assert (v * - a <= / 8000000 * - a) by (apply Rmult_le_compat_r; lra). lra.
  - destruct E as [E _]. assert (G : (a - 1 - 21 * v) * v <= (a - 1 - 21 * v) * / 8000000) by (apply Rmult_le_compat_l; lra). nra.
Qed.
Theorem C173_cross : forall k s p0 p1 q0 q1 v w a b, in_drawing s p1 -> in_drawing s q1 -> vector_of p0 p1 v -> vector_of q0 q1 w -> crossing k s (DL p0 v) (DL q0 w) -> meet_at (DL p0 v) (DL q0 w) a b ->
  20 * k / 2 ^ 53 <= a <= 1 - 20 * k / 2 ^ 53 -> 20 * k / 2 ^ 53 <= b <= 1 - 20 * k / 2 ^ 53 ->
  exists p, d_segment_intersection p0 p1 q0 q1 = Some (p, true) /\ near_point (24 * k) s p (X p0 + a * (X p1 - X p0)) (Y p0 + a * (Y p1 - Y p0)).
Proof.
  intros k s p0 p1 q0 q1 v w a b FP FQ VP VQ C M HA HB. destruct (segments_near k s p0 p1 q0 q1 v w a b (proj1 FP) (proj1 FQ) VP VQ C M) as (s1 & s2 & E & N1 & N2 & E1 & E2).
  pose proof C as (SS & (L1 & (_ & B1 & B2)) & _ & K & _). cbn [dl_p dl_v] in *. destruct (square_scale s SS) as (P & S1 & _).
  destruct (inside k a s1 K E1 HA) as (I1 & D1). destruct (inside k b s2 K E2 HB) as (I2 & _).
  unfold d_segment_intersection. rewrite E. exists (d_interpolate p0 p1 s1). destruct one_val as (V1 & F1 & _). unfold val in V1.
  split.
  - do 2 f_equal. rewrite !le_exact by (assumption || reflexivity). change (B2R zero) with 0. rewrite V1. destruct (Rleb_spec 0 (B2R s1)), (Rleb_spec (B2R s1) 1), (Rleb_spec 0 (B2R s2)), (Rleb_spec (B2R s2) 1); try reflexivity; lra.
  - destruct (C169_segment s p0 p1 s1 S1 L1 FP (conj N1 I1)) as (N & T1 & T2). split; [exact N|]. destruct VP as (_ & VX & VY).
    assert (G : forall z x0 x1 : R, Rabs (x1 - x0) <= s -> Rabs (z - towards x0 x1 (B2R s1)) <= 3.1 / 2 ^ 53 * s -> Rabs (z - (x0 + a * (x1 - x0))) <= 24 * k / 2 ^ 53 * s).
    { intros z x0 x1 B T. replace (z - (x0 + a * (x1 - x0))) with (z - towards x0 x1 (B2R s1) + (B2R s1 - a) * (x1 - x0)) by (unfold towards; ring). apply Rle_trans with (1 := Rabs_triang _ _). rewrite Rabs_mult.
      assert (Rabs (B2R s1 - a) * Rabs (x1 - x0) <= 20 * k / 2 ^ 53 * s) by (apply Rmult_le_compat; auto using Rabs_pos).
      assert (0 < / 2 ^ 53 * s) by (apply Rmult_lt_0_compat; [apply Rinv_0_lt_compat, pow_lt|]; lra). unfold Rdiv in *. rewrite Rmult_assoc in H, T |- *. assert (3.1 * (/ 2 ^ 53 * s) <= 4 * k * (/ 2 ^ 53 * s)) by (apply Rmult_le_compat_r; lra). lra. }
    split; apply G; try assumption; [rewrite <- VX|rewrite <- VY]; assumption.
Qed.
Print Assumptions C173_cross.
Theorem C173_apart : forall k s p0 p1 q0 q1 v w a b, in_drawing s p1 -> in_drawing s q1 -> vector_of p0 p1 v -> vector_of q0 q1 w -> crossing k s (DL p0 v) (DL q0 w) -> meet_at (DL p0 v) (DL q0 w) a b ->
  (exists t, (t = a \/ t = b) /\ (t < - (21 * k / 2 ^ 53) \/ 1 + 21 * k / 2 ^ 53 < t)) -> exists p, d_segment_intersection p0 p1 q0 q1 = Some (p, false).
Proof.
  intros k s p0 p1 q0 q1 v w a b FP FQ VP VQ C M (t & HT & O). destruct (segments_near k s p0 p1 q0 q1 v w a b (proj1 FP) (proj1 FQ) VP VQ C M) as (s1 & s2 & E & N1 & N2 & E1 & E2).
  pose proof C as (_ & _ & _ & K & _). unfold d_segment_intersection. rewrite E. exists (d_interpolate p0 p1 s1). do 2 f_equal. destruct one_val as (V1 & F1 & _). unfold val in V1.
  rewrite !le_exact by (assumption || reflexivity). change (B2R zero) with 0. rewrite V1. apply andb_false_iff.
  destruct HT as [->| ->]; [left; destruct (outside k a s1 K E1 O)|right; destruct (outside k b s2 K E2 O)]; apply andb_false_iff.
  - left. destruct (Rleb_spec 0 (B2R s1)); [lra|reflexivity].
  - right. destruct (Rleb_spec (B2R s1) 1); [lra|reflexivity].
  - left. destruct (Rleb_spec 0 (B2R s2)); [lra|reflexivity].
  - right. destruct (Rleb_spec (B2R s2) 1); [lra|reflexivity].
Qed.
Print Assumptions C173_apart.

(** ** What is lost *)
(** The intersection depends on the order of the lines: through (0, 0) along (2, 1) and through (1, 0)
    along (1, 3). *)
Definition first_line : dline := DL (D zero zero) (D (of_int 2) one).
Definition second_line : dline := DL (D one zero) (D one (of_int 3)).
Lemma abs_value (x : float) s m e : B2SF x = SpecFloat.S754_finite s m e -> Rabs (B2R x) = IZR (Zpos m) * bpow radix2 e.
Proof.
  destruct x as [s'|s'| |s' m' e' H]; cbn [B2SF]; try discriminate. intros E. injection E as -> -> ->. cbn [B2R]. rewrite <- F2R_Zabs. destruct s; reflexivity.
Qed.
Lemma big_cross (x : float) s m : B2SF x = SpecFloat.S754_finite s m (-50) -> (2 ^ 50 <= Zpos m)%Z -> d_rounds_to_zero x = false.
Proof.
  intros E M. unfold d_rounds_to_zero. apply Rlt_bool_false. rewrite (abs_value _ _ _ _ E). apply IZR_le in M. change (IZR (2 ^ 50)) with 1125899906842624 in M.
  apply Rle_trans with (1125899906842624 * bpow radix2 (-50)); [cbn; unfold Z.pow_pos; cbn; lra|]. apply Rmult_le_compat_r; [apply bpow_ge_0|exact M].
Qed.
Theorem C173_order_refuted : exists w1 w2, d_intersection first_line second_line = Some w1 /\ d_intersection second_line first_line = Some w2 /\ numbers w1 /\ numbers w2 /\ X w1 <> X w2.
Proof.
  assert (Z1 : d_rounds_to_zero (d_cross (dl_v first_line) (dl_v second_line)) = false) by (eapply big_cross; [vm_compute; reflexivity|vm_compute; discriminate]).
  assert (Z2 : d_rounds_to_zero (d_cross (dl_v second_line) (dl_v first_line)) = false) by (eapply big_cross; [vm_compute; reflexivity|vm_compute; discriminate]).
  unfold d_intersection, d_intersection_abscissae. rewrite Z1, Z2. eexists. eexists. split; [reflexivity|]. split; [reflexivity|].
  assert (N : forall x : float, is_finite x = true -> number x) by auto.
  match goal with |- numbers ?p /\ numbers ?q /\ _ => set (w1 := p); set (w2 := q) end.
  assert (F1 : number (d_x w1) /\ number (d_y w1)) by (split; vm_compute; reflexivity). assert (F2 : number (d_x w2) /\ number (d_y w2)) by (split; vm_compute; reflexivity).
  split; [exact F1|]. split; [exact F2|]. intros E. assert (Q : dbl_eq (d_x w1) (d_x w2) = true) by (apply eq_val; [apply F1|apply F2|exact E]). vm_compute in Q. discriminate.
Qed.
Print Assumptions C173_order_refuted.
(** Lines which are perpendicular have no intersection when their vectors are short: (2^-13, 0) and
    (0, 2^-13). *)
Definition short : float := fdiv one (of_int (2 ^ 13)).
Theorem C173_short_refuted : let l1 := DL (D zero zero) (D short zero) in let l2 := DL (D zero zero) (D zero short) in
  meet_at l1 l2 0 0 /\ turn_of l1 l2 = (/ 2 ^ 13) ^ 2 /\ d_intersection l1 l2 = None.
Proof.
  intros l1 l2. assert (V : Rabs (B2R short) = / 2 ^ 13).
  { rewrite (abs_value short false 4503599627370496 (-65) ltac:(vm_compute; reflexivity)). cbn. unfold Z.pow_pos. cbn. lra. }
  assert (V2 : B2R short = / 2 ^ 13). { rewrite Rabs_pos_eq in V; [exact V|]. destruct short as [s|s| |s m e H] eqn:ES; cbn [B2R]; try lra. apply F2R_ge_0. assert (B : Bsign short = false) by (vm_compute; reflexivity). rewrite ES in B. cbn in B. rewrite B. cbn. lia. }
  split; [split; unfold l1, l2; cbn [dl_p dl_v d_x d_y]; change (B2R zero) with 0; ring|]. split; [unfold turn_of, l1, l2; cbn [dl_v d_x d_y]; rewrite V2; change (B2R zero) with 0; ring|].
  unfold d_intersection, d_intersection_abscissae. replace (d_rounds_to_zero (d_cross (dl_v l1) (dl_v l2))) with true; [reflexivity|]. symmetry. unfold d_rounds_to_zero. apply Rlt_bool_true.
  rewrite (abs_value _ false 4503599627370496 (-78)) by (vm_compute; reflexivity). cbn. unfold Z.pow_pos. cbn. lra.
Qed.
Print Assumptions C173_short_refuted.

Example C173_example : crossing 2 3 first_line second_line /\ meet_at first_line second_line (3 / 5) (1 / 5).
Proof.
  destruct one_val as (V1 & F1 & _). unfold val in V1.
  assert (V2 : number (of_int 2) /\ B2R (of_int 2) = 2) by number_value. assert (V3 : number (of_int 3) /\ B2R (of_int 3) = 3) by number_value. destruct V2 as (F2 & V2), V3 as (F3 & V3).
  assert (T : turn_of first_line second_line = 5) by (unfold turn_of; cbn [first_line second_line dl_v d_x d_y]; rewrite V1, V2, V3; ring).
  assert (I : forall x y, number x -> number y -> 0 <= B2R x <= 3 -> 0 <= B2R y <= 3 -> in_drawing 3 (D x y)).
  { intros x y FX FY BX BY. split; [split; assumption|]. cbn [d_x d_y]. rewrite !Rabs_pos_eq by lra. lra. }
  assert (FZ : number zero) by reflexivity. assert (VZ : B2R zero = 0) by reflexivity.
  split; [|unfold meet_at; cbn [first_line second_line dl_p dl_v d_x d_y]; rewrite V1, V2, V3, VZ; split; lra].
  split; [split; [apply Rle_trans with (bpow radix2 0); [apply bpow_le; lia|cbn; lra]|apply Rle_trans with (bpow radix2 2); [cbn; lra|apply bpow_le; lia]]|].
  split; [split; apply I; cbn [first_line dl_p dl_v]; auto; lra|]. split; [split; apply I; cbn [second_line dl_p dl_v]; auto; lra|]. rewrite T, Rabs_pos_eq by lra. lra.
Qed.
Example C173_segments : let p1 := D (of_int 2) one in let q0 := D one zero in let q1 := D (of_int 2) (of_int 3) in
  vector_of (D zero zero) p1 (dl_v first_line) /\ vector_of q0 q1 (dl_v second_line) /\ in_drawing 3 p1 /\ in_drawing 3 q1 /\ 20 * 2 / 2 ^ 53 <= 1 / 5 <= 1 - 20 * 2 / 2 ^ 53.
Proof.
  intros p1 q0 q1. destruct one_val as (V1 & F1 & _). unfold val in V1.
  assert (V2 : number (of_int 2) /\ B2R (of_int 2) = 2) by number_value. assert (V3 : number (of_int 3) /\ B2R (of_int 3) = 3) by number_value. destruct V2 as (F2 & V2), V3 as (F3 & V3).
  assert (VZ : B2R zero = 0) by reflexivity. unfold vector_of, in_drawing, numbers, p1, q0, q1. cbn [first_line second_line dl_v d_x d_y]. rewrite V1, V2, V3, VZ, !Rabs_pos_eq by lra.
  split; [split; [split; assumption|lra]|]. split; [split; [split; assumption|lra]|]. split; [split; [split; assumption|lra]|]. split; [split; [split; assumption|lra]|lra].
Qed.
