(** The parameters of the intersection of two segments in double precision, and what is expected of it. *)
From Coq Require Import Reals Lra Lia List Bool ZArith.
From Flocq Require Import Core Relative BinarySingleNaN.
From Verif Require Import Base ModelVector ProofVector ModelColor ModelDouble ModelDecide ModelDoubleIntersection ProofDouble PropDouble ProofAccuracy PropAccuracy ProofCurveAccuracy PropCurveAccuracy PropDecide ProofArea PropArea ProofIntersection PropIntersection.
Import ListNotations.
Local Open Scope R_scope.

(** ** What is expected *)
(** The exact cross product of the vectors of both segments. *)
Definition turn4 (p0 p1 q0 q1 : dvec) : R := (X p1 - X p0) * (Y q1 - Y q0) - (Y p1 - Y p0) * (X q1 - X q0).
(** The segments meet at the parameters a and b of their lines. *)
Definition meet4 (p0 p1 q0 q1 : dvec) (a b : R) : Prop :=
  X p0 + a * (X p1 - X p0) = X q0 + b * (X q1 - X q0) /\ Y p0 + a * (Y p1 - Y p0) = Y q0 + b * (Y q1 - Y q0).
(** Segments in a drawing of size s, which are not parallel. *)
Definition segments (k s : R) (p0 p1 q0 q1 : dvec) : Prop :=
  bpow radix2 (-400) <= s <= bpow radix2 398 /\ (in_drawing s p0 /\ in_drawing s p1) /\ (in_drawing s q0 /\ in_drawing s q1) /\ 1 <= k <= 2 ^ 29 /\
  4 * (s * s) <= k * Rabs (turn4 p0 p1 q0 q1) /\ / 10 ^ 6 <= Rabs (turn4 p0 p1 q0 q1).

(** ** Lemmas *)
Lemma product_apart x y x' y' S e : 0 <= e -> Rabs x <= S -> Rabs y <= S -> Rabs (x' - x) <= e -> Rabs (y' - y) <= e -> e <= S -> Rabs (x' * y' - x * y) <= 3 * (S * e).
Proof.
  intros E0 HX HY DX DY ES. replace (x' * y' - x * y) with ((x' - x) * (y' - y) + (x' - x) * y + x * (y' - y)) by ring.
  pose proof (Rabs_pos x). apply Rle_trans with (1 := Rabs_triang _ _). pose proof (Rabs_triang ((x' - x) * (y' - y)) ((x' - x) * y)) as T. rewrite !Rabs_mult in *.
  assert (Rabs (x' - x) * Rabs (y' - y) <= e * S) by (apply Rmult_le_compat; try apply Rabs_pos; lra).
  assert (Rabs (x' - x) * Rabs y <= e * S) by (apply Rmult_le_compat; try apply Rabs_pos; lra).
  assert (Rabs x * Rabs (y' - y) <= S * e) by (apply Rmult_le_compat; try apply Rabs_pos; lra). lra.
Qed.
Lemma cross_le x y z w S e : 0 <= S -> 0 <= e -> Rabs x <= e -> Rabs y <= e -> Rabs z <= S -> Rabs w <= S -> Rabs (x * w - y * z) <= 2 * (S * e).
Proof.
  intros S0 E0 HX HY HZ HW. unfold Rminus. apply Rle_trans with (1 := Rabs_triang _ _). rewrite Rabs_Ropp, !Rabs_mult.
  assert (Rabs x * Rabs w <= e * S) by (apply Rmult_le_compat; auto using Rabs_pos). assert (Rabs y * Rabs z <= e * S) by (apply Rmult_le_compat; auto using Rabs_pos). lra.
Qed.
Lemma combine_le a b x y e : 0 <= e -> Rabs x <= e -> Rabs y <= e -> Rabs (a * x - b * y) <= (Rabs a + Rabs b) * e.
Proof.
  intros E0 HX HY. unfold Rminus. apply Rle_trans with (1 := Rabs_triang _ _). rewrite Rabs_Ropp, !Rabs_mult. pose proof (Rabs_pos a). pose proof (Rabs_pos b).
  assert (Rabs a * Rabs x <= Rabs a * e) by (apply Rmult_le_compat_l; lra). assert (Rabs b * Rabs y <= Rabs b * e) by (apply Rmult_le_compat_l; lra). lra.
Qed.
(** The parameter which is computed, for each segment. *)
Lemma any_near k s p0 p1 q0 q1 a b : segments k s p0 p1 q0 q1 -> meet4 p0 p1 q0 q1 a b ->
  exists s1 s2, d_intersection_abscissae (d_to_line p0 p1) (d_to_line q0 q1) = Some (s1, s2) /\ number s1 /\ number s2 /\
    Rabs (B2R s1 - a) <= (13.1 * k + 7.1 * k * Rabs a + 2.1 * k * (Rabs a + Rabs b)) / 2 ^ 53 /\ Rabs (B2R s2 - b) <= (13.1 * k + 7.1 * k * Rabs b + 2.1 * k * (Rabs a + Rabs b)) / 2 ^ 53.
Proof.
  intros (SS & (P0 & P1) & (Q0 & Q1) & K & HK & HT) (M1 & M2). pose proof u_tiny as U. set (t := turn4 p0 p1 q0 q1) in *.
  assert (SS1 : side_size s). { split; [apply SS|]. apply Rle_trans with (1 := proj2 SS). apply bpow_le. lia. }
  destruct (square_scale s SS1) as (P & S1 & _).
  assert (B398 : 4 * bpow radix2 398 = bpow radix2 400) by (change 4 with (bpow radix2 2); rewrite <- bpow_plus; reflexivity).
  set (S := 2 * s). set (e := 2.05 * u * s). set (S2 := S * (1 + 2 * u)). assert (E0 : 0 <= e) by (unfold e; apply Rmult_le_pos; lra).
  assert (US : 0 <= u * s) by (apply Rmult_le_pos; lra).
  assert (SE : S + e <= S2). { replace S2 with (2 * s + 4 * (u * s)) by (unfold S2, S; ring). replace e with (2.05 * (u * s)) by (unfold e; lra). unfold S. clear - US. lra. }
  assert (ES : e <= S). { unfold S, e. assert (u * s <= / 1000 * s) by (apply Rmult_le_compat_r; lra). lra. } 
  assert (S0 : 0 < S) by (unfold S; lra). assert (S20 : S <= S2) by lra.
  assert (SS2 : side_size S2). { unfold side_size in *. unfold S2, S in *. split; [apply Rle_trans with (1 := proj1 SS); nra|]. rewrite <- B398. nra. }
  destruct (point_within s _ P0) as (P0X & P0Y), (point_within s _ P1) as (P1X & P1Y), (point_within s _ Q0) as (Q0X & Q0Y), (point_within s _ Q1) as (Q1X & Q1Y).
  assert (SUB : forall x y, within s x (B2R x) 0 1 -> within s y (B2R y) 0 1 -> number (dbl_sub x y) /\ Rabs (B2R x - B2R y) <= S /\ Rabs (B2R (dbl_sub x y) - (B2R x - B2R y)) <= e /\ Rabs (B2R (dbl_sub x y)) <= S2).
  { intros x y WX WY. pose proof WX as (_ & _ & B1). pose proof WY as (_ & _ & B2).
    assert (L : Rabs (B2R x - B2R y) <= 2 * s). { unfold Rminus. apply Rle_trans with (1 := Rabs_triang _ _). rewrite Rabs_Ropp. lra. }
    pose proof (sub_within s _ _ 0 1 _ _ 0 1 2 S1 ltac:(lra) ltac:(lra) ltac:(lra) WX WY L) as M. apply (within_le _ _ _ _ _ 2.05 2 S1) in M; try lra. destruct M as (F & E & _).
    unfold val in E. fold e in E. split; [exact F|]. split; [exact L|]. split; [exact E|].
    replace (B2R (dbl_sub x y)) with (B2R (dbl_sub x y) - (B2R x - B2R y) + (B2R x - B2R y)) by ring. apply Rle_trans with (1 := Rabs_triang _ _). unfold S in SE. lra. }
  set (l1 := d_to_line p0 p1). set (l2 := d_to_line q0 q1).
  destruct (SUB _ _ P1X P0X) as (F1 & L1 & D1 & G1), (SUB _ _ P1Y P0Y) as (F2 & L2 & D2 & G2), (SUB _ _ Q1X Q0X) as (F3 & L3 & D3 & G3), (SUB _ _ Q1Y Q0Y) as (F4 & L4 & D4 & G4).
  change (dbl_sub (d_x p1) (d_x p0)) with (d_x (dl_v l1)) in *. change (dbl_sub (d_y p1) (d_y p0)) with (d_y (dl_v l1)) in *. change (dbl_sub (d_x q1) (d_x q0)) with (d_x (dl_v l2)) in *. change (dbl_sub (d_y q1) (d_y q0)) with (d_y (dl_v l2)) in *.
  set (t' := turn_of l1 l2).
  assert (SSK : S * S <= k * Rabs t) by (unfold S; lra).
  assert (UK : 0 <= u * k <= / 16000000) by (split; [nra|unfold u; lra]).
  assert (TT : Rabs (t' - t) <= 6 * (S * e)).
  { unfold t', t, turn_of, turn4. pose proof (product_apart _ _ _ _ S e E0 L1 L4 D1 D4 ES) as A1. pose proof (product_apart _ _ _ _ S e E0 L2 L3 D2 D3 ES) as A2.
    match goal with |- Rabs (?a - ?b - (?c - ?d)) <= _ => replace (a - b - (c - d)) with ((a - c) - (b - d)) by ring end. unfold Rminus at 1. apply Rle_trans with (1 := Rabs_triang _ _). rewrite Rabs_Ropp. lra. }
  assert (SE2 : S * e = 1.025 * (u * (S * S))) by (unfold e, S; lra).
  assert (USS : u * (S * S) <= / 16000000 * Rabs t). { apply Rle_trans with (u * (k * Rabs t)); [apply Rmult_le_compat_l; lra|]. rewrite <- Rmult_assoc. apply Rmult_le_compat_r; [apply Rabs_pos|lra]. }
  assert (T1 : 0.99999 * Rabs t <= Rabs t'). { pose proof (Rabs_triang (t - t') t') as R1. replace (t - t' + t') with t in R1 by ring. rewrite Rabs_minus_sym in R1. lra. }
  assert (T0 : 0 < Rabs t') by lra.
  assert (LIN : line_in S2 l1 /\ line_in S2 l2).
  { assert (W : forall p, in_drawing s p -> in_drawing S2 p) by (intros p (N & A & B); split; [exact N|unfold S in *; lra]).
    split; (split; [apply W; assumption|]); (split; [split; assumption|split; assumption]). }
  destruct LIN as (LIN1 & LIN2).
  assert (S22 : S2 * S2 <= 1.001 * (S * S)). { unfold S2. replace (S * (1 + 2 * u) * (S * (1 + 2 * u))) with ((1 + 2 * u) * (1 + 2 * u) * (S * S)) by ring. apply Rmult_le_compat_r; nra. }
  assert (KT : S2 * S2 <= 1.002 * k * Rabs t') by nra.
  assert (CR : crossing (1.002 * k) S2 l1 l2) by (split; [exact SS2|]; split; [exact LIN1|]; split; [exact LIN2|]; fold t'; split; [lra|]; split; [exact KT|lra]).
  destruct (C173_meet _ _ _ _ CR) as (a' & b' & ME & _). destruct (C173_abscissae _ _ _ _ a' b' CR ME) as (s1 & s2 & E & N1 & N2 & E1 & E2). exists s1, s2. split; [exact E|]. split; [exact N1|]. split; [exact N2|].
  destruct ME as (ME1 & ME2). cbn [l1 l2 d_to_line dl_p] in ME1, ME2. fold l1 l2 in ME1, ME2.
  set (x1 := B2R (d_x (dl_v l1))) in *. set (y1 := B2R (d_y (dl_v l1))) in *. set (x2 := B2R (d_x (dl_v l2))) in *. set (y2 := B2R (d_y (dl_v l2))) in *.
  set (dx := a * (X p1 - X p0 - x1) - b * (X q1 - X q0 - x2)). set (dy := a * (Y p1 - Y p0 - y1) - b * (Y q1 - Y q0 - y2)).
  assert (DX : dx = (a' - a) * x1 - (b' - b) * x2) by (unfold dx; lra). assert (DY : dy = (a' - a) * y1 - (b' - b) * y2) by (unfold dy; lra).
  set (g := (Rabs a + Rabs b) * e). assert (G0 : 0 <= g) by (unfold g; pose proof (Rabs_pos a); pose proof (Rabs_pos b); nra).
  assert (BX : Rabs dx <= g) by (apply combine_le; [exact E0| |]; rewrite Rabs_minus_sym; assumption). assert (BY : Rabs dy <= g) by (apply combine_le; [exact E0| |]; rewrite Rabs_minus_sym; assumption).
  assert (CA : (a' - a) * t' = dx * y2 - dy * x2) by (rewrite DX, DY; unfold t', turn_of; fold x1 y1 x2 y2; ring).
  assert (CB : (b' - b) * t' = dx * y1 - dy * x1) by (rewrite DX, DY; unfold t', turn_of; fold x1 y1 x2 y2; ring).
  assert (S2P : 0 <= S2) by lra.
  assert (SG : 2 * (S2 * g) <= 2.06 * (k * u * (Rabs a + Rabs b)) * Rabs t').
  { unfold g. set (r := Rabs a + Rabs b). assert (R0 : 0 <= r) by (unfold r; pose proof (Rabs_pos a); pose proof (Rabs_pos b); lra).
    assert (Q : S2 * e <= 1.0251 * (u * (k * Rabs t))). { replace (S2 * e) with (1.025 * (1 + 2 * u) * (u * (S * S))) by (unfold S2, e, S; lra). assert (u * (S * S) <= u * (k * Rabs t)) by (apply Rmult_le_compat_l; lra). assert (0 <= u * (S * S)) by nra. nra. }
    assert (Q2 : u * (k * Rabs t) <= 1.0001 * (u * k * Rabs t')). { replace (u * (k * Rabs t)) with (u * k * Rabs t) by ring. assert (u * k * (0.99999 * Rabs t) <= u * k * Rabs t') by (apply Rmult_le_compat_l; lra). assert (0 <= u * k * Rabs t') by (apply Rmult_le_pos; lra). lra. }
    assert (Q3 : S2 * e <= 1.03 * (u * k * Rabs t')). { assert (0 <= u * k * Rabs t') by (apply Rmult_le_pos; lra). lra. }
    replace (2 * (S2 * (r * e))) with (2 * r * (S2 * e)) by ring. replace (2.06 * (k * u * r) * Rabs t') with (2 * r * (1.03 * (u * k * Rabs t'))) by lra. apply Rmult_le_compat_l; lra. }
  assert (AA : forall z d x y, z * t' = dx * y - dy * x -> Rabs x <= S2 -> Rabs y <= S2 -> d = z -> Rabs d <= 2.06 * (k * u * (Rabs a + Rabs b))).
  { intros z d x y Z ZX ZY ->. apply Rmult_le_reg_r with (1 := T0). rewrite <- Rabs_mult, Z. apply Rle_trans with (2 := SG). apply cross_le; assumption. }
  pose proof (AA _ _ _ _ CA G3 G4 eq_refl) as A1. pose proof (AA _ _ _ _ CB G1 G2 eq_refl) as A2. set (r := Rabs a + Rabs b) in *.
  assert (FIN : forall x c c', Rabs (x - c') <= (13 * (1.002 * k) + 7 * (1.002 * k) * Rabs c') / 2 ^ 53 -> Rabs (c' - c) <= 2.06 * (k * u * r) -> Rabs (x - c) <= (13.1 * k + 7.1 * k * Rabs c + 2.1 * k * r) / 2 ^ 53).
  { intros x c c' H1 H2. unfold Rdiv in *. change (/ 2 ^ 53) with u in *. set (h := u * k) in *. replace (k * u * r) with (h * r) in H2 by (unfold h; ring).
    replace ((13 * (1.002 * k) + 7 * (1.002 * k) * Rabs c') * u) with (13.026 * h + 7.014 * (h * Rabs c')) in H1 by (unfold h; lra). replace ((13.1 * k + 7.1 * k * Rabs c + 2.1 * k * r) * u) with (13.1 * h + 7.1 * (h * Rabs c) + 2.1 * (h * r)) by (unfold h; lra).
    assert (R0 : 0 <= r) by (unfold r; pose proof (Rabs_pos a); pose proof (Rabs_pos b); lra). pose proof (Rabs_pos c) as C0. assert (HR : 0 <= h * r) by nra. assert (HC : 0 <= h * Rabs c) by nra.
    assert (C1 : Rabs c' <= Rabs c + 2.06 * (h * r)). { replace c' with (c' - c + c) at 1 by ring. apply Rle_trans with (1 := Rabs_triang _ _). lra. }
    assert (C2 : h * Rabs c' <= h * Rabs c + / 1000 * (h * r)). { assert (h * Rabs c' <= h * (Rabs c + 2.06 * (h * r))) by (apply Rmult_le_compat_l; lra). assert (h * (h * r) <= / 16000000 * (h * r)) by (apply Rmult_le_compat_r; lra). lra. }
    replace (x - c) with (x - c' + (c' - c)) by ring. apply Rle_trans with (1 := Rabs_triang _ _). lra. }
  split; [apply (FIN _ _ a'); assumption|apply (FIN _ _ b'); assumption].
Qed.
