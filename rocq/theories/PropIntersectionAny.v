(** C173: the intersections of any segments in double precision. *)
From Coq Require Import Reals Lra Lia List Bool ZArith.
From Flocq Require Import Core Relative BinarySingleNaN.
From Verif Require Import Base ModelVector ProofVector ModelColor ModelDouble ModelDecide ModelDoubleIntersection ProofDouble PropDouble ProofAccuracy PropAccuracy ProofCurveAccuracy PropCurveAccuracy PropDecide ProofArea PropArea ProofIntersection PropIntersection ProofIntersectionAny.
Import ListNotations.
Local Open Scope R_scope.

(** ** Lemmas *)
Lemma unit_k k : 1 <= k <= 2 ^ 29 -> 0 < k / 2 ^ 53 <= / 16000000.
Proof. intros K. split; [apply Rmult_lt_0_compat; [lra|apply Rinv_0_lt_compat, pow_lt; lra]|lra]. Qed.
Lemma error_unit k c r : (13.1 * k + 7.1 * k * c + 2.1 * k * r) / 2 ^ 53 = 13.1 * (k / 2 ^ 53) + 7.1 * (k / 2 ^ 53 * c) + 2.1 * (k / 2 ^ 53 * r).
Proof. unfold Rdiv. lra. Qed.
Lemma any_inside h c r (x : float) : 0 < h <= / 16000000 -> Rabs (B2R x - c) <= 13.1 * h + 7.1 * (h * Rabs c) + 2.1 * (h * r) -> 25 * h <= c <= 1 - 25 * h -> r <= 2 ->
  0 <= B2R x <= 1 /\ Rabs (B2R x - c) <= 25 * h.
Proof.
  intros H E C R. rewrite (Rabs_pos_eq c) in E by lra. assert (h * c <= h * 1) by (apply Rmult_le_compat_l; lra). assert (h * r <= h * 2) by (apply Rmult_le_compat_l; lra).
  assert (E' : Rabs (B2R x - c) <= 25 * h) by lra. split; [|exact E']. apply Rabs_le_inv in E'. lra.
Qed.
Lemma far_outside h c r (x : float) : 0 < h <= / 16000000 -> Rabs (B2R x - c) <= 13.1 * h + 7.1 * (h * Rabs c) + 2.1 * (h * r) -> 2 <= Rabs c -> r <= 2 * Rabs c -> B2R x < 0 \/ 1 < B2R x.
Proof.
  intros H E C R. assert (h * Rabs c <= / 16000000 * Rabs c) by (apply Rmult_le_compat_r; lra). assert (h * r <= h * (2 * Rabs c)) by (apply Rmult_le_compat_l; lra).
  assert (E' : Rabs (B2R x - c) <= / 1000 * Rabs c) by lra. apply Rabs_le_inv in E'. destruct (Rle_dec 0 c) as [L|L]; [rewrite (Rabs_pos_eq c) in * by lra|rewrite (Rabs_left c) in * by lra]; lra.
Qed.
Lemma near_outside h c r (x : float) : 0 < h <= / 16000000 -> Rabs (B2R x - c) <= 13.1 * h + 7.1 * (h * Rabs c) + 2.1 * (h * r) -> Rabs c <= 2 -> r <= 4 -> c < - (36 * h) \/ 1 + 36 * h < c -> B2R x < 0 \/ 1 < B2R x.
Proof.
  intros H E C R O. assert (h * Rabs c <= h * 2) by (apply Rmult_le_compat_l; lra). assert (h * r <= h * 4) by (apply Rmult_le_compat_l; lra).
  assert (E' : Rabs (B2R x - c) <= 36 * h) by lra. apply Rabs_le_inv in E'. lra.
Qed.
Lemma outside_test (x : float) : number x -> B2R x < 0 \/ 1 < B2R x -> dbl_le zero x && dbl_le x one = false.
Proof.
  intros N O. destruct one_val as (V1 & F1 & _). unfold val in V1. rewrite !le_exact by (assumption || reflexivity). change (B2R zero) with 0. rewrite V1.
  destruct (Rleb_spec 0 (B2R x)), (Rleb_spec (B2R x) 1); try reflexivity; lra.
Qed.
Lemma inside_test (x : float) : number x -> 0 <= B2R x <= 1 -> dbl_le zero x && dbl_le x one = true.
Proof.
  intros N O. destruct one_val as (V1 & F1 & _). unfold val in V1. rewrite !le_exact by (assumption || reflexivity). change (B2R zero) with 0. rewrite V1.
  destruct (Rleb_spec 0 (B2R x)), (Rleb_spec (B2R x) 1); try reflexivity; lra.
Qed.

(** ** The theorems *)
(** Segments which cross away from their ends are found to cross, at the right place, whatever their
    points. *)
Theorem C173_any_cross : forall k s p0 p1 q0 q1 a b, segments k s p0 p1 q0 q1 -> meet4 p0 p1 q0 q1 a b ->
  25 * k / 2 ^ 53 <= a <= 1 - 25 * k / 2 ^ 53 -> 25 * k / 2 ^ 53 <= b <= 1 - 25 * k / 2 ^ 53 ->
  exists p, d_segment_intersection p0 p1 q0 q1 = Some (p, true) /\ near_point (54 * k) s p (X p0 + a * (X p1 - X p0)) (Y p0 + a * (Y p1 - Y p0)).
Proof.
  intros k s p0 p1 q0 q1 a b SG M HA HB. destruct (any_near k s p0 p1 q0 q1 a b SG M) as (s1 & s2 & E & N1 & N2 & E1 & E2). pose proof SG as (SS & (P0 & P1) & _ & K & _).
  rewrite error_unit in E1, E2. pose proof (unit_k k K) as H. replace (25 * k / 2 ^ 53) with (25 * (k / 2 ^ 53)) in HA, HB by (unfold Rdiv; ring). set (h := k / 2 ^ 53) in *.
  assert (AB : Rabs a + Rabs b <= 2) by (rewrite !Rabs_pos_eq by lra; lra). destruct (any_inside h a _ s1 H E1 HA AB) as (I1 & D1). destruct (any_inside h b _ s2 H E2 HB AB) as (I2 & _).
  unfold d_segment_intersection. rewrite E. exists (d_interpolate p0 p1 s1). split; [rewrite !inside_test by assumption; reflexivity|].
  assert (S1 : size s). { split; [apply Rle_trans with (2 := proj1 SS)|apply Rle_trans with (1 := proj2 SS)]; apply bpow_le; lia. }
  assert (P : 0 < s) by (apply Rlt_le_trans with (2 := proj1 SS), bpow_gt_0).
  destruct (C169_segment s p0 p1 s1 S1 P0 P1 (conj N1 I1)) as (N & T1 & T2). split; [exact N|].
  assert (G : forall z x0 x1 : R, Rabs x0 <= s -> Rabs x1 <= s -> Rabs (z - towards x0 x1 (B2R s1)) <= 3.1 / 2 ^ 53 * s -> Rabs (z - (x0 + a * (x1 - x0))) <= 54 * k / 2 ^ 53 * s).
  { intros z x0 x1 B0 B1 T. replace (z - (x0 + a * (x1 - x0))) with (z - towards x0 x1 (B2R s1) + (B2R s1 - a) * (x1 - x0)) by (unfold towards; ring). apply Rle_trans with (1 := Rabs_triang _ _). rewrite Rabs_mult.
    assert (B : Rabs (x1 - x0) <= 2 * s) by (unfold Rminus; apply Rle_trans with (1 := Rabs_triang _ _); rewrite Rabs_Ropp; lra).
    assert (L : Rabs (B2R s1 - a) * Rabs (x1 - x0) <= 25 * h * (2 * s)) by (apply Rmult_le_compat; auto using Rabs_pos).
    replace (54 * k / 2 ^ 53 * s) with (54 * (h * s)) by (unfold h, Rdiv; ring). assert (V : / 2 ^ 53 <= h) by (unfold h, Rdiv; lra). assert (VS : / 2 ^ 53 * s <= h * s) by (apply Rmult_le_compat_r; lra). unfold Rdiv in T. rewrite Rmult_assoc in T. assert (0 <= h * s) by (apply Rmult_le_pos; lra). lra. }
  destruct P0 as (_ & B1 & B2), P1 as (_ & B3 & B4). split; apply G; assumption.
Qed.
Print Assumptions C173_any_cross.
(** Segments whose lines meet beyond an end of one of them are found not to cross. *)
Theorem C173_any_apart : forall k s p0 p1 q0 q1 a b, segments k s p0 p1 q0 q1 -> meet4 p0 p1 q0 q1 a b ->
  (exists t, (t = a \/ t = b) /\ (t < - (36 * k / 2 ^ 53) \/ 1 + 36 * k / 2 ^ 53 < t)) -> exists p, d_segment_intersection p0 p1 q0 q1 = Some (p, false).
Proof.
  intros k s p0 p1 q0 q1 a b SG M (t & HT & O). destruct (any_near k s p0 p1 q0 q1 a b SG M) as (s1 & s2 & E & N1 & N2 & E1 & E2). pose proof SG as (_ & _ & _ & K & _).
  rewrite error_unit in E1, E2. pose proof (unit_k k K) as H. replace (36 * k / 2 ^ 53) with (36 * (k / 2 ^ 53)) in O by (unfold Rdiv; ring). set (h := k / 2 ^ 53) in *.
  unfold d_segment_intersection. rewrite E. exists (d_interpolate p0 p1 s1). do 2 f_equal. apply andb_false_iff. pose proof (Rabs_pos a). pose proof (Rabs_pos b).
  destruct (Rle_dec (Rabs a) 2) as [A|A], (Rle_dec (Rabs b) 2) as [B|B].
  - destruct HT as [->| ->]; [left; apply outside_test; [exact N1|]; apply (near_outside h a _ s1 H E1 A); [lra|exact O]|right; apply outside_test; [exact N2|]; apply (near_outside h b _ s2 H E2 B); [lra|exact O]].
  - right. apply outside_test; [exact N2|]. apply (far_outside h b _ s2 H E2); lra.
  - left. apply outside_test; [exact N1|]. apply (far_outside h a _ s1 H E1); lra.
  - destruct (Rle_dec (Rabs a) (Rabs b)) as [L|L]; [right; apply outside_test; [exact N2|]; apply (far_outside h b _ s2 H E2); lra|left; apply outside_test; [exact N1|]; apply (far_outside h a _ s1 H E1); lra].
Qed.
Print Assumptions C173_any_apart.

Example C173_any_example : segments 13 4 (D zero zero) (D (of_int 2) one) (D one zero) (D (of_int 2) (of_int 3)) /\
  meet4 (D zero zero) (D (of_int 2) one) (D one zero) (D (of_int 2) (of_int 3)) (3 / 5) (1 / 5) /\ 25 * 13 / 2 ^ 53 <= 1 / 5 /\ 3 / 5 <= 1 - 25 * 13 / 2 ^ 53.
Proof.
  destruct one_val as (V1 & F1 & _). unfold val in V1.
  assert (V2 : number (of_int 2) /\ B2R (of_int 2) = 2) by number_value. assert (V3 : number (of_int 3) /\ B2R (of_int 3) = 3) by number_value. destruct V2 as (F2 & V2), V3 as (F3 & V3).
  assert (VZ : B2R zero = 0) by reflexivity. assert (FZ : number zero) by reflexivity.
  assert (I : forall x y, number x -> number y -> 0 <= B2R x <= 4 -> 0 <= B2R y <= 4 -> in_drawing 4 (D x y)).
  { intros x y FX FY BX BY. split; [split; assumption|]. cbn [d_x d_y]. rewrite !Rabs_pos_eq by lra. lra. }
  assert (T : turn4 (D zero zero) (D (of_int 2) one) (D one zero) (D (of_int 2) (of_int 3)) = 5) by (unfold turn4; cbn [d_x d_y]; rewrite V1, V2, V3, VZ; ring).
  split; [|split; [unfold meet4; cbn [d_x d_y]; rewrite V1, V2, V3, VZ; split; lra|split; lra]].
  split; [split; [apply Rle_trans with (bpow radix2 0); [apply bpow_le; lia|cbn; lra]|apply Rle_trans with (bpow radix2 2); [cbn; lra|apply bpow_le; lia]]|].
  split; [split; apply I; auto; lra|]. split; [split; apply I; auto; lra|]. rewrite T, Rabs_pos_eq by lra. split; [lra|]. split; lra.
Qed.
