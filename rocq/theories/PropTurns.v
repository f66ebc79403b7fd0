(** C175: the drift of repeated rotations in double precision. *)
From Coq Require Import Reals Lra Lia List Bool ZArith.
From Flocq Require Import Core Relative BinarySingleNaN.
From Verif Require Import Base ModelColor ModelDouble ModelDecide ModelDoubleRotation ProofDouble PropDouble ProofAccuracy PropAccuracy ProofCurveAccuracy PropCurveAccuracy ProofRotation PropRotation ProofDirection.
Import ListNotations.
Local Open Scope R_scope.

(** ** What is expected *)
(** Rotations by angles in degrees, each in one sense or the other, one after the other. *)
Definition turns := list (float * bool).
Definition rotated (dcos dsin : float -> float) (v : dvec) (l : turns) : dvec := fold_left (fun (w : dvec) (a : float * bool) => d_rotate dcos dsin w (fst a) (snd a)) l v.
Definition angle_sum (l : turns) : R := fold_right (fun (a : float * bool) (t : R) => (if snd a then degrees_of (fst a) else - degrees_of (fst a)) + t) 0 l.
(** At most 2^40 rotations, each of at most one turn. *)
Definition some_turns (l : turns) : Prop := Forall (fun a => turn_angle (fst a)) l /\ (Z.of_nat (length l) <= 2 ^ 40)%Z.
(** A vector of length at most s. *)
Definition vector_in (s : R) (v : dvec) : Prop := numbers v /\ norm (X v) (Y v) <= s.
Definition drift_size (s : R) : Prop := bpow radix2 (-900) <= s <= bpow radix2 899.

(** ** Lemmas *)
Lemma norm_triangle a b c d : norm (a + c) (b + d) <= norm a b + norm c d.
Proof.
  pose proof (norm_pos a b) as P1. pose proof (norm_pos c d) as P2. apply Rsqr_incr_0_var; [|lra]. unfold Rsqr. rewrite norm_square. pose proof (norm_square a b). pose proof (norm_square c d).
  pose proof (products_le a b c d) as P. pose proof (Rle_abs (a * c)). pose proof (Rle_abs (b * d)). nra.
Qed.
Lemma norm_turned t x y : norm (turned_x t x y) (turned_y t x y) = norm x y.
Proof.
  unfold norm. f_equal. unfold turned_x, turned_y. pose proof (sin2_cos2 t) as S. unfold Rsqr in S. replace ((x * cos t - y * sin t) ^ 2 + (x * sin t + y * cos t) ^ 2) with ((x ^ 2 + y ^ 2) * (sin t * sin t + cos t * cos t)) by ring. rewrite S. ring.
Qed.
Lemma turned_plus t1 t2 x y : turned_x (t1 + t2) x y = turned_x t2 (turned_x t1 x y) (turned_y t1 x y) /\ turned_y (t1 + t2) x y = turned_y t2 (turned_x t1 x y) (turned_y t1 x y).
Proof. unfold turned_x, turned_y. rewrite cos_plus, sin_plus. split; ring. Qed.
Lemma angle_sum_app l a : angle_sum (l ++ [a]) = angle_sum l + (if snd a then degrees_of (fst a) else - degrees_of (fst a)).
Proof. induction l as [|b l IH]; cbn [angle_sum app fold_right]; [ring|]. fold (angle_sum (l ++ [a])) (angle_sum l). rewrite IH. ring. Qed.
Lemma count_small n : (Z.of_nat n <= 2 ^ 40)%Z -> 0 <= INR n /\ INR n * u <= / 8192.
Proof.
  intros H. pose proof (pos_INR n) as P. split; [exact P|]. rewrite INR_IZR_INZ in *. apply IZR_le in H. change (IZR (2 ^ 40)) with 1099511627776 in H.
  apply Rle_trans with (1099511627776 * u); [apply Rmult_le_compat_r; [pose proof u_tiny; lra|exact H]|unfold u; lra].
Qed.
Lemma drift dcos dsin s v : library dcos dsin -> drift_size s -> vector_in s v -> forall l, some_turns l ->
  numbers (rotated dcos dsin v l) /\ norm (X (rotated dcos dsin v l) - turned_x (angle_sum l) (X v) (Y v)) (Y (rotated dcos dsin v l) - turned_y (angle_sum l) (X v) (Y v)) <= 50 * INR (length l) * u * (1.01 * s).
Proof.
  intros LB (SL & SH) (NV & LV) l. pose proof u_tiny as U. assert (P : 0 < s) by (apply Rlt_le_trans with (2 := SL), bpow_gt_0).
  set (S := 1.01 * s). assert (S0 : 0 < S) by (unfold S; lra).
  assert (SS : size S). { split; [unfold S; lra|]. replace (bpow radix2 900) with (2 * bpow radix2 899) by (change 2 with (bpow radix2 1); rewrite <- bpow_plus; reflexivity). unfold S. lra. }
  induction l as [|a l IH] using rev_ind; intros (FA & LEN).
  - cbn [rotated fold_left angle_sum fold_right length INR]. split; [exact NV|]. unfold turned_x, turned_y. rewrite cos_0, sin_0. right. unfold norm. replace (X v - (X v * 1 - Y v * 0)) with 0 by ring. replace (Y v - (X v * 0 + Y v * 1)) with 0 by ring. replace (0 ^ 2 + 0 ^ 2) with 0 by ring. rewrite sqrt_0. ring.
  - apply Forall_app in FA. destruct FA as (FA & FB). apply Forall_inv in FB. rewrite app_length in LEN |- *. cbn [length] in LEN |- *. rewrite Nat.add_1_r in LEN |- *.
    destruct (count_small (length l) ltac:(lia)) as (C0 & C1). destruct IH as (NW & EW); [split; [exact FA|lia]|].
    unfold rotated. rewrite fold_left_app. cbn [fold_left]. fold (rotated dcos dsin v l). set (w := rotated dcos dsin v l) in *. set (t := angle_sum l) in *. rewrite angle_sum_app. fold t. rewrite S_INR.
    set (n := INR (length l)) in *. set (ex := turned_x t (X v) (Y v)) in *. set (ey := turned_y t (X v) (Y v)) in *.
    assert (NE : norm ex ey <= s) by (unfold ex, ey; rewrite norm_turned; exact LV).
    assert (NWS : norm (X w) (Y w) <= S).
    { replace (X w) with (ex + (X w - ex)) by ring. replace (Y w) with (ey + (Y w - ey)) by ring. apply Rle_trans with (1 := norm_triangle _ _ _ _). assert (50 * n * u * S <= 50 * / 8192 * S) by (apply Rmult_le_compat_r; lra). unfold S in *. lra. }
    destruct (norm_left (X w) (Y w)) as (LX & LY). assert (DW : in_drawing S w) by (split; [exact NW|lra]).
    destruct (C171_rotate dcos dsin S w (fst a) LB SS DW FB) as (R1 & R2).
    set (t2 := if snd a then degrees_of (fst a) else - degrees_of (fst a)).
    assert (R : near_point 35 S (d_rotate dcos dsin w (fst a) (snd a)) (turned_x t2 (X w) (Y w)) (turned_y t2 (X w) (Y w))) by (unfold t2; destruct (snd a); assumption). clear R1 R2.
    set (z := d_rotate dcos dsin w (fst a) (snd a)) in *. destruct R as (NZ & RX & RY). split; [exact NZ|].
    destruct (turned_plus t t2 (X v) (Y v)) as (-> & ->). fold ex ey.
    replace (X z - turned_x t2 ex ey) with ((X z - turned_x t2 (X w) (Y w)) + turned_x t2 (X w - ex) (Y w - ey)) by (unfold turned_x; ring).
    replace (Y z - turned_y t2 ex ey) with ((Y z - turned_y t2 (X w) (Y w)) + turned_y t2 (X w - ex) (Y w - ey)) by (unfold turned_y; ring).
    apply Rle_trans with (1 := norm_triangle _ _ _ _). rewrite norm_turned.
    replace (35 / 2 ^ 53 * S) with (35 * (u * S)) in RX, RY by (unfold u; lra). replace (50 * n * u * S) with (50 * n * (u * S)) in EW by ring. replace (50 * (n + 1) * u * S) with (50 * (u * S) + 50 * n * (u * S)) by ring.
    assert (US : 0 <= u * S) by (apply Rmult_le_pos; lra). apply Rplus_le_compat; [|exact EW].
    apply Rsqr_incr_0_var; [|lra]. unfold Rsqr. rewrite norm_square. apply Rabs_le_inv in RX, RY. nra.
Qed.

(** ** The theorems *)
(** After n rotations the vector is near the one rotated by the sum of the angles. *)
Theorem C175_drift : forall dcos dsin s v l, library dcos dsin -> drift_size s -> vector_in s v -> some_turns l ->
  near_point (51 * INR (length l)) s (rotated dcos dsin v l) (turned_x (angle_sum l) (X v) (Y v)) (turned_y (angle_sum l) (X v) (Y v)).
Proof.
  intros dcos dsin s v l LB DS VI ST. destruct (drift dcos dsin s v LB DS VI l ST) as (N & E). split; [exact N|]. destruct ST as (_ & LEN). destruct (count_small _ LEN) as (C0 & _). pose proof u_tiny as U.
  assert (P : 0 < s) by (apply Rlt_le_trans with (2 := proj1 DS), bpow_gt_0).
  destruct (norm_left (X (rotated dcos dsin v l) - turned_x (angle_sum l) (X v) (Y v)) (Y (rotated dcos dsin v l) - turned_y (angle_sum l) (X v) (Y v))) as (A & B).
  assert (Q : 0 <= INR (length l) * u * s) by (repeat apply Rmult_le_pos; lra). replace (51 * INR (length l) / 2 ^ 53 * s) with (51 * (INR (length l) * u * s)) by (unfold u, Rdiv; ring). lra.
Qed.
Print Assumptions C175_drift.
(** The length drifts no more. *)
Theorem C175_length : forall dcos dsin s v l, library dcos dsin -> drift_size s -> vector_in s v -> some_turns l ->
  let w := rotated dcos dsin v l in Rabs (norm (X w) (Y w) - norm (X v) (Y v)) <= 51 * INR (length l) / 2 ^ 53 * s.
Proof.
  intros dcos dsin s v l LB DS VI ST w. destruct (drift dcos dsin s v LB DS VI l ST) as (N & E). fold w in E. destruct ST as (_ & LEN). destruct (count_small _ LEN) as (C0 & _). pose proof u_tiny as U.
  assert (P : 0 < s) by (apply Rlt_le_trans with (2 := proj1 DS), bpow_gt_0). set (ex := turned_x (angle_sum l) (X v) (Y v)) in *. set (ey := turned_y (angle_sum l) (X v) (Y v)) in *.
  assert (NE : norm ex ey = norm (X v) (Y v)) by apply norm_turned. rewrite <- NE.
  assert (A : norm (X w) (Y w) <= norm ex ey + norm (X w - ex) (Y w - ey)). { replace (X w) with (ex + (X w - ex)) at 1 by ring. replace (Y w) with (ey + (Y w - ey)) at 1 by ring. apply norm_triangle. }
  assert (B : norm ex ey <= norm (X w) (Y w) + norm (X w - ex) (Y w - ey)).
  { replace (norm (X w - ex) (Y w - ey)) with (norm (ex - X w) (ey - Y w)) by (unfold norm; f_equal; ring). replace ex with (X w + (ex - X w)) at 1 by ring. replace ey with (Y w + (ey - Y w)) at 1 by ring. apply norm_triangle. }
  assert (Q : 0 <= INR (length l) * u * s) by (repeat apply Rmult_le_pos; lra). replace (51 * INR (length l) / 2 ^ 53 * s) with (51 * (INR (length l) * u * s)) by (unfold u, Rdiv; ring). apply Rabs_le. lra.
Qed.
Print Assumptions C175_length.
(** Rotations whose angles add up to whole turns bring the vector back. *)
Theorem C175_back : forall dcos dsin s v l n, library dcos dsin -> drift_size s -> vector_in s v -> some_turns l -> angle_sum l = 2 * INR n * PI ->
  near_point (51 * INR (length l)) s (rotated dcos dsin v l) (X v) (Y v).
Proof.
  intros dcos dsin s v l n LB DS VI ST A. pose proof (C175_drift dcos dsin s v l LB DS VI ST) as D. rewrite A in D. unfold turned_x, turned_y in D.
  replace (2 * INR n * PI) with (0 + 2 * INR n * PI) in D by ring. rewrite cos_period, sin_period, cos_0, sin_0 in D. replace (X v * 1 - Y v * 0) with (X v) in D by ring. replace (X v * 0 + Y v * 1) with (Y v) in D by ring. exact D.
Qed.
Print Assumptions C175_back.
(** Four quarters of a turn. *)
Example C175_example : some_turns (repeat (of_int 90, true) 4) /\ angle_sum (repeat (of_int 90, true) 4) = 2 * INR 1 * PI /\ vector_in 2 (D one one) /\ drift_size 2.
Proof.
  destruct ninety_value as (F90 & V90). change (val (of_int 90)) with (B2R (of_int 90)) in V90. destruct one_val as (VO & FO & _). unfold val in VO.
  split; [split; [apply Forall_forall; intros a I; apply repeat_spec in I; subst a; split; [exact F90|cbn [fst]; rewrite V90, Rabs_pos_eq; lra]|cbn; lia]|].
  split; [cbn [repeat angle_sum fold_right snd fst INR]; unfold degrees_of; rewrite V90; lra|].
  split; [split; [split; exact FO|]; cbn [d_x d_y]; rewrite VO; unfold norm; rewrite <- (sqrt_Rsqr 2) by lra; apply sqrt_le_1_alt; unfold Rsqr; lra|].
  split; [apply Rle_trans with (bpow radix2 0); [apply bpow_le; lia|cbn; lra]|apply Rle_trans with (bpow radix2 1); [cbn; lra|apply bpow_le; lia]].
Qed.
