(** C160: vectors in double precision.  C161: the ends of segments and curves.  C162: the middle.  C163: transformations. *)
From Coq Require Import Reals Lra Lia List Bool ZArith.
From Flocq Require Import Core BinarySingleNaN Mult_error.
From Verif Require Import Base ModelColor ModelDouble ProofDouble.
Import ListNotations.
Local Open Scope R_scope.

(** ** What is expected: numbers and their values *)

(** The double nearest to a real number, ties to even, without a bound on the exponent. *)
Definition nearest (x : R) : R := round radix2 (FLT_exp (-1074) 53) ZnearestE x.
Definition number (x : float) : Prop := is_finite x = true.
Definition numbers (a : dvec) : Prop := number (d_x a) /\ number (d_y a).
(** The vector has these coordinates. *)
Definition is_at (a : dvec) (x y : R) : Prop := numbers a /\ B2R (d_x a) = x /\ B2R (d_y a) = y.
Definition same_point (a b : dvec) : Prop := is_at a (B2R (d_x b)) (B2R (d_y b)).

(** Decimal numbers as python reads them. *)
Definition tenths (k : Z) : float := fdiv (of_int k) (of_int 10).

(** The equality of the program is the one of the coordinates. *)
Lemma same_point_eq a b : numbers b -> same_point a b -> d_eq a b = true.
Proof.
  intros [B1 B2] ((A1 & A2) & X & Y). unfold d_eq. apply andb_true_iff. split; apply eq_val; auto.
Qed.

(** ** C160 *)

(** Sums and differences are the exact ones, rounded, unless they overflow. *)
Theorem C160_rounded : forall a b k, numbers a -> numbers b ->
  (numbers (d_add a b) -> is_at (d_add a b) (nearest (B2R (d_x a) + B2R (d_x b))) (nearest (B2R (d_y a) + B2R (d_y b)))) /\
  (numbers (d_sub a b) -> is_at (d_sub a b) (nearest (B2R (d_x a) - B2R (d_x b))) (nearest (B2R (d_y a) - B2R (d_y b)))) /\
  (numbers (d_scale a k) -> is_at (d_scale a k) (nearest (B2R k * B2R (d_x a))) (nearest (B2R k * B2R (d_y a)))).
Proof.
  intros a b k [A1 A2] [B1 B2]. split; [|split]; intros [F1 F2]; (split; [split; assumption|]); cbn [d_add d_sub d_scale d_x d_y].
  - split; apply add_finite; assumption.
  - split; apply sub_finite; assumption.
  - split; apply mul_finite; assumption.
Qed.
Print Assumptions C160_rounded.

(** The sum does not depend on the order, even with infinities and NaN. *)
Theorem C160_add_commutes : forall a b, d_add a b = d_add b a.
Proof. intros a b. unfold d_add. f_equal; apply add_comm. Qed.
Print Assumptions C160_add_commutes.

Theorem C160_sub_self : forall a, numbers a -> is_at (d_sub a a) 0 0.
Proof.
  assert (Z : forall x, number x -> number (dbl_sub x x) /\ B2R (dbl_sub x x) = 0).
  { intros x F. pose proof (@Bminus_correct 53 1024 prec_ok emax_ok mode_NE x x F F) as C.
    replace (B2R x - B2R x) with 0 in C by ring. change (round radix2 fexp (round_mode mode_NE) 0) with (rnd 0) in C.
    rewrite rnd_0, Rabs_R0, Rlt_bool_true in C by apply bpow_gt_0. destruct C as (C1 & C2 & _). split; assumption. }
  intros a [A1 A2]. destruct (Z _ A1), (Z _ A2). repeat split; assumption.
Qed.
Print Assumptions C160_sub_self.

(** Adding and taking away again may not give back the vector: 0.1 + 0.2 - 0.2. *)
Theorem C160_cancel_refuted : exists a b, numbers a /\ numbers b /\ numbers (d_add a b) /\ d_eq (d_sub (d_add a b) b) a = false.
Proof.
  exists (D (tenths 1) zero), (D (tenths 2) zero). unfold numbers, number. repeat split; vm_compute; reflexivity.
Qed.
Print Assumptions C160_cancel_refuted.
(** Nor is the sum associative. *)
Theorem C160_associative_refuted : exists a b c, numbers a /\ numbers b /\ numbers c /\
  d_eq (d_add (d_add a b) c) (d_add a (d_add b c)) = false.
Proof.
  exists (D (tenths 1) zero), (D (tenths 2) zero), (D (tenths 3) zero). unfold numbers, number. repeat split; vm_compute; reflexivity.
Qed.
Print Assumptions C160_associative_refuted.

(** Quarter turns are exact. *)
Theorem C160_quarter_turns : forall a, d_normal (d_normal a) = d_parity a /\ d_anti_normal (d_normal a) = a /\
  d_normal (d_anti_normal a) = a /\ d_normal (d_normal (d_normal (d_normal a))) = a /\ d_parity (d_parity a) = a /\
  d_permute (d_permute a) = a /\ d_neg a = d_parity a.
Proof.
  intros [x y]. unfold d_normal, d_anti_normal, d_parity, d_permute, d_neg, dbl_neg. cbn [d_x d_y]. rewrite !Bopp_involutive.
  repeat split.
Qed.
Print Assumptions C160_quarter_turns.
Theorem C160_quarter_turn_at : forall a x y, is_at a x y -> is_at (d_normal a) (- y) x /\ is_at (d_anti_normal a) y (- x) /\
  is_at (d_parity a) (- x) (- y) /\ is_at (d_permute a) y x.
Proof.
  intros a x y ((F1 & F2) & X & Y). unfold d_normal, d_anti_normal, d_parity, d_permute, dbl_neg, is_at, numbers, number. cbn [d_x d_y].
  rewrite !is_finite_Bopp, !B2R_Bopp, X, Y. repeat split; assumption.
Qed.
Print Assumptions C160_quarter_turn_at.

(** The cross product changes its sign, exactly, when the vectors are exchanged. *)
Theorem C160_cross_exchanged : forall a b, number (d_cross a b) ->
  number (d_cross b a) /\ B2R (d_cross b a) = - B2R (d_cross a b).
Proof.
  intros a b F. unfold d_cross in *. rewrite (mul_comm (d_x b)), (mul_comm (d_y b)).
  destruct (sub_swap (fmul (d_x a) (d_y b)) (fmul (d_y a) (d_x b))) as [E|[E1 E2]].
  - rewrite E. unfold number, dbl_neg. rewrite is_finite_Bopp, B2R_Bopp. split; [exact F|reflexivity].
  - rewrite E1, E2. split; [reflexivity|]. cbn. ring.
Qed.
Print Assumptions C160_cross_exchanged.
(** A vector is parallel to itself and to its opposite, unless the product overflows. *)
Theorem C160_cross_self_partial : forall a, number (fmul (d_x a) (d_y a)) ->
  number (d_cross a a) /\ B2R (d_cross a a) = 0.
Proof.
  intros a F. unfold d_cross. rewrite (mul_comm (d_y a)). set (x := fmul (d_x a) (d_y a)) in *.
  destruct (C160_sub_self (D x x)) as ([N _] & E & _); [split; exact F|]. split; [exact N|exact E].
Qed.
Print Assumptions C160_cross_self_partial.
Definition huge : float := fmul (of_int (2 ^ 1000)) one.
Theorem C160_cross_self_refuted : exists a, numbers a /\ is_nan (d_cross a a) = true.
Proof. exists (D huge huge). unfold numbers, number. repeat split; vm_compute; reflexivity. Qed.
Print Assumptions C160_cross_self_refuted.

(** The distance from one point to another is the distance back, to the last bit. *)
Theorem C160_distance_back : forall fused a b, d_magnitude fused (d_sub b a) = d_magnitude fused (d_sub a b).
Proof.
  intros fused a b.
  assert (M : forall x, fmul (dbl_neg x) (dbl_neg x) = fmul x x).
  { intros x. unfold fmul, dbl_neg. pose proof (@Bmult_correct 53 1024 prec_ok emax_ok mode_NE x x) as A.
    pose proof (@Bmult_correct 53 1024 prec_ok emax_ok mode_NE (Bopp x) (Bopp x)) as B.
    destruct (is_finite x) eqn:F; [|destruct x as [[]|[]| |[] m e H]; try discriminate; reflexivity].
    rewrite !B2R_Bopp, !is_finite_Bopp in B. replace (- B2R x * - B2R x) with (B2R x * B2R x) in B by ring.
    rewrite Bsign_Bopp in B by (apply finite_nan; exact F). replace (xorb (negb (Bsign x)) (negb (Bsign x))) with (xorb (Bsign x) (Bsign x)) in B
      by (destruct (Bsign x); reflexivity).
    destruct (Rlt_bool _ _); [|apply B2SF_inj; congruence].
    destruct A as (A1 & A2 & A3), B as (B1 & B2 & B3). try rewrite F in A2. rewrite F in B2. cbn in A2, B2.
    apply B2R_Bsign_inj; [exact B2|exact A2|exact (eq_trans B1 (eq_sym A1))|].
    exact (eq_trans (B3 (finite_nan _ B2)) (eq_sym (A3 (finite_nan _ A2)))). }
  unfold d_magnitude. f_equal. unfold d_sub. cbn [d_x d_y].
  assert (S : forall x y, fmul (dbl_sub y x) (dbl_sub y x) = fmul (dbl_sub x y) (dbl_sub x y)).
  { intros x y. destruct (sub_swap x y) as [->|[-> ->]]; [apply M|reflexivity]. }
  assert (T : forall x y z, dbl_fma (dbl_sub y x) (dbl_sub y x) z = dbl_fma (dbl_sub x y) (dbl_sub x y) z).
  { intros x y z. destruct (sub_swap x y) as [->|[-> ->]]; [|reflexivity]. generalize (dbl_sub x y). clear. intros x.
    unfold dbl_fma, dbl_neg. destruct x as [[]|[]| |[] m e H]; reflexivity. }
  rewrite (S (d_x a) (d_x b)). destruct fused; [rewrite (T (d_y a) (d_y b))|rewrite (S (d_y a) (d_y b))]; reflexivity.
Qed.
Print Assumptions C160_distance_back.

Example C160_case : numbers (d_add (D (tenths 1) (tenths 7)) (D (tenths 2) one)) /\ number (d_cross (D one two) (D three one)) /\
  dbl_eq (d_magnitude false (d_sub (D three zero) (D zero (of_int 4)))) (of_int 5) = true.
Proof. unfold numbers, number. repeat split; vm_compute; reflexivity. Qed.

(** ** C161 *)
Lemma scaled_one a : numbers a -> d_scale a one = a.
Proof. destruct a as [x y]. intros [A1 A2]. unfold d_scale. cbn [d_x d_y] in *. rewrite !mul_one by assumption. reflexivity. Qed.
Lemma scaled_zero a : numbers a -> is_at (d_scale a zero) 0 0.
Proof. intros [A1 A2]. destruct (mul_zero _ A1), (mul_zero _ A2). repeat split; assumption. Qed.
Lemma plus_null a z : numbers a -> is_at z 0 0 -> same_point (d_add a z) a.
Proof.
  intros [A1 A2] ((Z1 & Z2) & X & Y). destruct (add_zero_r _ _ A1 Z1 X), (add_zero_r _ _ A2 Z2 Y). repeat split; assumption.
Qed.
Lemma null_plus a z : numbers a -> is_at z 0 0 -> same_point (d_add z a) a.
Proof. rewrite C160_add_commutes. apply plus_null. Qed.
Lemma one_minus_zero : dbl_sub one zero = one.
Proof. reflexivity. Qed.
Lemma one_minus_one : dbl_sub one one = zero.
Proof. reflexivity. Qed.
Lemma square_zero : dbl_square zero = zero. Proof. reflexivity. Qed.
Lemma square_one : dbl_square one = one. Proof. apply mul_one. reflexivity. Qed.
Lemma cube_zero : dbl_cube zero = zero. Proof. reflexivity. Qed.

(** A segment starts and ends at its points, exactly. *)
Theorem C161_segment_ends : forall a b, numbers a -> numbers b ->
  same_point (d_interpolate a b zero) a /\ same_point (d_interpolate a b one) b.
Proof.
  intros a b A B. unfold d_interpolate. rewrite one_minus_zero, one_minus_one. rewrite !scaled_one by assumption.
  split; [apply plus_null|apply null_plus]; auto using scaled_zero.
Qed.
Print Assumptions C161_segment_ends.

(** So does a quadratic curve, unless the double of the control point overflows. *)
Theorem C161_quadratic_ends_partial : forall a b c, numbers a -> numbers b -> numbers c -> numbers (d_scale b two) ->
  same_point (d_quadratic a b c zero) a /\ same_point (d_quadratic a b c one) c.
Proof.
  intros a b c A B C B2. unfold d_quadratic. rewrite one_minus_zero, one_minus_one, square_zero, square_one.
  rewrite (scaled_one a A), (scaled_one c C). pose proof (scaled_zero _ B2) as Z.
  assert (Z2 : numbers (d_scale (d_scale b two) zero)) by apply Z. rewrite (scaled_one _ Z2), (scaled_one _ B2).
  assert (N : forall x y, numbers x -> same_point y x -> numbers y) by (intros x y _ H; apply H).
  assert (T : forall x y z, same_point x y -> same_point y z -> same_point x z).
  { intros x y z (F & X & Y) (_ & X' & Y'). split; [exact F|]. split; congruence. }
  split.
  - pose proof (plus_null _ _ A Z) as P. eapply T; [|exact P]. apply plus_null; [apply P|apply scaled_zero, C].
  - pose proof (scaled_zero _ A) as ZA.
    assert (P : is_at (d_add (d_scale a zero) (d_scale (d_scale b two) zero)) 0 0).
    { pose proof (plus_null _ _ (proj1 ZA) Z) as (F & X & Y). destruct ZA as (_ & X' & Y'). split; [exact F|]. split; congruence. }
    apply null_plus; assumption.
Qed.
Print Assumptions C161_quadratic_ends_partial.
Theorem C161_quadratic_overflow_refuted : exists a b c, numbers a /\ numbers b /\ numbers c /\
  is_nan (d_x (d_quadratic a b c zero)) = true.
Proof.
  exists (D one one), (D (fmul (of_int (2 ^ 1023)) one) one), (D two two). unfold numbers, number. repeat split; vm_compute; reflexivity.
Qed.
Print Assumptions C161_quadratic_overflow_refuted.

(** A cubic curve starts at its first point, unless a coefficient overflows. *)
Theorem C161_cubic_start_partial : forall a b c d, numbers a -> numbers (d_cubic1 a b c d) -> numbers (d_cubic2 a b c d) ->
  numbers (d_cubic3 a b c d) -> same_point (d_cubic a b c d zero) a.
Proof.
  intros a b c d A C1 C2 C3. unfold d_cubic. rewrite square_zero, cube_zero.
  assert (T : forall x y z, same_point x y -> same_point y z -> same_point x z).
  { intros x y z (F & X & Y) (_ & X' & Y'). split; [exact F|]. split; congruence. }
  pose proof (plus_null _ _ A (scaled_zero _ C1)) as P1.
  pose proof (plus_null _ _ (proj1 P1) (scaled_zero _ C2)) as P2.
  pose proof (plus_null _ _ (proj1 P2) (scaled_zero _ C3)) as P3. eauto.
Qed.
Print Assumptions C161_cubic_start_partial.
(** But its last point may be missed: with the abscissae 0.1 0.1 0.3 0.7 the curve ends after 0.7. *)
Theorem C161_cubic_end_refuted : exists a b c d, numbers a /\ numbers b /\ numbers c /\ numbers d /\
  numbers (d_cubic a b c d one) /\ d_eq (d_cubic a b c d one) d = false.
Proof.
  exists (D (tenths 1) zero), (D (tenths 1) zero), (D (tenths 3) zero), (D (tenths 7) zero). unfold numbers, number.
  repeat split; vm_compute; reflexivity.
Qed.
Print Assumptions C161_cubic_end_refuted.
(** A line through two points passes at the first one, not always at the second: from 0.4 to 0.1. *)
Theorem C161_line_start_partial : forall a b, numbers a -> numbers (d_sub b a) -> same_point (d_line_point a b zero) a.
Proof. intros a b A V. unfold d_line_point. apply plus_null; [exact A|apply scaled_zero, V]. Qed.
Print Assumptions C161_line_start_partial.
Theorem C161_line_end_refuted : exists a b, numbers a /\ numbers b /\ numbers (d_sub b a) /\ d_eq (d_line_point a b one) b = false.
Proof.
  exists (D (tenths 4) zero), (D (tenths 1) zero). unfold numbers, number. repeat split; vm_compute; reflexivity.
Qed.
Print Assumptions C161_line_end_refuted.
(** A segment of null length does not stay at its point: 0.1 at the parameter 0.2. *)
Theorem C161_null_segment_refuted : exists a t, numbers a /\ number t /\ d_eq (d_interpolate a a t) a = false.
Proof.
  exists (D (tenths 1) zero), (tenths 2). unfold numbers, number. repeat split; vm_compute; reflexivity.
Qed.
Print Assumptions C161_null_segment_refuted.

Example C161_case : numbers (D (tenths 1) (tenths 3)) /\ numbers (d_scale (D (tenths 1) (tenths 3)) two) /\
  d_eq (d_quadratic (D (tenths 1) (tenths 3)) (D (tenths 5) one) (D (tenths 9) (tenths 7)) one) (D (tenths 9) (tenths 7)) = true.
Proof. unfold numbers, number. repeat split; vm_compute; reflexivity. Qed.
Example C161_cubic_case : let a := D (tenths 1) (tenths 3) in let b := D one zero in let c := D two three in
  numbers (d_cubic1 a b c a) /\ numbers (d_cubic2 a b c a) /\ numbers (d_cubic3 a b c a).
Proof. unfold numbers, number. repeat split; vm_compute; reflexivity. Qed.

(** ** C162 *)
Lemma half_val : B2R half = / 2 /\ number half.
Proof. unfold number. split; [|vm_compute; reflexivity]. unfold half, fdiv, B2R. vm_compute. lra. Qed.

Lemma nearest_mono x y : x <= y -> nearest x <= nearest y.
Proof. apply round_le; auto with typeclass_instances. Qed.
Lemma nearest_number (x : float) : nearest (B2R x) = B2R x.
Proof. exact (rnd_val x). Qed.
Lemma nearest_double (x : float) : nearest (2 * B2R x) = 2 * B2R x.
Proof.
  apply round_generic; [auto with typeclass_instances|]. rewrite Rmult_comm.
  change 2 with (bpow radix2 1). apply mult_bpow_pos_exact_FLT; [apply generic_format_B2R|lia].
Qed.

(** The middle of a coordinate, when the sum does not overflow. *)
Lemma middle_number x y : number x -> number y -> number (dbl_add x y) ->
  number (fmul half (dbl_add x y)) /\
  Rmin (B2R x) (B2R y) <= B2R (fmul half (dbl_add x y)) <= Rmax (B2R x) (B2R y) /\
  B2R (fmul half (dbl_add x y)) = nearest (nearest (B2R x + B2R y) / 2).
Proof.
  intros X Y S. pose proof (add_finite x y X Y S) as V. set (s := dbl_add x y) in *. unfold val in V.
  change (rnd (B2R x + B2R y)) with (nearest (B2R x + B2R y)) in V.
  assert (B : Rmin (B2R x) (B2R y) <= nearest (B2R s / 2) <= Rmax (B2R x) (B2R y)).
  { assert (G : forall u v w : float, B2R u <= B2R v -> B2R w = nearest (B2R u + B2R v) ->
      B2R u <= nearest (B2R w / 2) <= B2R v).
    { intros u v w L E. assert (2 * B2R u <= B2R w <= 2 * B2R v).
      { rewrite E, <- (nearest_double u), <- (nearest_double v). split; apply nearest_mono; lra. }
      split; [rewrite <- (nearest_number u) at 1|rewrite <- (nearest_number v)]; apply nearest_mono; lra. }
    destruct (Rle_or_lt (B2R x) (B2R y)) as [L|L].
    - rewrite Rmin_left, Rmax_right by exact L. apply G; assumption.
    - rewrite Rmin_right, Rmax_left by lra. apply G; [lra|]. rewrite Rplus_comm. exact V. }
  destruct half_val as [HV HF]. pose proof (@Bmult_correct 53 1024 prec_ok emax_ok mode_NE half s) as C.
  rewrite HV in C. replace (/ 2 * B2R s) with (B2R s / 2) in C by field.
  change (round radix2 fexp (round_mode mode_NE) (B2R s / 2)) with (nearest (B2R s / 2)) in C.
  rewrite Rlt_bool_true in C.
  - destruct C as (C1 & C2 & _). unfold fmul, number in *. rewrite C1, C2, HF, S. rewrite <- V. repeat split; apply B.
  - pose proof (val_small x) as VX. pose proof (val_small y) as VY. unfold val in VX, VY.
    apply Rabs_def1; apply Rabs_def2 in VX, VY.
    + apply Rle_lt_trans with (Rmax (B2R x) (B2R y)); [apply B|]. apply Rmax_lub_lt; lra.
    + apply Rlt_le_trans with (Rmin (B2R x) (B2R y)); [|apply B]. apply Rmin_glb_lt; lra.
Qed.

(** The middle of two points is the same from both sides. *)
Theorem C162_exchanged : forall a b, d_middle a b = d_middle b a /\ d_center a b = d_center b a.
Proof. intros a b. unfold d_middle, d_center. rewrite (C160_add_commutes a b). split; reflexivity. Qed.
Print Assumptions C162_exchanged.

(** It lies between the points, with the coordinates rounded from the exact ones, unless the sum overflows. *)
Theorem C162_between_partial : forall a b, numbers a -> numbers b -> numbers (d_add a b) ->
  numbers (d_middle a b) /\
  Rmin (B2R (d_x a)) (B2R (d_x b)) <= B2R (d_x (d_middle a b)) <= Rmax (B2R (d_x a)) (B2R (d_x b)) /\
  Rmin (B2R (d_y a)) (B2R (d_y b)) <= B2R (d_y (d_middle a b)) <= Rmax (B2R (d_y a)) (B2R (d_y b)).
Proof.
  intros a b [A1 A2] [B1 B2] [S1 S2].
  destruct (middle_number _ _ A1 B1 S1) as (N1 & M1 & _), (middle_number _ _ A2 B2 S2) as (N2 & M2 & _).
  split; [split; assumption|]. split; assumption.
Qed.
Print Assumptions C162_between_partial.

(** The middle of a point and itself is the point. *)
Theorem C162_same_partial : forall a, numbers a -> numbers (d_add a a) -> same_point (d_middle a a) a.
Proof.
  intros a A S. destruct (C162_between_partial a a A A S) as (N & X & Y).
  rewrite Rmin_left, Rmax_left in X, Y by lra. split; [exact N|]. split; lra.
Qed.
Print Assumptions C162_same_partial.

(** The two ways to compute it, the product by .5 and the quotient by 2, agree. *)
Theorem C162_center : forall a b, numbers a -> numbers b -> numbers (d_add a b) -> same_point (d_center a b) (d_middle a b).
Proof.
  assert (T : B2R two = 2 /\ number two /\ Bsign two = false) by (unfold number; vm_compute; repeat split; lra).
  destruct T as (TV & TF & _).
  assert (G : forall x y, number x -> number y -> number (dbl_add x y) ->
    number (fdiv (dbl_add x y) two) /\ B2R (fdiv (dbl_add x y) two) = B2R (fmul half (dbl_add x y))).
  { intros x y X Y S. destruct (middle_number x y X Y S) as (N & _ & E). pose proof (add_finite x y X Y S) as V. unfold val in V.
    change (rnd (B2R x + B2R y)) with (nearest (B2R x + B2R y)) in V. rewrite <- V in E. set (s := dbl_add x y) in *.
    pose proof (@Bdiv_correct 53 1024 prec_ok emax_ok mode_NE s two) as C. rewrite TV in C. specialize (C ltac:(lra)).
    change (round radix2 fexp (round_mode mode_NE) (B2R s / 2)) with (nearest (B2R s / 2)) in C. rewrite <- E in C.
    rewrite Rlt_bool_true in C by (apply abs_B2R_lt_emax). destruct C as (C1 & C2 & _). unfold fdiv, number in *.
    rewrite C2. split; [exact S|exact C1]. }
  intros a b [A1 A2] [B1 B2] [S1 S2]. destruct (G _ _ A1 B1 S1), (G _ _ A2 B2 S2). split; [split; assumption|]. split; assumption.
Qed.
Print Assumptions C162_center.

(** Far points have no middle: the sum overflows although the middle is a point. *)
Theorem C162_overflow_refuted : exists a, numbers a /\ is_finite (d_x (d_middle a a)) = false.
Proof. exists (D (fmul (of_int (2 ^ 1023)) one) zero). unfold numbers, number. repeat split; vm_compute; reflexivity. Qed.
Print Assumptions C162_overflow_refuted.

Example C162_case : numbers (d_add (D (tenths 1) (tenths 7)) (D (tenths 2) one)) /\
  d_eq (d_middle (D one zero) (D two three)) (D (fdiv three two) (fdiv three two)) = true.
Proof. unfold numbers, number. repeat split; vm_compute; reflexivity. Qed.


(** ** C163 *)

(** A sum depends on the values only. *)
Lemma add_values x x' m : number x -> number x' -> number m -> B2R x = B2R x' -> number (dbl_add x m) ->
  number (dbl_add x' m) /\ B2R (dbl_add x' m) = B2R (dbl_add x m).
Proof.
  intros X X' M E S. pose proof (@Bplus_correct 53 1024 prec_ok emax_ok mode_NE x m X M) as A.
  pose proof (@Bplus_correct 53 1024 prec_ok emax_ok mode_NE x' m X' M) as B. rewrite <- E in B.
  destruct (Rlt_bool _ _).
  - destruct A as (A1 & A2 & _), B as (B1 & B2 & _). split; [exact B2|]. exact (eq_trans B1 (eq_sym A1)).
  - destruct A as [A _]. rewrite overflow_inf in A. apply finite_sf in A. unfold number, dbl_add in S. congruence.
Qed.
Lemma row_first x y m : number x -> number y -> number m -> number (dbl_add x m) ->
  number (d_row one zero m (D x y)) /\ B2R (d_row one zero m (D x y)) = B2R (dbl_add x m).
Proof.
  intros X Y M S. unfold d_row. cbn [d_x d_y]. rewrite (mul_comm m), !mul_one by assumption.
  destruct (mul_zero _ Y) as [Z1 Z2]. destruct (add_zero_r _ _ X Z2 Z1) as [A1 A2]. apply add_values; auto.
Qed.
Lemma row_second x y m : number x -> number y -> number m -> number (dbl_add y m) ->
  number (d_row zero one m (D x y)) /\ B2R (d_row zero one m (D x y)) = B2R (dbl_add y m).
Proof.
  intros X Y M S. unfold d_row. cbn [d_x d_y]. rewrite (mul_comm m), !mul_one by assumption.
  destruct (mul_zero _ X) as [Z1 Z2]. destruct (add_zero_l _ _ Y Z2 Z1) as [A1 A2]. apply add_values; auto.
Qed.

(** To translate is to add, to the last bit: the matrix product brings no rounding of its own. *)
Theorem C163_translation : forall p v, numbers p -> numbers v -> numbers (d_add p v) ->
  same_point (d_apply (d_translation v) p) (d_add p v).
Proof.
  intros [x y] [a b] [X Y] [A B] [S1 S2]. unfold d_apply, d_translation. cbn [dm00 dm01 dm02 dm10 dm11 dm12 d_x d_y] in *.
  destruct (row_first x y a X Y A S1), (row_second x y b X Y B S2). repeat split; assumption.
Qed.
Print Assumptions C163_translation.

Theorem C163_identity : forall p, numbers p -> same_point (d_apply d_identity p) p.
Proof.
  intros [x y] [X Y]. unfold d_apply, d_identity. cbn [dm00 dm01 dm02 dm10 dm11 dm12 d_x d_y] in *.
  assert (Z : number zero) by reflexivity.
  destruct (add_zero_r _ _ X Z eq_refl) as [V1 F1], (add_zero_r _ _ Y Z eq_refl) as [V2 F2].
  destruct (row_first x y zero X Y Z F1) as [N1 E1], (row_second x y zero X Y Z F2) as [N2 E2]. unfold val in V1, V2.
  split; [split; assumption|]. cbn [d_x d_y]. split; congruence.
Qed.
Print Assumptions C163_identity.

(** To scale is to multiply each coordinate. *)
Theorem C163_scaling : forall p a b, numbers p -> number (fmul a (d_x p)) -> number (fmul b (d_y p)) ->
  same_point (d_apply (d_scaling a b) p) (D (fmul a (d_x p)) (fmul b (d_y p))).
Proof.
  intros [x y] a b [X Y] A B. unfold d_apply, d_scaling, d_row. cbn [dm00 dm01 dm02 dm10 dm11 dm12 d_x d_y] in *.
  rewrite (mul_comm zero one). rewrite (mul_one zero) by reflexivity. assert (Z : number zero) by reflexivity.
  destruct (mul_zero _ X) as [X1 X2], (mul_zero _ Y) as [Y1 Y2].
  destruct (add_zero_r _ _ A Y2 Y1) as [P1 P2], (add_zero_l _ _ B X2 X1) as [Q1 Q2].
  destruct (add_zero_r _ _ P2 Z eq_refl) as [R1 R2], (add_zero_r _ _ Q2 Z eq_refl) as [S1 S2]. unfold val in *.
  split; [split; assumption|]. cbn [d_x d_y]. split; congruence.
Qed.
Print Assumptions C163_scaling.

(** On the screen the abscissa is kept and the ordinate is the difference to the height, rounded once. *)
Theorem C163_screen : forall p h, numbers p -> number h -> number (dbl_sub h (d_y p)) ->
  is_at (d_apply (d_screen h) p) (B2R (d_x p)) (nearest (B2R h - B2R (d_y p))).
Proof.
  intros [x y] h [X Y] H S. unfold d_apply, d_screen. cbn [dm00 dm01 dm02 dm10 dm11 dm12 d_x d_y] in *.
  assert (Z : number zero) by reflexivity. destruct (add_zero_r _ _ X Z eq_refl) as [V1 F1].
  destruct (row_first x y zero X Y Z F1) as [N1 E1]. unfold val in V1.
  assert (M : number (fmul (dbl_neg one) y) /\ B2R (fmul (dbl_neg one) y) = - B2R y).
  { pose proof (@Bmult_correct 53 1024 prec_ok emax_ok mode_NE (dbl_neg one) y) as C. destruct one_val as (O1 & O2 & _).
    unfold val in O1. assert (O3 : B2R (dbl_neg one) = - 1) by (unfold dbl_neg; rewrite B2R_Bopp, O1; reflexivity).
    assert (O4 : is_finite (dbl_neg one) = true) by (unfold dbl_neg; rewrite is_finite_Bopp; exact O2).
    rewrite O3 in C. replace (- 1 * B2R y) with (- B2R y) in C by ring.
    assert (RN : round radix2 fexp (round_mode mode_NE) (- B2R y) = - B2R y).
    { rewrite <- B2R_Bopp. apply round_generic; [auto with typeclass_instances|apply generic_format_B2R]. }
    rewrite RN, Rabs_Ropp, Rlt_bool_true in C by apply abs_B2R_lt_emax. destruct C as (C1 & C2 & _).
    rewrite O4 in C2. unfold number in *. rewrite Y in C2. split; [exact C2|exact C1]. }
  destruct M as [M1 M2]. destruct (mul_zero _ X) as [X1 X2]. destruct (add_zero_l _ _ M1 X2 X1) as [P1 P2]. unfold val in P1.
  rewrite M2 in P1. assert (R : number (d_row zero (dbl_neg one) h (D x y)) /\
    B2R (d_row zero (dbl_neg one) h (D x y)) = nearest (B2R h - B2R y)).
  { unfold d_row. cbn [d_x d_y]. rewrite (mul_comm h), (mul_one h) by exact H.
    set (q := dbl_add (fmul zero x) (fmul (dbl_neg one) y)) in *.
    pose proof (@Bplus_correct 53 1024 prec_ok emax_ok mode_NE q h P2 H) as C.
    pose proof (@Bminus_correct 53 1024 prec_ok emax_ok mode_NE h y H Y) as D.
    rewrite P1 in C. replace (- B2R y + B2R h) with (B2R h - B2R y) in C by ring.
    destruct (Rlt_bool _ _).
    - destruct C as (C1 & C2 & _). split; [exact C2|exact C1].
    - destruct D as [D _]. rewrite overflow_inf in D. apply finite_sf in D. unfold number, dbl_sub in S. congruence. }
  destruct R as [R1 R2]. split; [split; assumption|]. cbn [d_x d_y]. split; [congruence|exact R2].
Qed.
Print Assumptions C163_screen.

(** A translation and the opposite one may not give back the point, nor the screen twice: 1 - (1 - 0.1). *)
Theorem C163_back_refuted : exists p v, numbers p /\ numbers v /\
  d_eq (d_apply (d_translation (d_neg v)) (d_apply (d_translation v) p)) p = false.
Proof.
  exists (D (tenths 1) zero), (D (tenths 2) zero). unfold numbers, number. repeat split; vm_compute; reflexivity.
Qed.
Print Assumptions C163_back_refuted.
Theorem C163_screen_twice_refuted : exists p h, numbers p /\ number h /\
  d_eq (d_apply (d_screen h) (d_apply (d_screen h) p)) p = false.
Proof.
  exists (D zero (tenths 1)), one. unfold numbers, number. repeat split; vm_compute; reflexivity.
Qed.
Print Assumptions C163_screen_twice_refuted.

Example C163_case : numbers (d_add (D (tenths 1) (tenths 7)) (D (tenths 2) one)) /\
  number (fmul three (tenths 7)) /\ number (dbl_sub one (tenths 7)) /\
  d_eq (d_apply (d_screen (of_int 10)) (D one two)) (D one (of_int 8)) = true.
Proof. unfold numbers, number. repeat split; vm_compute; reflexivity. Qed.
