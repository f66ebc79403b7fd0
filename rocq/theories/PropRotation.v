(** C171: the accuracy of rotations and of vectors given by their angle in double precision. *)
From Coq Require Import Reals Lra Lia List Bool ZArith.
From Flocq Require Import Core Relative BinarySingleNaN.
From Verif Require Import Base ModelColor ModelDouble ModelDoubleRotation ProofDouble PropDouble ProofAccuracy PropAccuracy ProofCurveAccuracy PropCurveAccuracy ProofRotation.
Import ListNotations.
Local Open Scope R_scope.

(** ** What is expected *)
(** A function of the C library which is right up to two units of rounding. *)
Definition accurate_function (f : float -> float) (g : R -> R) : Prop := forall x, number x -> Rabs (B2R x) <= 8 ->
  number (f x) /\ Rabs (B2R (f x) - g (B2R x)) <= 2 / 2 ^ 53 * Rabs (g (B2R x)) + bpow radix2 (-1074).
Definition library (dcos dsin : float -> float) : Prop := accurate_function dcos cos /\ accurate_function dsin sin.
(** An angle in degrees, at most one turn in either sense. *)
Definition turn_angle (angle : float) : Prop := number angle /\ Rabs (B2R angle) <= 360.
Definition degrees_of (angle : float) : R := B2R angle * (PI / 180).
(** The image of (x, y) by the rotation of angle t around the origin. *)
Definition turned_x (t x y : R) : R := x * cos t - y * sin t.
Definition turned_y (t x y : R) : R := x * sin t + y * cos t.
Definition norm (x y : R) : R := sqrt (x ^ 2 + y ^ 2).

(** ** Lemmas *)
Lemma trig_within dcos dsin angle : library dcos dsin -> turn_angle angle ->
  let r := d_radians angle in
  within 1 (dcos r) (cos (degrees_of angle)) 15 1 /\ within 1 (dsin r) (sin (degrees_of angle)) 15 1 /\
  within 1 (dcos (dbl_neg r)) (cos (- degrees_of angle)) 15 1 /\ within 1 (dsin (dbl_neg r)) (sin (- degrees_of angle)) 15 1.
Proof.
  intros (LC & LS) (FA & BA) r. pose proof u_tiny as U. destruct pi_digits as (P1 & P2).
  assert (TT : bpow radix2 (-1074) <= / 100 * u). { apply Rle_trans with (bpow radix2 (-63)); [apply bpow_le; lia|]. unfold u. cbn. unfold Z.pow_pos. cbn. lra. }
  destruct (radians_near angle FA) as (FR & NR). { apply Rle_trans with (bpow radix2 10); [|apply bpow_le; lia]. unfold val. cbn. lra. }
  fold r in FR, NR. change (val angle * (PI / 180)) with (degrees_of angle) in NR.
  assert (BD : Rabs (degrees_of angle) <= 6.2832). { unfold degrees_of. rewrite Rabs_mult, (Rabs_pos_eq (PI / 180)) by lra. pose proof (Rabs_pos (B2R angle)). nra. }
  assert (NR2 : Rabs (val r - degrees_of angle) <= 12.6 * u) by nra.
  assert (BR : Rabs (val r) <= 8). { replace (val r) with (val r - degrees_of angle + degrees_of angle) by ring. apply Rle_trans with (1 := Rabs_triang _ _). lra. }
  assert (G : forall f g x t, accurate_function f g -> (forall a b, Rabs (g a - g b) <= Rabs (a - b)) -> (forall a, Rabs (g a) <= 1) -> number x -> Rabs (val x) <= 8 -> Rabs (val x - t) <= 12.6 * u ->
    within 1 (f x) (g t) 15 1).
  { intros f g x t A LIP G1 FX BX NX. destruct (A x FX BX) as (F & H). split; [exact F|]. split; [|rewrite Rmult_1_r; apply G1]. rewrite Rmult_1_r.
    replace (val (f x) - g t) with (B2R (f x) - g (B2R x) + (g (B2R x) - g t)) by (unfold val; ring). apply Rle_trans with (1 := Rabs_triang _ _).
    specialize (LIP (B2R x) t). unfold val in NX. specialize (G1 (B2R x)). replace (2 / 2 ^ 53) with (2 * u) in H by (unfold u; field). pose proof (Rabs_pos (g (B2R x))). nra. }
  assert (C1 : forall a, Rabs (cos a) <= 1) by (intros a; apply Rabs_le; pose proof (COS_bound a); lra).
  assert (S1 : forall a, Rabs (sin a) <= 1) by (intros a; apply Rabs_le; pose proof (SIN_bound a); lra).
  assert (FN : number (dbl_neg r)). { unfold number, dbl_neg. rewrite is_finite_Bopp. exact FR. }
  assert (VN : val (dbl_neg r) = - val r) by (unfold val, dbl_neg; apply B2R_Bopp).
  assert (BN : Rabs (val (dbl_neg r)) <= 8) by (rewrite VN, Rabs_Ropp; exact BR).
  assert (NN : Rabs (val (dbl_neg r) - - degrees_of angle) <= 12.6 * u). { rewrite VN. replace (- val r - - degrees_of angle) with (- (val r - degrees_of angle)) by ring. rewrite Rabs_Ropp. exact NR2. }
  split; [|split; [|split]]; apply G; auto using cos_near, sin_near.
Qed.
(** One coordinate of an image. *)
Lemma rotate_within s a p x y r t b q : size s -> within 1 a p 15 1 -> within 1 b q 15 1 -> within s x r 0 1 -> within s y t 0 1 ->
  within s (dbl_sub (fmul a x) (fmul b y)) (p * r - q * t) 34.2 2 /\ within s (dbl_add (fmul b x) (fmul a y)) (q * r + p * t) 34.2 2.
Proof.
  intros SS A B X Y. pose proof (scale_pos s SS) as P.
  assert (M : forall a p x r, within 1 a p 15 1 -> within s x r 0 1 -> within s (fmul a x) (p * r) 16.02 1).
  { clear - SS P. intros a p x r A X. assert (L : Rabs (p * r) <= 1 * s). { destruct A as (_ & _ & A), X as (_ & _ & X). rewrite Rabs_mult. apply Rmult_le_compat; try apply Rabs_pos; lra. }
    pose proof (mul_within s a p 15 1 x r 0 1 1 SS ltac:(lra) ltac:(lra) ltac:(lra) ltac:(lra) ltac:(lra) ltac:(lra) A X L) as W. apply (within_le _ _ _ _ _ 16.02 1 SS) in W; try lra. exact W. }
  pose proof (M _ _ _ _ A X) as M1. pose proof (M _ _ _ _ B Y) as M2. pose proof (M _ _ _ _ B X) as M3. pose proof (M _ _ _ _ A Y) as M4.
  pose proof M1 as (_ & _ & L1). pose proof M2 as (_ & _ & L2). pose proof M3 as (_ & _ & L3). pose proof M4 as (_ & _ & L4). split.
  - assert (L : Rabs (p * r - q * t) <= 2 * s). { unfold Rminus. apply Rle_trans with (1 := Rabs_triang _ _). rewrite Rabs_Ropp. lra. }
    pose proof (sub_within s _ _ 16.02 1 _ _ 16.02 1 2 SS ltac:(lra) ltac:(lra) ltac:(lra) M1 M2 L) as W. apply (within_le _ _ _ _ _ 34.2 2 SS) in W; try lra. exact W.
  - assert (L : Rabs (q * r + p * t) <= 2 * s). { apply Rle_trans with (1 := Rabs_triang _ _). lra. }
    pose proof (add_within s _ _ 16.02 1 _ _ 16.02 1 2 SS ltac:(lra) ltac:(lra) ltac:(lra) M3 M4 L) as W. apply (within_le _ _ _ _ _ 34.2 2 SS) in W; try lra. exact W.
Qed.
Lemma within_near k s x y p q e b : within s x p e b -> within s y q e b -> e <= k -> size s -> near_point k s (D x y) p q.
Proof.
  intros (FX & AX & _) (FY & AY & _) K SS. pose proof (scale_pos s SS) as P. pose proof u_tiny as U. unfold near_point. replace (k / 2 ^ 53) with (k * u) by (unfold u; field). cbn [d_x d_y].
  assert (e * u * s <= k * u * s) by (assert (0 < u * s) by nra; nra). split; [split; assumption|]. unfold val in AX, AY. split; lra.
Qed.

(** ** The theorems *)
(** The radians of an angle of any size. *)
Theorem C171_radians : forall angle, number angle -> Rabs (B2R angle) <= bpow radix2 900 ->
  number (d_radians angle) /\ Rabs (B2R (d_radians angle) - degrees_of angle) <= 2 / 2 ^ 53 * Rabs (degrees_of angle) + bpow radix2 (-1074).
Proof.
  intros angle F B. destruct (radians_near angle F B) as (FR & N). split; [exact FR|]. replace (2 / 2 ^ 53) with (2 * u) by (unfold u; field).
  pose proof (bpow_gt_0 radix2 (-1074)). unfold val in N. unfold degrees_of. lra.
Qed.
Print Assumptions C171_radians.

(** The image of a vector is at its place, in both senses. *)
Theorem C171_rotate : forall dcos dsin s v angle, library dcos dsin -> size s -> in_drawing s v -> turn_angle angle ->
  near_point 35 s (d_rotate dcos dsin v angle true) (turned_x (degrees_of angle) (X v) (Y v)) (turned_y (degrees_of angle) (X v) (Y v)) /\
  near_point 35 s (d_rotate dcos dsin v angle false) (turned_x (- degrees_of angle) (X v) (Y v)) (turned_y (- degrees_of angle) (X v) (Y v)).
Proof.
  intros dcos dsin s v angle L SS DV TA. destruct (trig_within dcos dsin angle L TA) as (W1 & W2 & W3 & W4). destruct (point_within s v DV) as (VX & VY). unfold turned_x, turned_y. split.
  - destruct (rotate_within s _ _ _ _ _ _ _ _ SS W1 W2 VX VY) as (R1 & R2).
    rewrite (Rmult_comm (X v) (cos _)), (Rmult_comm (Y v) (sin _)), (Rmult_comm (X v) (sin _)), (Rmult_comm (Y v) (cos _)). apply (within_near _ _ _ _ _ _ _ _ R1 R2); [lra|exact SS].
  - destruct (rotate_within s _ _ _ _ _ _ _ _ SS W3 W4 VX VY) as (R1 & R2).
    rewrite (Rmult_comm (X v) (cos _)), (Rmult_comm (Y v) (sin _)), (Rmult_comm (X v) (sin _)), (Rmult_comm (Y v) (cos _)). apply (within_near _ _ _ _ _ _ _ _ R1 R2); [lra|exact SS].
Qed.
Print Assumptions C171_rotate.

(** The length of a vector is kept. *)
Lemma norm_near x y p q d : Rabs (x - p) <= d -> Rabs (y - q) <= d -> Rabs (norm x y - norm p q) <= 3 / 2 * d.
Proof.
  intros A B. assert (D0 : 0 <= d) by (pose proof (Rabs_pos (x - p)); lra). apply Rabs_le_inv in A, B.
  assert (T : forall x y p q, Rabs (x - p) <= d -> Rabs (y - q) <= d -> norm x y <= norm p q + 3 / 2 * d).
  { clear - D0. intros x y p q A B. apply Rabs_le_inv in A, B. unfold norm. set (n := sqrt (p ^ 2 + q ^ 2)). assert (N0 : 0 <= n) by apply sqrt_pos.
    assert (N2 : n * n = p ^ 2 + q ^ 2) by (apply sqrt_sqrt; nra).
    rewrite <- (sqrt_Rsqr (n + 3 / 2 * d)) by nra. apply sqrt_le_1_alt. unfold Rsqr.
    set (a := x - p) in *. set (b := y - q) in *. replace x with (p + a) by (unfold a; ring). replace y with (q + b) by (unfold b; ring).
    assert (AB : a * a + b * b <= 2 * (d * d)) by nra.
    assert (CS : p * a + q * b <= n * (3 / 2 * d)).
    { apply Rle_trans with (Rabs (p * a + q * b)); [apply Rle_abs|]. apply Rsqr_incr_0_var; [|nra]. rewrite <- Rsqr_abs. unfold Rsqr.
      assert (Q : (p * a + q * b) * (p * a + q * b) <= (p ^ 2 + q ^ 2) * (a * a + b * b)) by (pose proof (Rle_0_sqr (p * b - q * a)) as H; unfold Rsqr in H; nra).
      rewrite <- N2 in Q. apply Rle_trans with (1 := Q). assert (0 <= n * n) by nra. nra. }
    replace ((p + a) ^ 2 + (q + b) ^ 2) with (p ^ 2 + q ^ 2 + 2 * (p * a + q * b) + (a * a + b * b)) by ring. rewrite <- N2. nra. }
  apply Rabs_le. pose proof (T x y p q ltac:(apply Rabs_le; lra) ltac:(apply Rabs_le; lra)). pose proof (T p q x y ltac:(apply Rabs_le; lra) ltac:(apply Rabs_le; lra)). lra.
Qed.
Theorem C171_length : forall dcos dsin s v angle sense, library dcos dsin -> size s -> in_drawing s v -> turn_angle angle ->
  let w := d_rotate dcos dsin v angle sense in Rabs (norm (X w) (Y w) - norm (X v) (Y v)) <= 53 / 2 ^ 53 * s.
Proof.
  intros dcos dsin s v angle sense L SS DV TA w. pose proof (scale_pos s SS) as P. destruct (C171_rotate dcos dsin s v angle L SS DV TA) as (R1 & R2).
  assert (K : forall t, norm (turned_x t (X v) (Y v)) (turned_y t (X v) (Y v)) = norm (X v) (Y v)).
  { intros t. unfold norm, turned_x, turned_y. f_equal. pose proof (sin2_cos2 t) as E. unfold Rsqr in E.
    replace ((X v * cos t - Y v * sin t) ^ 2 + (X v * sin t + Y v * cos t) ^ 2) with ((X v ^ 2 + Y v ^ 2) * (sin t * sin t + cos t * cos t)) by ring. rewrite E. ring. }
  destruct sense.
  - destruct R1 as (_ & A & B). fold w in A, B. rewrite <- (K (degrees_of angle)). pose proof (norm_near _ _ _ _ _ A B). lra.
  - destruct R2 as (_ & A & B). fold w in A, B. rewrite <- (K (- degrees_of angle)). pose proof (norm_near _ _ _ _ _ A B). lra.
Qed.
Print Assumptions C171_length.

(** The matrix of Rotation moves a vector to the same place. *)
Lemma mul_one x : finite x -> val (fmul zero x) = 0 /\ finite (fmul zero x).
Proof. intros F. destruct x; try discriminate F; split; reflexivity. Qed.
Theorem C171_matrix : forall dcos dsin s v angle, library dcos dsin -> size s -> in_drawing s v -> turn_angle angle ->
  near_point 38 s (d_apply (d_rotation dcos dsin angle) v) (turned_x (degrees_of angle) (X v) (Y v)) (turned_y (degrees_of angle) (X v) (Y v)).
Proof.
  intros dcos dsin s v angle L SS DV TA. destruct (trig_within dcos dsin angle L TA) as (W1 & W2 & _). destruct (point_within s v DV) as (VX & VY).
  set (r := d_radians angle) in *. pose proof (scale_pos s SS) as P. set (t := degrees_of angle) in *. destruct one_val as (VO & FO & _).
  assert (WN : within 1 (dbl_neg (dsin r)) (- sin t) 15 1).
  { destruct W2 as (F & A & B). split; [unfold finite, dbl_neg; rewrite is_finite_Bopp; exact F|]. assert (E : val (dbl_neg (dsin r)) = - val (dsin r)) by (unfold val, dbl_neg; apply B2R_Bopp). rewrite E.
    replace (- val (dsin r) - - sin t) with (- (val (dsin r) - sin t)) by ring. rewrite !Rabs_Ropp. split; assumption. }
  assert (Z : within s (fmul zero one) 0 0 0). { destruct (mul_one one FO) as (V & F). split; [exact F|]. rewrite V, Rminus_0_r, Rabs_R0. lra. }
  assert (ADD : forall x p, within s x p 34.2 2 -> within s (dbl_add x (fmul zero one)) p 37 2).
  { intros x p W. pose proof W as (_ & _ & B). pose proof (add_within s x p 34.2 2 _ 0 0 0 2 SS ltac:(lra) ltac:(lra) ltac:(lra) W Z) as H. rewrite Rplus_0_r in H. specialize (H B).
    apply (within_le _ _ _ _ _ 37 2 SS) in H; try lra. exact H. }
  destruct (rotate_within s _ _ _ _ _ _ _ _ SS WN W1 VX VY) as (_ & A1). destruct (rotate_within s _ _ _ _ _ _ _ _ SS W1 W2 VX VY) as (_ & A2).
  apply ADD in A1, A2. unfold d_apply, d_rotation, d_row. cbn [dm00 dm01 dm02 dm10 dm11 dm12]. fold r.
  unfold turned_x, turned_y. replace (X v * cos t - Y v * sin t) with (cos t * X v + - sin t * Y v) by ring. replace (X v * sin t + Y v * cos t) with (sin t * X v + cos t * Y v) by ring.
  apply (within_near _ _ _ _ _ _ _ _ A1 A2); [lra|exact SS].
Qed.
Print Assumptions C171_matrix.

(** Vectors given by an angle, by an angle and a radius, and by an angle and two radii. *)
Definition radius_of (s : R) (r : float) : Prop := number r /\ Rabs (B2R r) <= s.
Theorem C171_from_angle : forall dcos dsin s rx ry angle, library dcos dsin -> size s -> radius_of s rx -> radius_of s ry -> turn_angle angle ->
  near_point 15 1 (d_from_angle dcos dsin angle) (cos (degrees_of angle)) (sin (degrees_of angle)) /\
  near_point 17 s (d_from_polar dcos dsin rx angle) (B2R rx * cos (degrees_of angle)) (B2R rx * sin (degrees_of angle)) /\
  near_point 17 s (d_from_ellipse dcos dsin rx ry angle) (B2R rx * cos (degrees_of angle)) (B2R ry * sin (degrees_of angle)).
Proof.
  intros dcos dsin s rx ry angle L SS (FX & BX) (FY & BY) TA. destruct (trig_within dcos dsin angle L TA) as (W1 & W2 & _). pose proof (scale_pos s SS) as P.
  set (t := degrees_of angle) in *.
  assert (M : forall x a p, number x -> Rabs (B2R x) <= s -> within 1 a p 15 1 -> within s (fmul x a) (B2R x * p) 16.1 1).
  { clear - SS P. intros x a p FX BX A. pose proof (within_self s x FX BX) as WX.
    destruct A as (FA & AA & BA). assert (LL : Rabs (B2R x * p) <= 1 * s). { rewrite Rabs_mult, (Rmult_comm 1 s). apply Rmult_le_compat; try apply Rabs_pos; lra. }
    destruct (round_within s (val x * val a) (B2R x * p) 15 1 SS ltac:(lra) ltac:(lra)) as (L1 & H1); [|exact LL|].
    { unfold val at 1. replace (B2R x * val a - B2R x * p) with (B2R x * (val a - p)) by ring. rewrite Rabs_mult, (Rmult_comm (15 * u) s). rewrite Rmult_1_r in AA. apply Rmult_le_compat; auto using Rabs_pos. }
    pose proof (@Bmult_correct 53 1024 prec_ok emax_ok mode_NE x a) as C.
    change (round radix2 fexp (round_mode mode_NE) (B2R x * B2R a)) with (rnd (val x * val a)) in C. rewrite Rlt_bool_true in C by exact L1. destruct C as (C1 & C2 & _).
    split; [unfold finite, fmul; rewrite C2; unfold number, finite in FX, FA; rewrite FX, FA; reflexivity|]. split; [|exact LL]. unfold val, fmul in *. rewrite C1.
    apply Rle_trans with (1 := H1). pose proof u_tiny. assert (0 < u * s) by nra. nra. }
  split; [apply (within_near _ _ _ _ _ _ _ _ W1 W2); [lra|exact scale_one]|]. split.
  - apply (within_near _ _ _ _ _ _ _ _ (M _ _ _ FX BX W1) (M _ _ _ FX BX W2)); [lra|exact SS].
  - apply (within_near _ _ _ _ _ _ _ _ (M _ _ _ FX BX W1) (M _ _ _ FY BY W2)); [lra|exact SS].
Qed.
Print Assumptions C171_from_angle.

(** ** What is lost *)
(** A quarter of a turn is not exact, whatever the functions of the library: the image of (1, 0) is
    not on the axis. *)
Theorem C171_quarter_refuted : forall dcos dsin, library dcos dsin ->
  let w := d_rotate dcos dsin (D one zero) (of_int 90) true in numbers w /\ X w <> 0 /\ degrees_of (of_int 90) = PI / 2.
Proof.
  intros dcos dsin L w. destruct ninety_value as (F90 & V90). change (val (of_int 90)) with (B2R (of_int 90)) in V90. destruct one_val as (VO & FO & _).
  assert (TA : turn_angle (of_int 90)). { split; [exact F90|]. rewrite V90, Rabs_pos_eq; lra. }
  assert (DV : in_drawing 1 (D one zero)). { split; [split; [exact FO|reflexivity]|]. cbn [d_x d_y]. change (B2R one) with (val one). rewrite VO. change (B2R zero) with 0. rewrite Rabs_R0, Rabs_R1. lra. }
  destruct (C171_rotate dcos dsin 1 _ _ L scale_one DV TA) as ((NW & _) & _). fold w in NW. split; [exact NW|]. split; [|unfold degrees_of; rewrite V90; field].
  destruct quarter_value as (FQ & VQ). pose proof quarter_cos as QC. pose proof u_tiny as U. destruct L as (LC & LS).
  assert (BQ : Rabs (B2R (d_radians (of_int 90))) <= 8) by (change (B2R (d_radians (of_int 90))) with (val (d_radians (of_int 90))); rewrite VQ, Rabs_pos_eq; lra).
  destruct (LC _ FQ BQ) as (FC & HC). destruct (LS _ FQ BQ) as (FS & _).
  destruct NW as (NX & _). unfold w, d_rotate in *. cbn [d_x d_y] in *. set (r := d_radians (of_int 90)) in *.
  assert (SZ : val (fmul (dsin r) zero) = 0 /\ finite (fmul (dsin r) zero)). { clear - FS. destruct (dsin r); try discriminate FS; split; reflexivity. }
  destruct SZ as (SZ1 & SZ2).
  assert (CX : val (fmul (dcos r) one) = val (dcos r) /\ finite (fmul (dcos r) one)).
  { assert (LL : Rabs (rnd (val (dcos r) * val one)) < bpow radix2 1024) by (rewrite VO, Rmult_1_r, rnd_val; apply val_small).
    pose proof (@Bmult_correct 53 1024 prec_ok emax_ok mode_NE (dcos r) one) as C.
    change (round radix2 fexp (round_mode mode_NE) (B2R (dcos r) * B2R one)) with (rnd (val (dcos r) * val one)) in C. rewrite Rlt_bool_true in C by exact LL. destruct C as (C1 & C2 & _).
    split; [unfold val at 1, fmul; rewrite C1, VO, Rmult_1_r; apply rnd_val|]. unfold finite, fmul. rewrite C2. unfold number in FC. unfold finite in FO. rewrite FC, FO. reflexivity. }
  destruct CX as (CX1 & CX2). change (val (dbl_sub (fmul (dcos r) one) (fmul (dsin r) zero)) <> 0). rewrite (sub_finite _ _ CX2 SZ2 NX), CX1, SZ1, Rminus_0_r, rnd_val.
  change (val r) with (B2R r) in QC. assert (T : bpow radix2 (-1074) <= / 2 ^ 63). { apply Rle_trans with (bpow radix2 (-63)); [apply bpow_le; lia|]. cbn. unfold Z.pow_pos. cbn. lra. }
  apply Rabs_le_inv in HC. rewrite Rabs_pos_eq in HC by lra. intros E. unfold val in E. rewrite E in HC. lra.
Qed.
Print Assumptions C171_quarter_refuted.

(** Functions which round the cosine and the sine meet the hypothesis. *)
Definition round_of (r : R) : float :=
  binary_normalize 53 1024 prec_ok emax_ok mode_NE (Ztrunc (scaled_mantissa radix2 fexp (rnd r))) (cexp radix2 fexp (rnd r)) false.
Lemma round_of_value r : Rabs r <= 1 -> number (round_of r) /\ B2R (round_of r) = rnd r.
Proof.
  intros B. pose proof (binary_normalize_correct 53 1024 prec_ok emax_ok mode_NE (Ztrunc (scaled_mantissa radix2 fexp (rnd r))) (cexp radix2 fexp (rnd r)) false) as C.
  assert (G : generic_format radix2 fexp (rnd r)) by (apply generic_format_round; auto with typeclass_instances).
  assert (E : F2R (Float radix2 (Ztrunc (scaled_mantissa radix2 fexp (rnd r))) (cexp radix2 fexp (rnd r))) = rnd r) by (symmetry; exact G).
  assert (L : Rabs (rnd r) < bpow radix2 1024) by (apply (round_small _ 0); [lia|exact B]).
  assert (RR : rnd (rnd r) = rnd r) by (apply round_generic; [auto with typeclass_instances|exact G]).
  rewrite E in C. cbv zeta in C. change (round radix2 fexp (round_mode mode_NE) (rnd r)) with (rnd (rnd r)) in C. rewrite RR in C. rewrite Rlt_bool_true in C by exact L.
  destruct C as (C1 & C2 & _). split; [exact C2|exact C1].
Qed.
Example C171_example : library (fun x => round_of (cos (B2R x))) (fun x => round_of (sin (B2R x))) /\ turn_angle (of_int 90) /\ size 1 /\ in_drawing 1 (D one zero).
Proof.
  assert (A : forall g, (forall x, Rabs (g x) <= 1) -> accurate_function (fun x => round_of (g (B2R x))) g).
  { intros g G x _ _. destruct (round_of_value (g (B2R x)) (G _)) as (F & V). split; [exact F|]. rewrite V. pose proof (rnd_error (g (B2R x))) as E. pose proof (bpow_gt_0 radix2 (-1074)).
    replace (2 / 2 ^ 53) with (2 * u) by (unfold u; field). pose proof u_tiny. pose proof (Rabs_pos (g (B2R x))). nra. }
  split; [split; apply A; intros x; apply Rabs_le; [pose proof (COS_bound x)|pose proof (SIN_bound x)]; lra|].
  destruct ninety_value as (F90 & V90). change (val (of_int 90)) with (B2R (of_int 90)) in V90. destruct one_val as (VO & FO & _).
  split; [split; [exact F90|rewrite V90, Rabs_pos_eq; lra]|]. split; [exact scale_one|]. split; [split; [exact FO|reflexivity]|]. cbn [d_x d_y]. change (B2R one) with (val one). rewrite VO.
  change (B2R zero) with 0. rewrite Rabs_R0, Rabs_R1. lra.
Qed.
