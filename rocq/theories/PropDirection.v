(** C172: the accuracy of unit vectors, cosines, sines, projections, distances to lines and angles in
    double precision. *)
From Coq Require Import Reals Lra Lia List Bool ZArith.
From Flocq Require Import Core Relative BinarySingleNaN.
From Verif Require Import Base ModelColor ModelDouble ModelDecide ModelDoubleRotation ModelDoubleDirection ProofDouble PropDouble ProofAccuracy PropAccuracy ProofCurveAccuracy PropCurveAccuracy ProofRotation PropRotation ProofDirection.
Import ListNotations.
Local Open Scope R_scope.

(** ** What is expected *)
Definition length_of (a : dvec) : R := norm (X a) (Y a).
Definition dot_of (a b : dvec) : R := X a * X b + Y a * Y b.
Definition cross_of (a b : dvec) : R := X a * Y b - Y a * X b.
(** The cosine, the sine and the angle from a direction to a vector. *)
Definition cosine (v direction : dvec) : R := dot_of direction v / (length_of direction * length_of v).
Definition sine (v direction : dvec) : R := cross_of direction v / (length_of direction * length_of v).
Definition angle_of (v direction : dvec) : R := acos (cosine v direction) * (180 / PI).
(** An arc cosine which is right to the last place of numbers as large as pi. *)
Definition accurate_acos (dacos : float -> float) : Prop := forall x, number x -> -1 <= B2R x <= 1 ->
  number (dacos x) /\ 0 <= B2R (dacos x) /\ Rabs (B2R (dacos x) - acos (B2R x)) <= 4 / 2 ^ 53.
(** A cross product which exceeds its error. *)
Definition clear_turn (v direction : dvec) : Prop :=
  3 / 2 ^ 53 * (Rabs (X direction * Y v) + Rabs (Y direction * X v)) < Rabs (cross_of direction v).

(** ** Lemmas *)
Lemma sign_of (y : float) : (0 < val y -> Bsign y = false) /\ (val y < 0 -> Bsign y = true).
Proof.
  destruct y as [s|s| |s m e H]; unfold val; cbn [B2R Bsign]; split; intros L; try lra; destruct s; try reflexivity; exfalso; cbn [cond_Zopp Z.opp] in L.
  - assert (F2R (Float radix2 (Zneg m) e) < 0) by (apply F2R_lt_0; cbn; lia). lra.
  - assert (0 < F2R (Float radix2 (Zpos m) e)) by (apply F2R_gt_0; cbn; lia). lra.
Qed.
Lemma length_pos a : not_null a -> 0 < length_of a /\ scale (length_of a).
Proof.
  intros NN. destruct (not_null_norm a NN) as (A & B). fold (length_of a) in A, B. pose proof (bpow_gt_0 radix2 (-500)). split; [lra|].
  split; [apply Rle_trans with (2 := A)|apply Rle_trans with (1 := B)]; apply bpow_le; lia.
Qed.
Lemma lengths_near fused a b : not_null a -> not_null b ->
  let mm := fmul (d_magnitude fused a) (d_magnitude fused b) in let r := length_of a * length_of b in
  finite mm /\ 0 < r /\ Rabs (val mm - r) <= 7.1 * u * r /\ Bsign mm = false.
Proof.
  intros NA NB mm r. destruct (magnitude_near fused a NA) as (FA & EA & BA & _), (magnitude_near fused b NB) as (FB & EB & BB & _).
  destruct (length_pos a NA) as (PA & _), (length_pos b NB) as (PB & _). fold (length_of a) in EA. fold (length_of b) in EB.
  destruct (mul_near (-501) 502 (-501) 502 _ _ FA FB BA BB ltac:(lia) ltac:(lia)) as (F & _ & d & D & E). fold mm in F, E. pose proof u_tiny as U.
  assert (R0 : 0 < r) by (apply Rmult_lt_0_compat; assumption).
  set (ra := length_of a) in *. set (rb := length_of b) in *. set (ma := val (d_magnitude fused a)) in *. set (mb := val (d_magnitude fused b)) in *.
  assert (H : Rabs (val mm - r) <= 7.1 * u * r).
  { rewrite E. replace (ma * mb * (1 + d) - r) with ((ma - ra) * rb + (ra * (mb - rb) + ((ma - ra) * (mb - rb) + ma * mb * d))) by (unfold r; ring).
    assert (MA : Rabs ma <= 1.001 * ra). { replace ma with (ma - ra + ra) by ring. apply Rle_trans with (1 := Rabs_triang _ _). rewrite (Rabs_pos_eq ra) by lra. nra. }
    assert (MB : Rabs mb <= 1.001 * rb). { replace mb with (mb - rb + rb) by ring. apply Rle_trans with (1 := Rabs_triang _ _). rewrite (Rabs_pos_eq rb) by lra. nra. }
    assert (T1 : Rabs ((ma - ra) * rb) <= 3 * u * ra * rb) by (rewrite Rabs_mult, (Rabs_pos_eq rb) by lra; apply Rmult_le_compat_r; lra).
    assert (T2 : Rabs (ra * (mb - rb)) <= ra * (3 * u * rb)) by (rewrite Rabs_mult, (Rabs_pos_eq ra) by lra; apply Rmult_le_compat_l; lra).
    assert (T3 : Rabs ((ma - ra) * (mb - rb)) <= (3 * u * ra) * (3 * u * rb)) by (rewrite Rabs_mult; apply Rmult_le_compat; auto using Rabs_pos).
    assert (T4 : Rabs (ma * mb * d) <= (1.001 * ra) * (1.001 * rb) * u) by (rewrite !Rabs_mult; apply Rmult_le_compat; [apply Rmult_le_pos; apply Rabs_pos|apply Rabs_pos|apply Rmult_le_compat; auto using Rabs_pos|exact D]).
    replace (3 * u * ra * (3 * u * rb)) with (9 * u * (u * r)) in T3 by (unfold r; ring). replace (1.001 * ra * (1.001 * rb) * u) with (1.002001 * (u * r)) in T4 by (unfold r; lra).
    replace (3 * u * ra * rb) with (3 * (u * r)) in T1 by (unfold r; ring). replace (ra * (3 * u * rb)) with (3 * (u * r)) in T2 by (unfold r; ring).
    assert (UR : 0 < u * r) by nra. assert (9 * u * (u * r) <= / 100 * (u * r)) by (apply Rmult_le_compat_r; lra).
    apply Rle_trans with (1 := Rabs_triang _ _). apply Rle_trans with (Rabs ((ma - ra) * rb) + (Rabs (ra * (mb - rb)) + (Rabs ((ma - ra) * (mb - rb)) + Rabs (ma * mb * d)))).
    { apply Rplus_le_compat_l. apply Rle_trans with (1 := Rabs_triang _ _). apply Rplus_le_compat_l. apply Rabs_triang. }
    lra. }
  split; [exact F|]. split; [exact R0|]. split; [exact H|]. apply sign_of. apply Rabs_le_inv in H. nra.
Qed.
Lemma norm_swap a b : norm a b = norm b a. Proof. unfold norm. f_equal. ring. Qed.
Lemma dot_bound a b : Rabs (X a * X b) + Rabs (Y a * Y b) <= length_of a * length_of b.
Proof. apply products_le. Qed.
Lemma cross_bound a b : Rabs (X a * Y b) + Rabs (Y a * X b) <= length_of a * length_of b.
Proof. unfold length_of. rewrite (norm_swap (X b)). apply products_le. Qed.
Lemma dot_small a b : Rabs (dot_of a b) <= length_of a * length_of b.
Proof. apply Rle_trans with (2 := dot_bound a b). apply Rabs_triang. Qed.
Lemma cross_small a b : Rabs (cross_of a b) <= length_of a * length_of b.
Proof. apply Rle_trans with (2 := cross_bound a b). unfold cross_of, Rminus. apply Rle_trans with (1 := Rabs_triang _ _). rewrite Rabs_Ropp. lra. Qed.
Lemma ratio_bound n r : 0 < r -> Rabs n <= r -> -1 <= n / r <= 1.
Proof.
  intros R0 H. apply Rabs_le_inv in H. split; apply Rmult_le_reg_r with r; auto; unfold Rdiv; rewrite Rmult_assoc, Rinv_l by lra; lra.
Qed.
Lemma cross_error a b : ordinary_point a -> ordinary_point b -> finite (d_cross a b) /\ Rabs (val (d_cross a b) - cross_of a b) <= 3 * u * (Rabs (X a * Y b) + Rabs (Y a * X b)).
Proof. intros A B. destruct (C166_cross_partial a b A B) as (F & E). split; [exact F|]. replace (3 / 2 ^ 53) with (3 * u) in E by (unfold u; field). exact E. Qed.

(** ** The theorems *)
(** Cosines and sines are between -1 and 1 and right. *)
Theorem C172_cosine : forall fused v direction, not_null v -> not_null direction ->
  number (d_cos_with fused v direction) /\ -1 <= B2R (d_cos_with fused v direction) <= 1 /\ Rabs (B2R (d_cos_with fused v direction) - cosine v direction) <= 12 / 2 ^ 53.
Proof.
  intros fused v d NV ND. destruct (lengths_near fused d v ND NV) as (F & R0 & E & _). destruct (dot_near fused d v (proj1 ND) (proj1 NV)) as (FD & ED). pose proof (dot_bound d v) as DB. pose proof u_tiny as U.
  set (r := length_of d * length_of v) in *.
  destruct (quotient_near _ _ (dot_of d v) r 1 3 7.1 FD F R0 scale_one ltac:(lra) ltac:(lra)) as (FQ & EQ & _).
  { apply Rle_trans with (1 := ED). rewrite Rmult_1_r. apply Rmult_le_compat_l; [lra|exact DB]. }
  { rewrite Rmult_1_r. apply dot_small. }
  { exact E. }
  destruct (clamp_near _ (cosine v d) _ FQ (ratio_bound _ _ R0 (dot_small d v)) EQ) as (FC & BC & EC & _).
  split; [exact FC|]. split; [exact BC|]. apply Rle_trans with (1 := EC). unfold u. lra.
Qed.
Print Assumptions C172_cosine.
Lemma sine_near fused v d : not_null v -> not_null d -> finite (d_sin_with fused v d) /\ -1 <= val (d_sin_with fused v d) <= 1 /\
  Rabs (val (d_sin_with fused v d) - sine v d) <= 12 * u /\ Bsign (d_sin_with fused v d) = Bsign (d_cross d v).
Proof.
  intros NV ND. destruct (lengths_near fused d v ND NV) as (F & R0 & E & SG). destruct (cross_error d v (proj1 ND) (proj1 NV)) as (FD & ED). pose proof (cross_bound d v) as DB. pose proof u_tiny as U.
  set (r := length_of d * length_of v) in *.
  destruct (quotient_near _ _ (cross_of d v) r 1 3 7.1 FD F R0 scale_one ltac:(lra) ltac:(lra)) as (FQ & EQ & SQ).
  { apply Rle_trans with (1 := ED). rewrite Rmult_1_r. apply Rmult_le_compat_l; [lra|exact DB]. }
  { rewrite Rmult_1_r. apply cross_small. }
  { exact E. }
  destruct (clamp_near _ (sine v d) _ FQ (ratio_bound _ _ R0 (cross_small d v)) EQ) as (FC & BC & EC & SC).
  split; [exact FC|]. split; [exact BC|]. split; [apply Rle_trans with (1 := EC); lra|]. unfold d_sin_with. rewrite SC, SQ, SG. apply xorb_false_r.
Qed.
Theorem C172_sine : forall fused v direction, not_null v -> not_null direction ->
  number (d_sin_with fused v direction) /\ -1 <= B2R (d_sin_with fused v direction) <= 1 /\ Rabs (B2R (d_sin_with fused v direction) - sine v direction) <= 12 / 2 ^ 53.
Proof.
  intros fused v d NV ND. destruct (sine_near fused v d NV ND) as (F & B & E & _). split; [exact F|]. split; [exact B|]. replace (12 / 2 ^ 53) with (12 * u) by (unfold u; field). exact E.
Qed.
Print Assumptions C172_sine.

(** The projection on a direction and the deviation from it are right to eight units of rounding of
    the length of the vector. *)
Theorem C172_projection : forall fused v direction, not_null v -> not_null direction ->
  number (d_projection_on fused v direction) /\ number (d_deviation_with fused v direction) /\
  Rabs (B2R (d_projection_on fused v direction) - dot_of direction v / length_of direction) <= 8 / 2 ^ 53 * length_of v /\
  Rabs (B2R (d_deviation_with fused v direction) - cross_of direction v / length_of direction) <= 8 / 2 ^ 53 * length_of v.
Proof.
  intros fused v d NV ND. destruct (magnitude_near fused d ND) as (F & E & _). destruct (length_pos d ND) as (PD & _), (length_pos v NV) as (PV & SV).
  destruct (dot_near fused d v (proj1 ND) (proj1 NV)) as (F1 & E1). destruct (cross_error d v (proj1 ND) (proj1 NV)) as (F2 & E2). pose proof u_tiny as U.
  destruct (quotient_near _ _ (dot_of d v) (length_of d) (length_of v) 3 3 F1 F PD SV ltac:(lra) ltac:(lra)) as (FQ & EQ & _).
  { apply Rle_trans with (1 := E1). apply Rmult_le_compat_l; [lra|apply dot_bound]. }
  { apply dot_small. }
  { exact E. }
  destruct (quotient_near _ _ (cross_of d v) (length_of d) (length_of v) 3 3 F2 F PD SV ltac:(lra) ltac:(lra)) as (FR & ER & _).
  { apply Rle_trans with (1 := E2). apply Rmult_le_compat_l; [lra|apply cross_bound]. }
  { apply cross_small. }
  { exact E. }
  replace (8 / 2 ^ 53) with (8 * u) by (unfold u; field). assert (0 < u * length_of v) by nra.
  split; [exact FQ|]. split; [exact FR|]. unfold val in EQ, ER. split; [apply Rle_trans with (1 := EQ)|apply Rle_trans with (1 := ER)]; lra.
Qed.
Print Assumptions C172_projection.
(** The distance of a point to a line, when the difference of the points is exact; it is positive on
    the left, negative on the right and null on the line. *)
Theorem C172_distance : forall fused p v point, not_null v -> not_null (d_sub point p) -> is_at (d_sub point p) (X point - X p) (Y point - Y p) ->
  let c := X v * (Y point - Y p) - Y v * (X point - X p) in
  number (d_distance_to_line fused p v point) /\
  Rabs (B2R (d_distance_to_line fused p v point) - c / length_of v) <= 8 / 2 ^ 53 * norm (X point - X p) (Y point - Y p).
Proof.
  intros fused p v point NV ND (_ & EX & EY) c. destruct (C172_projection fused (d_sub point p) v ND NV) as (_ & F & _ & E). split; [exact F|].
  unfold length_of at 2 in E. unfold cross_of in E. rewrite EX, EY in E. exact E.
Qed.
Print Assumptions C172_distance.

(** The coordinates of a unit vector are right to five units of rounding, and its length is one to
    eight units. *)
Theorem C172_unit : forall fused v, not_null v ->
  near_point 5 1 (d_normalised fused v) (X v / length_of v) (Y v / length_of v) /\ Rabs (length_of (d_normalised fused v) - 1) <= 8 / 2 ^ 53.
Proof.
  intros fused v NV. destruct (magnitude_near fused v NV) as (F & E & _). destruct (length_pos v NV) as (P & _). pose proof u_tiny as U. destruct (norm_left (X v) (Y v)) as (LX & LY).
  destruct NV as (((FX & _) & (FY & _)) & _).
  destruct (quotient_near (d_x v) _ (X v) (length_of v) 1 0 3 FX F P scale_one ltac:(lra) ltac:(lra)) as (FQ & EQ & _).
  { unfold val. rewrite Rminus_diag_eq, Rabs_R0 by reflexivity. lra. }
  { rewrite Rmult_1_r. exact LX. }
  { exact E. }
  destruct (quotient_near (d_y v) _ (Y v) (length_of v) 1 0 3 FY F P scale_one ltac:(lra) ltac:(lra)) as (FR & ER & _).
  { unfold val. rewrite Rminus_diag_eq, Rabs_R0 by reflexivity. lra. }
  { rewrite Rmult_1_r. exact LY. }
  { exact E. }
  assert (N : near_point 5 1 (d_normalised fused v) (X v / length_of v) (Y v / length_of v)).
  { unfold near_point. replace (5 / 2 ^ 53) with (5 * u) by (unfold u; field). unfold val in EQ, ER. split; [split; assumption|]. split; cbn [d_normalised d_x d_y]; lra. }
  split; [exact N|]. destruct N as (_ & N1 & N2). pose proof (norm_near _ _ _ _ _ N1 N2) as L. fold (length_of (d_normalised fused v)) in L.
  assert (ONE : norm (X v / length_of v) (Y v / length_of v) = 1).
  { unfold norm. rewrite <- sqrt_1. f_equal. pose proof (norm_square (X v) (Y v)) as S. fold (length_of v) in S. replace ((X v / length_of v) ^ 2 + (Y v / length_of v) ^ 2) with ((X v * X v + Y v * Y v) / (length_of v * length_of v)) by (field; lra).
    rewrite <- S. field. lra. }
  rewrite ONE in L. lra.
Qed.
Print Assumptions C172_unit.

(** Angles: the size is right to 6/10^6 degrees, and the sign is right when the cross product exceeds
    its error. *)
Lemma degree_constant : finite (fdiv (of_int 180) d_pi) /\ val (fdiv (of_int 180) d_pi) = 1007958012753983 / 2 ^ 44. Proof. float_value. Qed.
Lemma degrees_near x t : finite x -> 0 <= val x -> 0 <= t <= PI -> Rabs (val x - t) <= 9 / 10 ^ 8 -> finite (d_degrees x) /\ 0 <= val (d_degrees x) /\ Rabs (val (d_degrees x) - t * (180 / PI)) <= 5.5 / 10 ^ 6.
Proof.
  intros F X0 T E. destruct degree_constant as (FC & VC). destruct pi_digits as (P1 & P2). set (c := fdiv (of_int 180) d_pi) in *. apply Rabs_le_inv in E.
  assert (X1 : val x <= 3.2) by lra. assert (C1 : 57 <= val c <= 58) by (rewrite VC; lra).
  assert (CD : Rabs (val c - 180 / PI) <= / 10 ^ 10).
  { replace (val c - 180 / PI) with ((val c * PI - 180) / PI) by (field; lra). unfold Rdiv. rewrite Rabs_mult, (Rabs_pos_eq (/ PI)) by (left; apply Rinv_0_lt_compat; lra).
    apply Rmult_le_reg_r with PI; [lra|]. rewrite Rmult_assoc, Rinv_l, Rmult_1_r by lra. apply Rabs_le. rewrite VC. lra. }
  assert (M : 0 <= val x * val c <= 200) by nra.
  assert (L : Rabs (rnd (val x * val c)) < bpow radix2 1024). { apply (round_small _ 10); [lia|]. rewrite Rabs_pos_eq by lra. change (bpow radix2 10) with 1024. lra. }
  pose proof (@Bmult_correct 53 1024 prec_ok emax_ok mode_NE x c) as C. change (round radix2 fexp (round_mode mode_NE) (B2R x * B2R c)) with (rnd (val x * val c)) in C.
  rewrite Rlt_bool_true in C by exact L. destruct C as (C2 & C3 & _).
  assert (V : val (d_degrees x) = rnd (val x * val c)) by exact C2.
  split; [unfold finite, d_degrees, fmul; fold c; rewrite C3; unfold finite in F, FC; rewrite F, FC; reflexivity|]. rewrite V.
  split; [apply round_ge_generic; auto with typeclass_instances; [apply generic_format_0|lra]|].
  pose proof (rnd_error (val x * val c)) as RE. rewrite (Rabs_pos_eq (val x * val c)) in RE by lra.
  assert (TT : bpow radix2 (-1074) <= / 10 ^ 10). { apply Rle_trans with (bpow radix2 (-63)); [apply bpow_le; lia|]. cbn. unfold Z.pow_pos. cbn. lra. }
  assert (UU : u * (val x * val c) <= / 10 ^ 10) by (unfold u; lra). set (k := 180 / PI) in *. apply Rabs_le_inv in CD. apply Rabs_le_inv in RE.
  assert (S : - (5.3 / 10 ^ 6) <= val x * val c - t * k <= 5.3 / 10 ^ 6).
  { replace (val x * val c - t * k) with ((val x - t) * val c + t * (val c - k)) by ring.
    assert (S1 : - (9 / 10 ^ 8) * 58 <= (val x - t) * val c <= 9 / 10 ^ 8 * 58) by (split; nra).
    assert (S2 : - (/ 10 ^ 9) <= t * (val c - k) <= / 10 ^ 9) by (split; nra). lra. }
  apply Rabs_le. lra.
Qed.
Lemma arc_near x y : -1 <= x <= 1 -> -1 <= y <= 1 -> Rabs (x - y) <= 12 * u -> Rabs (acos x - acos y) <= 8.9 / 10 ^ 8.
Proof.
  intros X0 Y0 H. pose proof (cos_apart (acos x) (acos y) (acos_bound x) (acos_bound y)) as C. rewrite !cos_acos in C by assumption.
  set (d := acos x - acos y) in *. assert (D : d * d <= 12 * u / 0.1728) by lra. apply Rsqr_incr_0_var; [|lra]. rewrite <- Rsqr_abs. unfold Rsqr. apply Rle_trans with (1 := D). unfold u. lra.
Qed.
Theorem C172_angle : forall dacos fused v direction, accurate_acos dacos -> not_null v -> not_null direction ->
  let a := d_angle_with dacos fused v direction in
  number a /\ Rabs (Rabs (B2R a) - angle_of v direction) <= 6 / 10 ^ 6 /\
  (clear_turn v direction -> 0 < cross_of direction v -> Rabs (B2R a - angle_of v direction) <= 6 / 10 ^ 6) /\
  (clear_turn v direction -> cross_of direction v < 0 -> Rabs (B2R a - - angle_of v direction) <= 6 / 10 ^ 6).
Proof.
  intros dacos fused v d A NV ND a. destruct (C172_cosine fused v d NV ND) as (FC & BC & EC). replace (12 / 2 ^ 53) with (12 * u) in EC by (unfold u; field).
  destruct (lengths_near fused d v ND NV) as (_ & R0 & _). pose proof (ratio_bound _ _ R0 (dot_small d v)) as CB. fold (cosine v d) in CB.
  pose proof (arc_near _ _ BC CB EC) as AN. destruct (A _ FC BC) as (FA & A0 & EA). set (x := dacos (d_cos_with fused v d)) in *.
  destruct (degrees_near x (acos (cosine v d)) FA A0 (acos_bound _)) as (FD & D0 & ED).
  { unfold val. replace (B2R x - acos (cosine v d)) with (B2R x - acos (B2R (d_cos_with fused v d)) + (acos (B2R (d_cos_with fused v d)) - acos (cosine v d))) by ring.
    apply Rle_trans with (1 := Rabs_triang _ _). lra. }
  fold (angle_of v d) in ED. destruct (sine_near fused v d NV ND) as (_ & _ & _ & SG). destruct one_val as (VO & FO & _). destruct neg_one as (FN & VN).
  assert (S : finite (d_sign (d_sin_with fused v d)) /\ val (d_sign (d_sin_with fused v d)) = if Bsign (d_cross d v) then -1 else 1).
  { unfold d_sign. rewrite SG. destruct (Bsign (d_cross d v)); auto. }
  destruct S as (FS & VS). set (s := d_sign (d_sin_with fused v d)) in *. set (g := d_degrees x) in *.
  assert (RV : rnd (val s * val g) = val s * val g).
  { rewrite VS. destruct (Bsign (d_cross d v)); [|rewrite Rmult_1_l; apply rnd_val].
    replace (-1 * val g) with (val (dbl_neg g)) by (unfold val, dbl_neg; rewrite B2R_Bopp; ring). apply rnd_val. }
  assert (L : Rabs (rnd (val s * val g)) < bpow radix2 1024).
  { rewrite RV, Rabs_mult. replace (Rabs (val s)) with 1 by (rewrite VS; destruct (Bsign (d_cross d v)); [rewrite Rabs_left|rewrite Rabs_pos_eq]; lra). rewrite Rmult_1_l. apply val_small. }
  pose proof (@Bmult_correct 53 1024 prec_ok emax_ok mode_NE s g) as C. change (round radix2 fexp (round_mode mode_NE) (B2R s * B2R g)) with (rnd (val s * val g)) in C.
  rewrite Rlt_bool_true in C by exact L. destruct C as (C1 & C2 & _). rewrite RV, VS in C1. change (B2R (Bmult mode_NE s g)) with (B2R a) in C1.
  split; [unfold number; change a with (fmul s g); unfold fmul; rewrite C2; unfold finite in FS, FD; rewrite FS, FD; reflexivity|]. apply Rabs_le_inv in ED.
  destruct (cross_error d v (proj1 ND) (proj1 NV)) as (_ & EX). replace (3 * u) with (3 / 2 ^ 53) in EX by (unfold u; field). rewrite C1. split; [|split].
  - rewrite Rabs_mult. replace (Rabs (if Bsign (d_cross d v) then -1 else 1)) with 1 by (destruct (Bsign (d_cross d v)); [rewrite Rabs_left|rewrite Rabs_pos_eq]; lra).
    rewrite Rmult_1_l, (Rabs_pos_eq (val g)) by exact D0. apply Rabs_le. lra.
  - intros T P. unfold clear_turn in T. rewrite (Rabs_pos_eq (cross_of d v)) in T by lra. apply Rabs_le_inv in EX. rewrite (proj1 (sign_of (d_cross d v))) by lra. apply Rabs_le. lra.
  - intros T P. unfold clear_turn in T. rewrite (Rabs_left (cross_of d v)) in T by lra. apply Rabs_le_inv in EX. rewrite (proj2 (sign_of (d_cross d v))) by lra. apply Rabs_le. lra.
Qed.
Print Assumptions C172_angle.

(** ** What is lost *)
(** The cosine of the vector (1, 1) with itself is below one, so that its angle with itself is not
    null, whatever the arc cosine: 10^-6 degrees. *)
Definition diagonal : dvec := D one one.
Lemma diagonal_cosine : forall fused, finite (d_cos_with fused diagonal diagonal) /\ val (d_cos_with fused diagonal diagonal) = 1 - 2 / 2 ^ 53.
Proof.
  assert (G : forall fused, B2SF (d_cos_with fused diagonal diagonal) = SpecFloat.S754_finite false 9007199254740990 (-53)) by (intros []; vm_compute; reflexivity).
  intros fused. destruct (float_of _ _ _ (G fused)) as (F & V). split; [exact F|]. rewrite V. cbn. unfold Z.pow_pos. cbn. lra.
Qed.
Theorem C172_self_refuted : forall dacos fused, accurate_acos dacos ->
  cosine diagonal diagonal = 1 /\ B2R (d_cos_with fused diagonal diagonal) < 1 /\ angle_of diagonal diagonal = 0 /\ / 10 ^ 8 <= B2R (dacos (d_cos_with fused diagonal diagonal)).
Proof.
  intros dacos fused A. destruct (diagonal_cosine fused) as (F & V). fold (val (d_cos_with fused diagonal diagonal)). rewrite V.
  assert (C1 : cosine diagonal diagonal = 1).
  { unfold cosine, dot_of, length_of. rewrite norm_square. cbn [diagonal d_x d_y]. change (B2R one) with (val one). destruct one_val as (-> & _). field. }
  split; [exact C1|]. split; [lra|]. split; [unfold angle_of; rewrite C1, acos_1; ring|].
  assert (B : -1 <= B2R (d_cos_with fused diagonal diagonal) <= 1) by (fold (val (d_cos_with fused diagonal diagonal)); rewrite V; lra).
  destruct (A _ F B) as (_ & _ & E). fold (val (d_cos_with fused diagonal diagonal)) in E. rewrite V in E. apply Rabs_le_inv in E.
  set (t := acos (1 - 2 / 2 ^ 53)) in *. assert (T : 0 <= t <= PI) by apply acos_bound. assert (CT : cos t = 1 - 2 / 2 ^ 53) by (apply cos_acos; lra).
  assert (K : 2 / 2 ^ 53 <= t * t).
  { assert (S : 1 - cos t = 2 * (sin (t / 2) * sin (t / 2))). { replace t with (2 * (t / 2)) at 1 by field. rewrite cos_2a_sin. ring. }
    assert (SB : 0 <= sin (t / 2) <= t / 2).
    { split; [apply sin_ge_0; lra|]. destruct (Req_dec t 0) as [->|N]; [unfold Rdiv; rewrite Rmult_0_l, sin_0; lra|]. left. apply sin_lt_x. lra. }
    nra. }
  assert (T1 : 1.4 / 10 ^ 8 <= t). { destruct (Rle_dec (1.4 / 10 ^ 8) t) as [L|L]; [exact L|]. exfalso. nra. }
  lra.
Qed.
Print Assumptions C172_self_refuted.

Example C172_example : not_null diagonal /\ not_null (D one zero) /\ clear_turn diagonal (D one zero) /\ 0 < cross_of (D one zero) diagonal.
Proof.
  destruct one_val as (V & F & _). unfold val in V.
  assert (O1 : ordinary one). { split; [exact F|]. right. rewrite V, Rabs_R1. split; [apply (bpow_le radix2 (-500) 0)|apply (bpow_le radix2 0 500)]; lia. }
  assert (O0 : ordinary zero) by (split; [reflexivity|left; reflexivity]).
  split; [split; [split; exact O1|left; cbn [diagonal d_x]; lra]|]. split; [split; [split; assumption|left; cbn [d_x]; lra]|].
  unfold clear_turn, cross_of. cbn [diagonal d_x d_y]. rewrite V. change (B2R zero) with 0.
  replace (1 * 1 - 0 * 1) with 1 by ring. rewrite Rmult_0_l, Rmult_1_l, Rabs_R0, Rabs_R1. split; lra.
Qed.
(** The rounded arc cosine is right. *)
Lemma round_of_value4 r : Rabs r <= 4 -> number (round_of r) /\ B2R (round_of r) = rnd r.
Proof.
  intros B. pose proof (binary_normalize_correct 53 1024 prec_ok emax_ok mode_NE (Ztrunc (scaled_mantissa radix2 fexp (rnd r))) (cexp radix2 fexp (rnd r)) false) as C.
  assert (G : generic_format radix2 fexp (rnd r)) by (apply generic_format_round; auto with typeclass_instances).
  assert (E : F2R (Float radix2 (Ztrunc (scaled_mantissa radix2 fexp (rnd r))) (cexp radix2 fexp (rnd r))) = rnd r) by (symmetry; exact G).
  assert (L : Rabs (rnd r) < bpow radix2 1024) by (apply (round_small _ 2); [lia|exact B]).
  assert (RR : rnd (rnd r) = rnd r) by (apply round_generic; [auto with typeclass_instances|exact G]).
  rewrite E in C. cbv zeta in C. change (round radix2 fexp (round_mode mode_NE) (rnd r)) with (rnd (rnd r)) in C. rewrite RR in C. rewrite Rlt_bool_true in C by exact L.
  destruct C as (C1 & C2 & _). split; [exact C2|exact C1].
Qed.
Example C172_acos_example : accurate_acos (fun x => round_of (acos (B2R x))).
Proof.
  intros x _ B. pose proof (acos_bound (B2R x)) as A. destruct pi_digits as (P1 & P2). set (t := acos (B2R x)) in *. pose proof u_tiny as U.
  destruct (round_of_value4 t) as (F & V); [rewrite Rabs_pos_eq; lra|]. split; [exact F|]. rewrite V. split.
  - apply round_ge_generic; auto with typeclass_instances; [apply generic_format_0|lra].
  - apply Rle_trans with (1 := rnd_error t). rewrite Rabs_pos_eq by lra. replace (4 / 2 ^ 53) with (4 * u) by (unfold u; field).
    assert (TT : bpow radix2 (-1074) <= / 100 * u). { apply Rle_trans with (bpow radix2 (-63)); [apply bpow_le; lia|]. unfold u. cbn. unfold Z.pow_pos. cbn. lra. }
    nra.
Qed.
