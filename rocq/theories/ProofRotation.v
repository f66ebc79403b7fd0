(** Lemmas for C171: the number pi, cosines of near angles. *)
From Coq Require Import Reals Lra Lia List Bool ZArith QArith Qreals Machin.
From Flocq Require Import Core Relative BinarySingleNaN.
From Verif Require Import Base ModelColor ModelDouble ModelDoubleRotation ProofDouble PropDouble ProofAccuracy ProofCurveAccuracy.
Import ListNotations.
Local Open Scope R_scope.

(** ** The first digits of pi, by the formula of Machin *)
Definition q_term (i : nat) : Q :=
  (inject_Z ((-1) ^ Z.of_nat i) * (2 * / inject_Z (3 ^ Z.of_nat (2 * i + 1) * Z.of_nat (2 * i + 1)) + / inject_Z (7 ^ Z.of_nat (2 * i + 1) * Z.of_nat (2 * i + 1))))%Q.
Fixpoint q_sum (n : nat) : Q := match n with O => q_term 0 | Datatypes.S m => Qred (q_sum m + q_term n) end.
Lemma q2r_z z : Q2R (inject_Z z) = IZR z.
Proof. unfold Q2R, inject_Z. cbn. field. Qed.
Lemma inject_nonzero z : z <> 0%Z -> ~ (inject_Z z == 0)%Q.
Proof. intros H E. apply H. unfold inject_Z, Qeq in E. cbn in E. lia. Qed.
Lemma q_term_value i : tg_alt PI_2_3_7_tg i = Q2R (q_term i).
Proof.
  unfold q_term, tg_alt, PI_2_3_7_tg, Ratan_seq. set (k := (2 * i + 1)%nat). assert (K : (0 < Z.of_nat k)%Z) by (unfold k; lia).
  assert (P3 : (3 ^ Z.of_nat k * Z.of_nat k)%Z <> 0%Z) by (pose proof (Z.pow_pos_nonneg 3 (Z.of_nat k)); nia).
  assert (P7 : (7 ^ Z.of_nat k * Z.of_nat k)%Z <> 0%Z) by (pose proof (Z.pow_pos_nonneg 7 (Z.of_nat k)); nia).
  rewrite Q2R_mult, Q2R_plus, Q2R_mult, !Q2R_inv by (apply inject_nonzero; assumption). rewrite !q2r_z, !mult_IZR, <- !pow_IZR, <- INR_IZR_INZ.
  replace (Q2R 2) with 2 by (unfold Q2R; cbn; lra). rewrite !pow_inv. 
  assert (INR k <> 0) by (apply not_0_INR; unfold k; lia). assert (3 ^ k <> 0) by (apply pow_nonzero; lra). assert (7 ^ k <> 0) by (apply pow_nonzero; lra).
  field. auto.
Qed.
Lemma q_sum_value n : sum_f_R0 (tg_alt PI_2_3_7_tg) n = Q2R (q_sum n).
Proof.
  induction n as [|n IH]; [apply q_term_value|]. cbn [sum_f_R0]. rewrite IH, q_term_value, <- Q2R_plus. apply Qeq_eqR. cbn [q_sum]. rewrite Qred_correct. reflexivity.
Qed.
Lemma pi_digits : 3.14159265358979323846 < PI < 3.14159265358979323847.
Proof.
  destruct (PI_2_3_7_ineq 12) as (A & B). rewrite q_sum_value in A, B. split.
  - assert (L : Q2R (314159265358979323846 # 400000000000000000000) < Q2R (q_sum (S (2 * 12)))) by (apply Qlt_Rlt; vm_compute; reflexivity).
    unfold Q2R at 1 in L. cbn [Qnum Qden] in L. lra.
  - assert (L : Q2R (q_sum (2 * 12)) < Q2R (314159265358979323847 # 400000000000000000000)) by (apply Qlt_Rlt; vm_compute; reflexivity).
    unfold Q2R at 2 in L. cbn [Qnum Qden] in L. lra.
Qed.

(** ** The double of pi and of a degree *)
Lemma float_of (x : float) m e : B2SF x = SpecFloat.S754_finite false m e -> finite x /\ val x = IZR (Zpos m) * bpow radix2 e.
Proof. destruct x as [s|s| |s m' e' H]; cbn; try discriminate. intros E. injection E as -> -> ->. split; reflexivity. Qed.
Ltac float_value := match goal with |- finite ?x /\ _ =>
  let s := eval vm_compute in (B2SF x) in match s with SpecFloat.S754_finite false ?m ?e =>
    destruct (float_of x m e ltac:(vm_compute; reflexivity)) as [? E]; split; [assumption|rewrite E; cbn; unfold Z.pow_pos; cbn; lra] end end.
Lemma pi_value : finite d_pi /\ val d_pi = 884279719003555 / 2 ^ 48. Proof. float_value. Qed.
Lemma degree_value : finite d_degree /\ val d_degree = 5030569068109113 / 2 ^ 58. Proof. float_value. Qed.
Lemma degree_near : Rabs (val d_degree - PI / 180) <= 0.9 * u * (PI / 180).
Proof. destruct degree_value as (_ & ->). destruct pi_digits. unfold u. apply Rabs_le. lra. Qed.
Lemma ninety_value : finite (of_int 90) /\ val (of_int 90) = 90. Proof. float_value. Qed.
Lemma quarter_value : finite (d_radians (of_int 90)) /\ val (d_radians (of_int 90)) = 884279719003555 / 2 ^ 49. Proof. float_value. Qed.

(** ** Radians *)
Lemma radians_near x : finite x -> Rabs (val x) <= bpow radix2 900 ->
  finite (d_radians x) /\ Rabs (val (d_radians x) - val x * (PI / 180)) <= 2 * u * Rabs (val x * (PI / 180)) + / 2 * bpow radix2 (-1074).
Proof.
  intros F B. destruct degree_value as (FD & VD). pose proof degree_near as N. destruct pi_digits as (P1 & P2). pose proof u_tiny as U.
  assert (D : Rabs (val d_degree) <= 1) by (rewrite VD, Rabs_pos_eq; lra).
  assert (L : Rabs (rnd (val x * val d_degree)) < bpow radix2 1024).
  { apply (round_small _ 900); [lia|]. rewrite Rabs_mult. pose proof (Rabs_pos (val x)). nra. }
  pose proof (@Bmult_correct 53 1024 prec_ok emax_ok mode_NE x d_degree) as C.
  change (round radix2 fexp (round_mode mode_NE) (B2R x * B2R d_degree)) with (rnd (val x * val d_degree)) in C.
  rewrite Rlt_bool_true in C by exact L. destruct C as (C1 & C2 & _).
  assert (FF : finite (d_radians x)). { unfold finite, d_radians, fmul. rewrite C2. unfold finite in F, FD. rewrite F, FD. reflexivity. }
  split; [exact FF|]. change (val (d_radians x)) with (B2R (fmul x d_degree)). unfold fmul. rewrite C1.
  pose proof (rnd_error (val x * val d_degree)) as E.
  replace (rnd (val x * val d_degree) - val x * (PI / 180)) with (rnd (val x * val d_degree) - val x * val d_degree + val x * (val d_degree - PI / 180)) by ring.
  apply Rle_trans with (1 := Rabs_triang _ _). rewrite !Rabs_mult in *. rewrite (Rabs_pos_eq (PI / 180)) by lra. set (p := PI / 180) in *. assert (0 < p) by (unfold p; lra).
  pose proof (Rabs_pos (val x)) as X. set (a := Rabs (val x)) in *.
  assert (D2 : Rabs (val d_degree) <= p + 0.9 * u * p).
  { replace (val d_degree) with (val d_degree - p + p) by ring. apply Rle_trans with (1 := Rabs_triang _ _). rewrite (Rabs_pos_eq p) by lra. lra. }
  assert (AP : 0 <= a * p) by nra.
  assert (M1 : a * Rabs (val d_degree - p) <= a * (0.9 * u * p)) by (apply Rmult_le_compat_l; lra).
  assert (M2 : a * Rabs (val d_degree) <= a * (p + 0.9 * u * p)) by (apply Rmult_le_compat_l; lra).
  assert (M3 : u * (a * Rabs (val d_degree)) <= u * (a * (p + 0.9 * u * p))) by (apply Rmult_le_compat_l; lra).
  replace (u * (a * (p + 0.9 * u * p))) with (u * (a * p) + 0.9 * u * (u * (a * p))) in M3 by ring. assert (0 <= u * (a * p)) by nra. nra.
Qed.

(** ** Cosines and sines of near angles *)
Lemma cos_near a b : Rabs (cos a - cos b) <= Rabs (a - b).
Proof.
  destruct (MVT_abs cos (fun x => - sin x) b a) as (c & E & _); [intros; apply derivable_pt_lim_cos|]. rewrite E, Rabs_Ropp.
  pose proof (SIN_bound c). pose proof (Rabs_pos (a - b)). assert (Rabs (sin c) <= 1) by (apply Rabs_le; lra). nra.
Qed.
Lemma sin_near a b : Rabs (sin a - sin b) <= Rabs (a - b).
Proof.
  destruct (MVT_abs sin cos b a) as (c & E & _); [intros; apply derivable_pt_lim_sin|]. rewrite E.
  pose proof (COS_bound c). pose proof (Rabs_pos (a - b)). assert (Rabs (cos c) <= 1) by (apply Rabs_le; lra). nra.
Qed.
(** The cosine of the double of a quarter of a turn is not zero. *)
Lemma quarter_cos : / 2 ^ 60 <= cos (val (d_radians (of_int 90))).
Proof.
  destruct quarter_value as (_ & ->). destruct pi_digits as (P1 & P2). set (q := 884279719003555 / 2 ^ 49). replace q with (PI / 2 - (PI / 2 - q)) by ring. rewrite cos_shift.
  set (y := PI / 2 - q). assert (Y : / 2 ^ 55 <= y <= 1) by (unfold y, q; lra).
  destruct (MVT_abs sin cos 0 y) as (c & E & C); [intros; apply derivable_pt_lim_sin|]. rewrite sin_0, !Rminus_0_r in E. rewrite Rmin_left, Rmax_right in C by lra.
  assert (K : / 2 <= cos c).
  { replace (/ 2) with (cos (PI / 3)) by (rewrite cos_PI3; lra). apply cos_decr_1; lra. }
  rewrite (Rabs_pos_eq y), (Rabs_pos_eq (cos c)) in E by lra. rewrite Rabs_pos_eq in E by (apply sin_ge_0; lra). rewrite E. nra.
Qed.
