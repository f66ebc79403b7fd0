(** Lemmas on double precision numbers (C160 to C163). *)
From Coq Require Import Reals Lra Lia List Bool ZArith.
From Flocq Require Import Core BinarySingleNaN Mult_error.
From Verif Require Import Base ModelColor ModelDouble.
Import ListNotations.
Local Open Scope R_scope.

Notation fexp := (SpecFloat.fexp 53 1024).
Definition rnd (x : R) : R := round radix2 fexp (round_mode mode_NE) x.
Definition val (x : float) : R := B2R x.
Definition finite (x : float) : Prop := is_finite x = true.

Global Instance prec_inst : FLX.Prec_gt_0 53 := prec_ok.
Global Instance fexp_valid : Valid_exp fexp := fexp_correct 53 1024 prec_ok.

Lemma overflow_inf s : binary_overflow 53 1024 mode_NE s = SpecFloat.S754_infinity s.
Proof. destruct s; reflexivity. Qed.
Lemma finite_sf (x : float) s : B2SF x = SpecFloat.S754_infinity s -> is_finite x = false.
Proof. destruct x; cbn; congruence. Qed.

Lemma finite_nan (z : float) : is_finite z = true -> is_nan z = false.
Proof. destruct z; cbn; congruence. Qed.

Lemma add_finite x y : finite x -> finite y -> finite (dbl_add x y) -> val (dbl_add x y) = rnd (val x + val y).
Proof.
  intros X Y F. pose proof (@Bplus_correct 53 1024 prec_ok emax_ok mode_NE x y X Y) as C.
  destruct (Rlt_bool _ _); [apply C|]. destruct C as [C _]. rewrite overflow_inf in C. apply finite_sf in C.
  unfold finite, dbl_add in F. congruence.
Qed.
Lemma sub_finite x y : finite x -> finite y -> finite (dbl_sub x y) -> val (dbl_sub x y) = rnd (val x - val y).
Proof.
  intros X Y F. pose proof (@Bminus_correct 53 1024 prec_ok emax_ok mode_NE x y X Y) as C.
  destruct (Rlt_bool _ _); [apply C|]. destruct C as [C _]. rewrite overflow_inf in C. apply finite_sf in C.
  unfold finite, dbl_sub in F. congruence.
Qed.
Lemma mul_finite x y : finite (fmul x y) -> val (fmul x y) = rnd (val x * val y) /\ finite x /\ finite y.
Proof.
  intros F. pose proof (@Bmult_correct 53 1024 prec_ok emax_ok mode_NE x y) as C.
  destruct (Rlt_bool _ _).
  - destruct C as (C & D & _). split; [exact C|]. unfold finite, fmul in *. rewrite F in D. symmetry in D.
    apply andb_true_iff in D. exact D.
  - rewrite overflow_inf in C. apply finite_sf in C. unfold finite, fmul in F. congruence.
Qed.

Lemma rnd_val x : rnd (val x) = val x.
Proof. apply round_generic; [auto with typeclass_instances|apply generic_format_B2R]. Qed.
Lemma val_small x : Rabs (val x) < bpow radix2 1024.
Proof. apply abs_B2R_lt_emax. Qed.
Lemma rnd_0 : rnd 0 = 0.
Proof. apply round_0. auto with typeclass_instances. Qed.

(** The sum of two numbers does not depend on their order. *)
Lemma add_comm x y : dbl_add x y = dbl_add y x.
Proof.
  unfold dbl_add. destruct (is_finite x) eqn:X, (is_finite y) eqn:Y.
  2,3,4: destruct x as [[]|[]| |[] ? ? ?], y as [[]|[]| |[] ? ? ?]; try discriminate; reflexivity.
  pose proof (@Bplus_correct 53 1024 prec_ok emax_ok mode_NE x y X Y) as A.
  pose proof (@Bplus_correct 53 1024 prec_ok emax_ok mode_NE y x Y X) as B.
  rewrite (Rplus_comm (B2R y)) in B. destruct (Rlt_bool _ _).
  - destruct A as (A1 & A2 & A3), B as (B1 & B2 & B3). apply B2R_Bsign_inj; auto; [congruence|].
    rewrite A3, B3. destruct (Rcompare _ _); auto. apply andb_comm.
  - destruct A as (A1 & A2), B as (B1 & B2). apply B2SF_inj. congruence.
Qed.
Lemma mul_comm x y : fmul x y = fmul y x.
Proof.
  unfold fmul. destruct (is_finite x) eqn:X, (is_finite y) eqn:Y.
  2,3,4: destruct x as [[]|[]| |[] ? ? ?], y as [[]|[]| |[] ? ? ?]; try discriminate; reflexivity.
  pose proof (@Bmult_correct 53 1024 prec_ok emax_ok mode_NE x y) as A.
  pose proof (@Bmult_correct 53 1024 prec_ok emax_ok mode_NE y x) as B.
  rewrite (Rmult_comm (B2R y)), (xorb_comm (Bsign y)) in B. destruct (Rlt_bool _ _).
  - destruct A as (A1 & A2 & A3), B as (B1 & B2 & B3). rewrite X, Y in *. cbn in A2, B2.
    assert (N : forall z : float, is_finite z = true -> is_nan z = false) by (intros []; cbn; congruence).
    apply B2R_Bsign_inj; auto; [congruence|]. rewrite A3, B3; auto.
  - apply B2SF_inj. congruence.
Qed.

(** Differences the other way round. *)
Lemma sub_swap x y : dbl_sub y x = dbl_neg (dbl_sub x y) \/ (dbl_sub x y = zero /\ dbl_sub y x = zero) .
Proof.
  unfold dbl_sub, dbl_neg. destruct (is_finite x) eqn:X, (is_finite y) eqn:Y.
  2,3,4: left; destruct x as [[]|[]| |[] ? ? ?], y as [[]|[]| |[] ? ? ?]; try discriminate; reflexivity.
  pose proof (@Bminus_correct 53 1024 prec_ok emax_ok mode_NE x y X Y) as A.
  pose proof (@Bminus_correct 53 1024 prec_ok emax_ok mode_NE y x Y X) as B.
  assert (Opp : rnd (B2R y - B2R x) = - rnd (B2R x - B2R y)).
  { replace (B2R y - B2R x) with (- (B2R x - B2R y)) by ring. unfold rnd. apply round_NE_opp. }
  unfold rnd in Opp. rewrite Opp, Rabs_Ropp in B. destruct (Rlt_bool _ _).
  - destruct A as (A1 & A2 & A3), B as (B1 & B2 & B3).
    destruct (Rcompare_spec (B2R x - B2R y) 0) as [L|L|L].
    + left. apply B2R_Bsign_inj; [exact B2|rewrite is_finite_Bopp; exact A2|rewrite B2R_Bopp; congruence|].
      rewrite Bsign_Bopp by (destruct (Bminus mode_NE x y); cbn in *; congruence). rewrite A3, B3, Rcompare_Gt by lra. reflexivity.
    + rewrite Rcompare_Eq in B3 by lra.
      assert (Z : rnd (B2R x - B2R y) = 0) by (rewrite L; apply rnd_0). unfold rnd in Z. rewrite Z in A1, B1. rewrite Ropp_0 in B1.
      destruct (Bsign x) eqn:SX, (Bsign y) eqn:SY; cbn in A3, B3.
      * right. split; apply B2R_Bsign_inj; auto.
      * left. apply B2R_Bsign_inj; [exact B2|rewrite is_finite_Bopp; exact A2|rewrite B2R_Bopp, A1, B1; ring|].
        rewrite Bsign_Bopp by (destruct (Bminus mode_NE x y); cbn in *; congruence). rewrite A3, B3. reflexivity.
      * left. apply B2R_Bsign_inj; [exact B2|rewrite is_finite_Bopp; exact A2|rewrite B2R_Bopp, A1, B1; ring|].
        rewrite Bsign_Bopp by (destruct (Bminus mode_NE x y); cbn in *; congruence). rewrite A3, B3. reflexivity.
      * right. split; apply B2R_Bsign_inj; auto.
    + left. apply B2R_Bsign_inj; [exact B2|rewrite is_finite_Bopp; exact A2|rewrite B2R_Bopp; congruence|].
      rewrite Bsign_Bopp by (destruct (Bminus mode_NE x y); cbn in *; congruence). rewrite A3, B3, Rcompare_Lt by lra. reflexivity.
  - left. destruct A as (A1 & A2), B as (B1 & B2). apply B2SF_inj. rewrite B1. rewrite overflow_inf in A1 |- *.
    destruct (Bminus mode_NE x y); cbn in A1 |- *; try discriminate. congruence.
Qed.

Lemma eq_val x y : finite x -> finite y -> (dbl_eq x y = true <-> val x = val y).
Proof.
  intros X Y. unfold dbl_eq. rewrite Beqb_correct by assumption. destruct (Req_bool_spec (B2R x) (B2R y)) as [E|E]; unfold val; split; intro H; try discriminate; try reflexivity; contradiction || exact E || idtac.
Qed.

(** One and zero. *)
Lemma one_val : val one = 1 /\ finite one /\ Bsign one = false.
Proof. unfold val, one, finite. vm_compute. repeat split. lra. Qed.
Lemma mul_one x : finite x -> fmul one x = x.
Proof.
  intros F. destruct one_val as (V & F1 & S1). pose proof (@Bmult_correct 53 1024 prec_ok emax_ok mode_NE one x) as A.
  unfold val in V. rewrite V, Rmult_1_l in A. change (round radix2 fexp (round_mode mode_NE) (B2R x)) with (rnd (val x)) in A.
  rewrite rnd_val in A. rewrite Rlt_bool_true in A by apply val_small. destruct A as (A1 & A2 & A3). unfold fmul.
  rewrite F1, F in A2. cbn in A2. apply B2R_Bsign_inj; auto. rewrite A3, S1; [destruct (Bsign x); reflexivity|].
  apply finite_nan. exact A2.
Qed.
Lemma mul_zero x : finite x -> val (fmul zero x) = 0 /\ finite (fmul zero x).
Proof. destruct x; cbn; try discriminate; auto. Qed.
Lemma add_zero_r x z : finite x -> finite z -> val z = 0 -> val (dbl_add x z) = val x /\ finite (dbl_add x z).
Proof.
  intros X Z V. pose proof (@Bplus_correct 53 1024 prec_ok emax_ok mode_NE x z X Z) as A. unfold val in V. rewrite V, Rplus_0_r in A.
  change (round radix2 fexp (round_mode mode_NE) (B2R x)) with (rnd (val x)) in A.
  rewrite rnd_val in A. rewrite Rlt_bool_true in A by apply val_small. destruct A as (A1 & A2 & _). split; [exact A1|exact A2].
Qed.
Lemma add_zero_l x z : finite x -> finite z -> val z = 0 -> val (dbl_add z x) = val x /\ finite (dbl_add z x).
Proof. rewrite add_comm. apply add_zero_r. Qed.
