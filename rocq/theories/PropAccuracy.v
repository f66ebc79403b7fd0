(** C166: the accuracy of lengths, points of segments and cross products in double precision. *)
From Coq Require Import Reals Lra Lia List Bool ZArith.
From Flocq Require Import Core BinarySingleNaN.
From Verif Require Import Base ModelColor ModelDouble ModelDecide ProofDouble PropDouble ProofAccuracy.
Local Open Scope R_scope.

(** ** What is expected *)
Notation X a := (B2R (d_x a)).
Notation Y a := (B2R (d_y a)).
(** A number which is null, or neither very small nor very large. *)
Definition ordinary (x : float) : Prop := number x /\ (B2R x = 0 \/ bpow radix2 (-500) <= Rabs (B2R x) <= bpow radix2 500).
Definition ordinary_point (a : dvec) : Prop := ordinary (d_x a) /\ ordinary (d_y a).

(** ** Lemmas *)
Lemma square_near x : ordinary x -> exists d, finite (fmul x x) /\ band (-1000) 1000 (val (fmul x x)) /\ Rabs d <= u /\
  val (fmul x x) = B2R x * B2R x * (1 + d) /\ 0 <= val (fmul x x).
Proof.
  intros [F B]. destruct (mul_near (-500) 500 (-500) 500 x x F F B B ltac:(lia) ltac:(lia)) as (F' & B' & d & D & E).
  exists d. do 4 (split; [assumption|]). rewrite E. unfold val. apply Rabs_le_inv in D. pose proof u_bounds. nra.
Qed.
Lemma band_sum p q : 0 <= p -> 0 <= q -> band (-1000) 1000 p -> band (-1000) 1000 q -> band (-1000) 1002 (p + q).
Proof.
  intros P Q A B. assert (E : bpow radix2 1002 = 4 * bpow radix2 1000) by (change 1002%Z with (2 + 1000)%Z; rewrite bpow_plus; reflexivity).
  pose proof (bpow_gt_0 radix2 (-1000)). pose proof (bpow_gt_0 radix2 1000).
  destruct A as [->|[A1 A2]], B as [->|[B1 B2]].
  - left. ring.
  - right. rewrite Rplus_0_l, E. lra.
  - right. rewrite Rplus_0_r, E. lra.
  - rewrite Rabs_pos_eq in * by assumption. right. rewrite Rabs_pos_eq, E by lra. lra.
Qed.
Lemma root_near x : finite x -> 0 <= val x -> band (-1000) 1002 (val x) -> finite (dbl_sqrt x) /\ exists d, Rabs d <= u /\ val (dbl_sqrt x) = sqrt (val x) * (1 + d).
Proof.
  intros F P B. destruct (@Bsqrt_correct 53 1024 prec_ok emax_ok mode_NE x) as (C1 & C2 & _).
  assert (S : forall k, sqrt (bpow radix2 (k + k)) = bpow radix2 k) by (intros k; rewrite bpow_plus; apply sqrt_square, bpow_ge_0).
  split.
  - unfold finite, dbl_sqrt in *. rewrite C2. clear C1 C2. destruct x as [s|s| |s mx ex H]; try discriminate; [reflexivity|].
    destruct s; [|reflexivity]. exfalso. cbn in P. assert (F2R (Float radix2 (Z.neg mx) ex) < 0) by (apply F2R_lt_0; reflexivity). lra.
  - unfold val, dbl_sqrt in *. rewrite C1. apply (band_round (-500) 501); try lia. destruct B as [->|[B1 B2]]; [left; apply sqrt_0|right].
    rewrite Rabs_pos_eq in * by (auto using sqrt_pos). change (-1000)%Z with (-500 + -500)%Z in B1. change 1002%Z with (501 + 501)%Z in B2.
    apply sqrt_le_1_alt in B1, B2. rewrite S in B1, B2. split; assumption.
Qed.

(** ** Lengths *)
(** A length is computed with a relative error of at most three units of rounding, whichever way the squares are summed. *)
Theorem C166_length_partial : forall fused a, ordinary_point a -> number (d_magnitude fused a) /\
  let r := sqrt (X a * X a + Y a * Y a) in Rabs (B2R (d_magnitude fused a) - r) <= 3 / 2 ^ 53 * r.
Proof.
  intros fused a [OX OY]. set (n := X a * X a + Y a * Y a). pose proof u_bounds as U.
  destruct (square_near _ OX) as (d1 & F1 & B1 & D1 & E1 & P1), (square_near _ OY) as (d2 & F2 & B2 & D2 & E2 & P2).
  pose proof OY as [FY BY].
  set (s := if fused then dbl_fma (d_y a) (d_y a) (fmul (d_x a) (d_x a)) else dbl_add (fmul (d_x a) (d_x a)) (fmul (d_y a) (d_y a))).
  assert (YY : band (-1000) 1000 (Y a * Y a)) by apply (band_mul (-500) 500 (-500) 500 _ _ BY BY).
  assert (N : 0 <= Y a * Y a) by nra. apply Rabs_le_inv in D1, D2.
  assert (S : finite s /\ exists m, val s = rnd m /\ band (-1000) 1002 m /\ 0 <= m /\ n * (1 - u) <= m <= n * (1 + u)).
  { unfold s. destruct fused.
    - assert (B : band (-1000) 1002 (Y a * Y a + val (fmul (d_x a) (d_x a)))) by (apply band_sum; assumption).
      pose proof (@Bfma_correct 53 1024 prec_ok emax_ok mode_NE _ _ _ FY FY F1) as C. cbv zeta in C.
      change (round radix2 fexp (round_mode mode_NE) (B2R (d_y a) * B2R (d_y a) + B2R (fmul (d_x a) (d_x a)))) with (rnd (Y a * Y a + val (fmul (d_x a) (d_x a)))) in C.
      destruct (band_round (-1000) 1002 _ ltac:(lia) ltac:(lia) B) as (B' & _).
      rewrite Rlt_bool_true in C by (apply (band_small (-1000) 1002); [lia|exact B']). destruct C as (C1 & C2 & _).
      split; [exact C2|]. eexists. split; [exact C1|]. split; [exact B|]. split; [lra|]. rewrite E1. unfold n. split; nra.
    - assert (B : band (-1000) 1002 (val (fmul (d_x a) (d_x a)) + val (fmul (d_y a) (d_y a)))) by (apply band_sum; assumption).
      pose proof (@Bplus_correct 53 1024 prec_ok emax_ok mode_NE _ _ F1 F2) as C.
      change (round radix2 fexp (round_mode mode_NE) (B2R (fmul (d_x a) (d_x a)) + B2R (fmul (d_y a) (d_y a)))) with (rnd (val (fmul (d_x a) (d_x a)) + val (fmul (d_y a) (d_y a)))) in C.
      destruct (band_round (-1000) 1002 _ ltac:(lia) ltac:(lia) B) as (B' & _).
      rewrite Rlt_bool_true in C by (apply (band_small (-1000) 1002); [lia|exact B']). destruct C as (C1 & C2 & _).
      split; [exact C2|]. eexists. split; [exact C1|]. split; [exact B|]. split; [lra|]. rewrite E1, E2. unfold n. split; nra. }
  destruct S as (FS & m & ES & BM & PM & NM). destruct (band_round (-1000) 1002 m ltac:(lia) ltac:(lia) BM) as (BS & d3 & D3 & E3).
  rewrite <- ES in BS, E3. apply Rabs_le_inv in D3. assert (PS : 0 <= val s) by (rewrite E3; nra).
  destruct (root_near s FS PS BS) as (FR & d4 & D4 & E4). apply Rabs_le_inv in D4.
  unfold d_magnitude. fold s. split; [exact FR|]. cbv zeta. fold n. set (r := sqrt n). change (B2R (dbl_sqrt s)) with (val (dbl_sqrt s)). rewrite E4.
  assert (R0 : 0 <= r) by apply sqrt_pos. assert (RR : r * r = n) by (apply sqrt_sqrt; unfold n; nra).
  destruct (root_between (val s) r R0) as [G1 G2].
  { rewrite RR, E3. assert (0 <= n) by (unfold n; nra). split.
    - apply Rle_trans with (n * (1 - u) * (1 + d3)); [|apply Rmult_le_compat_r; lra]. rewrite Rmult_assoc. apply Rmult_le_compat_l; [assumption|]. apply Rmult_le_compat_l; lra.
    - apply Rle_trans with (n * (1 + u) * (1 + d3)); [apply Rmult_le_compat_r; lra|]. rewrite Rmult_assoc. apply Rmult_le_compat_l; [assumption|]. apply Rmult_le_compat_l; lra. }
  replace (3 / 2 ^ 53) with (3 * u) by (unfold u; field). assert (SP := sqrt_pos (val s)). apply Rabs_le.
  assert (L1 : r * (1 - u) * (1 - u) <= sqrt (val s) * (1 + d4)) by (apply Rmult_le_compat; nra).
  assert (L2 : sqrt (val s) * (1 + d4) <= r * (1 + u) * (1 + u)) by (apply Rmult_le_compat; nra).
  split; nra.
Qed.
Print Assumptions C166_length_partial.
(** The length of a very small vector can be null: the square of 2^-600 is. *)
Definition tiny : float := fdiv one (of_int (2 ^ 600)).
Theorem C166_length_refuted : exists a, numbers a /\ X a <> 0 /\ forall fused, dbl_eq (d_magnitude fused a) zero = true.
Proof.
  exists (D tiny zero). unfold numbers, number. cbn [d_x d_y]. split; [split; vm_compute; reflexivity|].
  split; [|intros []; vm_compute; reflexivity]. intro E.
  assert (Q : dbl_eq tiny zero = true) by (apply eq_val; [vm_compute; reflexivity|reflexivity|exact E]). vm_compute in Q. discriminate.
Qed.
Print Assumptions C166_length_refuted.

(** ** Cross products *)
Theorem C166_cross_partial : forall a b, ordinary_point a -> ordinary_point b -> number (d_cross a b) /\
  Rabs (B2R (d_cross a b) - (X a * Y b - Y a * X b)) <= 3 / 2 ^ 53 * (Rabs (X a * Y b) + Rabs (Y a * X b)).
Proof.
  intros a b [[FXA BXA] [FYA BYA]] [[FXB BXB] [FYB BYB]]. pose proof u_bounds as U.
  destruct (mul_near (-500) 500 (-500) 500 _ _ FXA FYB BXA BYB ltac:(lia) ltac:(lia)) as (F1 & B1 & d1 & D1 & E1).
  destruct (mul_near (-500) 500 (-500) 500 _ _ FYA FXB BYA BXB ltac:(lia) ltac:(lia)) as (F2 & B2 & d2 & D2 & E2).
  assert (F : finite (d_cross a b)).
  { unfold d_cross, finite.
    pose proof (@Bminus_correct 53 1024 prec_ok emax_ok mode_NE _ _ F1 F2) as M.
    change (round radix2 fexp (round_mode mode_NE) (B2R (fmul (d_x a) (d_y b)) - B2R (fmul (d_y a) (d_x b)))) with (rnd (val (fmul (d_x a) (d_y b)) - val (fmul (d_y a) (d_x b)))) in M.
    rewrite Rlt_bool_true in M; [apply M|]. apply (round_small _ 1001); [lia|]. assert (P : bpow radix2 1001 = 2 * bpow radix2 1000) by (change 1001%Z with (1 + 1000)%Z; rewrite bpow_plus; reflexivity). rewrite P.
    pose proof (band_le _ _ _ B1 : _ <= bpow radix2 1000) as M1. pose proof (band_le _ _ _ B2 : _ <= bpow radix2 1000) as M2. unfold Rminus. apply Rle_trans with (1 := Rabs_triang _ _). rewrite Rabs_Ropp. lra. }
  split; [exact F|]. destruct (sub_near _ _ F1 F2 F) as (d3 & D3 & E3).
  change (B2R (d_cross a b)) with (val (dbl_sub (fmul (d_x a) (d_y b)) (fmul (d_y a) (d_x b)))). rewrite E3, E1, E2. unfold val.
  set (p := X a * Y b). set (q := Y a * X b). apply Rabs_le_inv in D1, D2, D3. replace (3 / 2 ^ 53) with (3 * u) by (unfold u; field).
  replace ((p * (1 + d1) - q * (1 + d2)) * (1 + d3) - (p - q)) with (p * (d1 + d3 + d1 * d3) + - (q * (d2 + d3 + d2 * d3))) by ring.
  assert (G : forall x y, - u <= x <= u -> - u <= y <= u -> Rabs (x + y + x * y) <= 3 * u) by (intros x y HX HY; apply Rabs_le; split; nra).
  apply Rle_trans with (1 := Rabs_triang _ _). rewrite Rabs_Ropp, !Rabs_mult. pose proof (G d1 d3 D1 D3). pose proof (G d2 d3 D2 D3).
  pose proof (Rabs_pos p). pose proof (Rabs_pos q). nra.
Qed.
Print Assumptions C166_cross_partial.

(** ** Points of a segment *)
(** Between its ends, a point of a segment is computed with an error of at most four units of rounding of the larger end. *)
Theorem C166_segment_partial : forall a b t, ordinary_point a -> ordinary_point b -> ordinary t -> 0 <= B2R t <= 1 -> numbers (d_interpolate a b t) /\
  Rabs (X (d_interpolate a b t) - ((1 - B2R t) * X a + B2R t * X b)) <= 4 / 2 ^ 53 * Rmax (Rabs (X a)) (Rabs (X b)) /\
  Rabs (Y (d_interpolate a b t) - ((1 - B2R t) * Y a + B2R t * Y b)) <= 4 / 2 ^ 53 * Rmax (Rabs (Y a)) (Rabs (Y b)).
Proof.
  intros a b t [OXA OYA] [OXB OYB] [FT BT] T. pose proof u_bounds as U. destruct one_val as (VO & FO & _).
  assert (FC : finite (dbl_sub one t)).
  { apply (add_bounded one t 0 FO FT); [rewrite VO, Rabs_R1; cbn; lra|unfold val; rewrite Rabs_pos_eq by lra; cbn; lra|lia]. }
  destruct (sub_near _ _ FO FT FC) as (d0 & D0 & E0). rewrite VO in E0. unfold val at 2 in E0.
  assert (BC : band (-53) 1 (val (dbl_sub one t))).
  { destruct (Req_dec (val (dbl_sub one t)) 0) as [Z|NZ]; [left; exact Z|right]. apply Rabs_le_inv in D0.
    assert (N : B2R t < 1). { destruct (Req_dec (B2R t) 1) as [Q|]; [|lra]. exfalso. apply NZ. rewrite E0, Q. ring. }
    assert (P : 0 < val (dbl_sub one t)) by (rewrite E0; nra). rewrite Rabs_pos_eq by lra. split.
    - assert (GT : B2R t <= 1 - bpow radix2 (-53)).
      { destruct (Rle_or_lt (B2R t) (/ 2)) as [H|H]; [apply Rle_trans with (1 := H); cbn; unfold Z.pow_pos; cbn; lra|].
        replace (1 - bpow radix2 (-53)) with (pred radix2 fexp 1).
        - apply pred_ge_gt; [auto with typeclass_instances|apply generic_format_B2R|apply (power_format 0); lia|exact N].
        - change 1 with (bpow radix2 0) at 1. rewrite pred_bpow by auto with typeclass_instances. reflexivity. }
      assert (M : rnd (1 - B2R t) >= bpow radix2 (-53)).
      { apply Rle_ge. apply round_ge_generic; [auto with typeclass_instances|auto with typeclass_instances|apply power_format; lia|lra]. }
      rewrite (sub_finite _ _ FO FT FC), VO. unfold val. apply Rge_le. exact M.
    - rewrite E0. cbn. nra. }
  assert (G : forall x y, ordinary x -> ordinary y -> let f := dbl_add (fmul (dbl_sub one t) x) (fmul t y) in finite f /\
    Rabs (B2R f - ((1 - B2R t) * B2R x + B2R t * B2R y)) <= 4 / 2 ^ 53 * Rmax (Rabs (B2R x)) (Rabs (B2R y))).
  { intros x y [FX BX] [FY BY] f.
    destruct (mul_near (-53) 1 (-500) 500 _ x FC FX BC BX ltac:(lia) ltac:(lia)) as (F1 & B1 & d1 & D1 & E1).
    destruct (mul_near (-500) 500 (-500) 500 t y FT FY BT BY ltac:(lia) ltac:(lia)) as (F2 & B2 & d2 & D2 & E2).
    assert (T2 : Rabs (val (fmul t y)) <= bpow radix2 501).
    { rewrite E2. unfold val. rewrite !Rabs_mult. apply band_le in BY. apply Rabs_le_inv in D2. rewrite (Rabs_pos_eq (B2R t)), (Rabs_pos_eq (1 + d2)) by lra.
      change 501%Z with (1 + 500)%Z. rewrite bpow_plus. change (bpow radix2 1) with 2. pose proof (Rabs_pos (B2R y)).
      apply Rle_trans with (1 * Rabs (B2R y) * 2); [apply Rmult_le_compat; nra|]. unfold val in *. nra. }
    assert (FF : finite f). { apply (add_bounded _ _ 501 F1 F2); [exact (band_le _ _ _ B1)|exact T2|lia]. }
    split; [exact FF|]. destruct (add_near _ _ F1 F2 FF) as (d3 & D3 & E3). change (B2R f) with (val f). unfold f. rewrite E3, E1, E2, E0. unfold val.
    replace (4 / 2 ^ 53) with (4 * u) by (unfold u; field). set (k := B2R t) in *. set (r := B2R x). set (s := B2R y).
    apply Rabs_le_inv in D0, D1, D2, D3.
    assert (K1 : Rabs ((1 + d0) * (1 + d1) * (1 + d3) - 1) <= 4 * u).
    { apply Rabs_le. assert (- (3 * u) <= d0 + d1 + d0 * d1 <= 3 * u - u / 2) by (split; nra). split; nra. }
    assert (K2 : Rabs ((1 + d2) * (1 + d3) - 1) <= 4 * u) by (apply Rabs_le; split; nra).
    replace (((1 - k) * (1 + d0) * r * (1 + d1) + k * s * (1 + d2)) * (1 + d3) - ((1 - k) * r + k * s)) with
      ((1 - k) * (r * ((1 + d0) * (1 + d1) * (1 + d3) - 1)) + k * (s * ((1 + d2) * (1 + d3) - 1))) by ring.
    apply Rle_trans with (1 := Rabs_triang _ _). rewrite !Rabs_mult, (Rabs_pos_eq (1 - k)), (Rabs_pos_eq k) by lra.
    set (M := Rmax (Rabs r) (Rabs s)). assert (M1 : Rabs r <= M) by apply Rmax_l. assert (M2 : Rabs s <= M) by apply Rmax_r.
    pose proof (Rabs_pos r). pose proof (Rabs_pos s).
    assert (J1 : Rabs r * Rabs ((1 + d0) * (1 + d1) * (1 + d3) - 1) <= M * (4 * u)) by (apply Rmult_le_compat; auto using Rabs_pos).
    assert (J2 : Rabs s * Rabs ((1 + d2) * (1 + d3) - 1) <= M * (4 * u)) by (apply Rmult_le_compat; auto using Rabs_pos).
    nra. }
  destruct (G _ _ OXA OXB) as [G1 G2], (G _ _ OYA OYB) as [G3 G4]. split; [split; assumption|]. split; assumption.
Qed.
Print Assumptions C166_segment_partial.

(** ** A test of side which is safe *)
(** When the computed value is larger than the error, the side is the right one. *)
Theorem C166_side_partial : forall a b p, ordinary_point (d_sub b a) -> ordinary_point (d_sub p a) ->
  is_at (d_sub b a) (X b - X a) (Y b - Y a) -> is_at (d_sub p a) (X p - X a) (Y p - Y a) ->
  let k := (X b - X a) * (Y p - Y a) in let l := (Y b - Y a) * (X p - X a) in
  3 / 2 ^ 53 * (Rabs k + Rabs l) < Rabs (k - l) ->
  (d_left_of a b p = true <-> 0 < k - l) /\ (d_right_of a b p = true <-> k - l < 0).
Proof.
  intros a b p OV OW (_ & VX & VY) (_ & WX & WY) k l L. destruct (C166_cross_partial _ _ OV OW) as (F & E).
  rewrite VX, VY, WX, WY in E. fold k l in E. apply Rabs_le_inv in E.
  unfold d_left_of, d_right_of, d_side_of, dbl_lt. rewrite !Bltb_correct by (assumption || reflexivity). change (B2R zero) with 0.
  set (c := B2R (d_cross (d_sub b a) (d_sub p a))) in *. unfold Rabs at 3 in L.
  destruct (Rcase_abs (k - l)); split; destruct (Rlt_bool_spec 0 c), (Rlt_bool_spec c 0); split; intro; try reflexivity; try discriminate; try lra.
Qed.
Print Assumptions C166_side_partial.

Example C166_case : ordinary_point (D (tenths 1) three) /\ ordinary (tenths 3) /\ 0 <= B2R (tenths 3) <= 1.
Proof.
  assert (P1 : bpow radix2 (-500) <= bpow radix2 (-10)) by (apply bpow_le; lia). assert (P2 : bpow radix2 10 <= bpow radix2 500) by (apply bpow_le; lia).
  assert (Q1 : bpow radix2 (-10) = / 1024) by (cbn; unfold Z.pow_pos; cbn; lra). assert (Q2 : bpow radix2 10 = 1024) by (cbn; lra). rewrite Q1 in P1. rewrite Q2 in P2.
  assert (V : (/ 11 < B2R (tenths 1) < 1 / 9) /\ (/ 4 < B2R (tenths 3) < / 3) /\ B2R three = 3) by (vm_compute; repeat split; lra).
  destruct V as (V1 & V2 & V3). unfold ordinary_point, ordinary, number. cbn [d_x d_y].
  repeat split; try (vm_compute; reflexivity); try lra; right; rewrite Rabs_pos_eq by lra; lra.
Qed.
