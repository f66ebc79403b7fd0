(** C165: the decisions of the geometry engine in double precision. *)
From Coq Require Import Reals Lra Lia List Bool ZArith.
From Flocq Require Import Core BinarySingleNaN.
From Verif Require Import Base ModelVector ProofVector ModelLine ModelColor ModelDouble ModelDecide ProofDouble PropDouble ProofGrid PropGrid.
Import ListNotations.
Local Open Scope R_scope.

(** ** What is expected *)
(** Twice the signed area of the triangle of three points: positive when the third one is on the left of the line from the first to the
    second. *)
Definition determinant (a b p : dvec) : R := (X b - X a) * (Y p - Y a) - (Y b - Y a) * (X p - X a).
(** The point of the model with real numbers. *)
Definition as_point (a : dvec) : vec := V (X a) (Y a).
(** A decimal drawing in any unit up to about eight million steps of the grid. *)
Definition drawn_on (e : Z) (a : dvec) : Prop := grid_point e (2 ^ 23) a.
Definition step_range (e : Z) : Prop := (-200 <= e <= 200)%Z.

(** ** Lemmas *)
Ltac step_ranges := unfold in_range, step_range in *; split; lia.
Lemma lt_exact x y : number x -> number y -> dbl_lt x y = Rltb (B2R x) (B2R y).
Proof.
  intros FX FY. unfold dbl_lt. rewrite Bltb_correct by assumption. destruct (Rltb_spec (B2R x) (B2R y)) as [L|L]; [apply Rlt_bool_true|apply Rlt_bool_false]; lra.
Qed.
Lemma le_exact x y : number x -> number y -> dbl_le x y = Rleb (B2R x) (B2R y).
Proof.
  intros FX FY. unfold dbl_le. rewrite Bleb_correct by assumption. destruct (Rleb_spec (B2R x) (B2R y)) as [L|L]; [apply Rle_bool_true|apply Rle_bool_false]; lra.
Qed.
Lemma zero_number : number zero /\ B2R zero = 0.
Proof. split; reflexivity. Qed.
Lemma delta_exact e x y : step_range e -> grid_number e (2 ^ 23) x -> grid_number e (2 ^ 23) y -> exactly (dbl_sub y x) (B2R y - B2R x) e (2 ^ 24).
Proof.
  intros U EX EY. apply grid_exact in EX, EY. apply (exact_as _ (B2R y - B2R x) _ e e (2 ^ 23 + 2 ^ 23)); auto; [lia|].
  apply exact_sub; auto; step_ranges.
Qed.
Lemma mul24 e x y r s : step_range e -> exactly x r e (2 ^ 24) -> exactly y s e (2 ^ 24) -> exactly (fmul x y) (r * s) (e + e) (2 ^ 48).
Proof.
  intros U EX EY. apply (exact_as _ (r * s) _ (e + e) (e + e) (2 ^ 24 * 2 ^ 24)); auto; [lia|]. apply exact_mul; auto; step_ranges.
Qed.
Lemma side_exact e a b p : step_range e -> drawn_on e a -> drawn_on e b -> drawn_on e p -> exactly (d_side_of a b p) (determinant a b p) (e + e) (2 ^ 49).
Proof.
  intros U [A1 A2] [B1 B2] [P1 P2]. unfold d_side_of, d_cross, d_sub. cbn [d_x d_y]. unfold determinant.
  apply (exact_as _ ((X b - X a) * (Y p - Y a) - (Y b - Y a) * (X p - X a)) _ (e + e) (e + e) (2 ^ 48 + 2 ^ 48)); auto; [lia|].
  apply exact_sub; [apply mul24; auto using delta_exact|apply mul24; auto using delta_exact|step_ranges].
Qed.
Lemma mul_sign e x y r s : (-400 <= e <= 400)%Z -> exactly x r e (2 ^ 49) -> exactly y s e (2 ^ 49) ->
  number (fmul x y) /\ (0 <= B2R (fmul x y) <-> 0 <= r * s).
Proof.
  intros U (FX & VX & ZX) (FY & VY & ZY). destruct (product_grid _ _ _ _ _ _ ZX ZY) as (z & E & B).
  pose proof (@Bmult_correct 53 1024 prec_ok emax_ok mode_NE x y) as C. unfold val in VX, VY. rewrite VX, VY in C.
  change (round radix2 fexp (round_mode mode_NE) (r * s)) with (rnd (r * s)) in C.
  assert (GB : forall k, (-1074 <= k)%Z -> generic_format radix2 fexp (bpow radix2 k)).
  { intros k K. apply (generic_format_FLT radix2 (-1074) 53). exists (Float radix2 1 k); [unfold F2R; cbn; ring|cbn; lia|cbn; lia]. }
  assert (BD : Rabs (rnd (r * s)) <= bpow radix2 900).
  { apply abs_round_le_generic; [auto with typeclass_instances|auto with typeclass_instances|apply GB; lia|]. rewrite E, Rabs_mult, (Rabs_pos_eq (bpow _ _)), <- abs_IZR by apply bpow_ge_0.
    apply Rle_trans with (bpow radix2 98 * bpow radix2 (e + e)).
    - apply Rmult_le_compat_r; [apply bpow_ge_0|]. change (bpow radix2 98) with (IZR (2 ^ 98)). apply IZR_le. lia.
    - rewrite <- bpow_plus. apply bpow_le. lia. }
  rewrite Rlt_bool_true in C by (apply Rle_lt_trans with (1 := BD); apply bpow_lt; lia). destruct C as (C1 & C2 & _). rewrite FX, FY in C2.
  split; [exact C2|]. unfold fmul. rewrite C1. split.
  - intro P. destruct (Rle_or_lt 0 (r * s)) as [L|L]; [exact L|exfalso].
    assert (zN : (z < 0)%Z). { apply lt_IZR. rewrite E in L. pose proof (bpow_gt_0 radix2 (e + e)). nra. }
    assert (zM : (z <= -1)%Z) by lia.
    assert (M : rnd (r * s) <= - bpow radix2 (e + e)).
    { apply round_le_generic; [auto with typeclass_instances|auto with typeclass_instances|apply generic_format_opp, GB; lia|]. rewrite E.
      apply IZR_le in zM. pose proof (bpow_gt_0 radix2 (e + e)). nra. }
    pose proof (bpow_gt_0 radix2 (e + e)). lra.
  - intro P. rewrite <- rnd_0. apply round_le; auto with typeclass_instances.
Qed.

(** ** Sides of a line *)
(** On a grid, the three answers are those of the exact determinant. *)
Theorem C165_sides : forall e a b p, step_range e -> drawn_on e a -> drawn_on e b -> drawn_on e p ->
  (d_left_of a b p = true <-> 0 < determinant a b p) /\ (d_right_of a b p = true <-> determinant a b p < 0) /\
  (d_is_collinear a b p = true <-> determinant a b p = 0).
Proof.
  intros e a b p U A B P. destruct (exact_at _ _ _ _ (side_exact e a b p U A B P)) as [F E]. destruct zero_number as [ZF ZE].
  unfold d_left_of, d_right_of, d_is_collinear. rewrite !lt_exact, ZE, E by assumption.
  rewrite (eq_val _ _ F ZF). unfold val. rewrite ZE, E.
  split; [destruct (Rltb_spec 0 (determinant a b p)); split; intro; congruence || lra|].
  split; [destruct (Rltb_spec (determinant a b p) 0); split; intro; congruence || lra|]. reflexivity.
Qed.
Print Assumptions C165_sides.
(** So are the turns of the convex hull. *)
Theorem C165_turns : forall e a b p, step_range e -> drawn_on e a -> drawn_on e b -> drawn_on e p ->
  (d_is_ccw a b p = true <-> 0 < determinant a b p) /\ (d_is_cw a b p = true <-> determinant a b p < 0) /\
  (d_is_aligned a b p = true <-> determinant a b p = 0).
Proof. exact C165_sides. Qed.
Print Assumptions C165_turns.
(** The ends of a segment are on its line, wherever they are, unless the vector between them or its products are too large. *)
Theorem C165_ends_partial : forall a b, numbers a -> numbers b -> numbers (d_sub b a) -> number (fmul (d_x (d_sub b a)) (d_y (d_sub b a))) ->
  d_is_collinear a b a = true /\ d_is_collinear a b b = true.
Proof.
  intros a b A B V P. destruct zero_number as [ZF ZE]. unfold d_is_collinear, d_side_of. split.
  - pose proof (C160_sub_self a A) as ((N1 & N2) & N3 & N4). set (o := d_sub a a) in *. set (v := d_sub b a) in *. destruct V as [V1 V2].
    assert (M : forall x y, number x -> number y -> B2R y = 0 -> number (fmul x y) /\ B2R (fmul x y) = 0).
    { intros x y FX FY E. unfold number in *. destruct y as [s| | |s m k H]; try discriminate; [destruct x; try discriminate; split; reflexivity|].
      exfalso. cbn in E. apply eq_0_F2R in E. destruct s; discriminate. }
    destruct (M _ _ V1 N2 N4) as [M1 M2], (M _ _ V2 N1 N3) as [M3 M4]. unfold d_cross.
    pose proof (@Bminus_correct 53 1024 prec_ok emax_ok mode_NE _ _ M1 M3) as C. rewrite M2, M4, Rminus_0_r in C.
    change (round radix2 fexp (round_mode mode_NE) 0) with (rnd 0) in C. rewrite rnd_0, Rabs_R0, Rlt_bool_true in C by apply bpow_gt_0.
    destruct C as (C1 & C2 & _). apply eq_val; [exact C2|exact ZF|]. unfold val. rewrite ZE. exact C1.
  - destruct (C160_cross_self_partial (d_sub b a) P) as [F E]. apply eq_val; [exact F|exact ZF|]. unfold val. rewrite ZE. exact E.
Qed.
Print Assumptions C165_ends_partial.
(** When the differences of the coordinates are exact, a point is never said to be on the left when it is on the right, nor the converse. *)
Theorem C165_never_opposite_partial : forall a b p, numbers (d_sub b a) -> numbers (d_sub p a) ->
  is_at (d_sub b a) (X b - X a) (Y b - Y a) -> is_at (d_sub p a) (X p - X a) (Y p - Y a) -> number (d_side_of a b p) ->
  (d_left_of a b p = true -> 0 < determinant a b p) /\ (d_right_of a b p = true -> determinant a b p < 0).
Proof.
  intros a b p [V1 V2] [W1 W2] (_ & VX & VY) (_ & WX & WY) F. destruct zero_number as [ZF ZE].
  unfold d_left_of, d_right_of. rewrite !lt_exact, ZE by assumption. unfold d_side_of, d_cross in *.
  set (v := d_sub b a) in *. set (w := d_sub p a) in *.
  assert (N : forall x y, number x -> number y -> is_nan (fmul x y) = false).
  { intros x y FX FY. unfold fmul. pose proof (@Bmult_correct 53 1024 prec_ok emax_ok mode_NE x y) as C. destruct (Rlt_bool _ _).
    - destruct C as (_ & C & _). apply finite_nan. rewrite C, FX, FY. reflexivity.
    - rewrite overflow_inf in C. destruct (Bmult _ _ _); cbn in *; congruence. }
  assert (P : number (fmul (d_x v) (d_y w)) /\ number (fmul (d_y v) (d_x w))).
  { unfold dbl_sub, number in *. destruct (fmul (d_x v) (d_y w)) as [s1|s1| |s1 m1 k1 H1], (fmul (d_y v) (d_x w)) as [s2|s2| |s2 m2 k2 H2]; cbn in F |- *;
      auto; try discriminate; try (destruct s1, s2; discriminate). }
  destruct P as [P1 P2]. pose proof (sub_finite _ _ P1 P2 F) as E. unfold val in E. rewrite E.
  destruct (mul_finite _ _ P1) as (E1 & _), (mul_finite _ _ P2) as (E2 & _). unfold val in E1, E2.
  rewrite VX, WY in E1. rewrite VY, WX in E2. set (q1 := (X b - X a) * (Y p - Y a)) in *. set (q2 := (Y b - Y a) * (X p - X a)) in *.
  assert (Mono : forall x y, x <= y -> rnd x <= rnd y) by (intros x y L; apply round_le; auto with typeclass_instances).
  unfold determinant. fold q1 q2. rewrite E1, E2. split; intro L.
  - destruct (Rltb_spec 0 (rnd (rnd q1 - rnd q2))) as [L'|]; [|discriminate]. destruct (Rle_or_lt q1 q2) as [G|]; [exfalso|lra].
    apply Mono in G. assert (rnd (rnd q1 - rnd q2) <= rnd 0) by (apply Mono; lra). rewrite rnd_0 in *. lra.
  - destruct (Rltb_spec (rnd (rnd q1 - rnd q2)) 0) as [L'|]; [|discriminate]. destruct (Rle_or_lt q2 q1) as [G|]; [exfalso|lra].
    apply Mono in G. assert (rnd 0 <= rnd (rnd q1 - rnd q2)) by (apply Mono; lra). rewrite rnd_0 in *. lra.
Qed.
Print Assumptions C165_never_opposite_partial.
(** Off the grid a point which is not on the line can be said to be: the points 0, (1 + 2^-52, 1) and (1, 1 - 2^-53). *)
Definition above_one : float := dbl_add one (fdiv one (of_int (2 ^ 52))).
Definition below_one : float := dbl_sub one (fdiv one (of_int (2 ^ 53))).
Theorem C165_collinear_refuted : exists a b p, numbers a /\ numbers b /\ numbers p /\ d_is_collinear a b p = true /\ 0 < determinant a b p.
Proof.
  exists (D zero zero), (D above_one one), (D one below_one). unfold numbers, number, determinant. cbn [d_x d_y].
  assert (A : B2R above_one = 1 + / 2 ^ 52) by (vm_compute; lra). assert (B : B2R below_one = 1 - / 2 ^ 53) by (vm_compute; lra).
  assert (O : B2R one = 1) by (vm_compute; lra). assert (Z : B2R zero = 0) by reflexivity. rewrite A, B, O, Z.
  repeat split; try (vm_compute; reflexivity). field_simplify. lra.
Qed.
Print Assumptions C165_collinear_refuted.

(** ** Orientation of a triangle, crossing of segments, points of a triangle *)
Theorem C165_orientation : forall e a b c, step_range e -> drawn_on e a -> drawn_on e b -> drawn_on e c ->
  d_triangle_orientation a b c = triangle_orientation (as_point a) (as_point b) (as_point c).
Proof.
  intros e a b c U [A1 A2] [B1 B2] [C1 C2]. unfold d_triangle_orientation, triangle_orientation, as_point. cbn [vx vy].
  pose proof (delta_exact e _ _ U A1 B1) as X1. pose proof (delta_exact e _ _ U A2 B2) as Y1.
  pose proof (delta_exact e _ _ U A1 C1) as X2. pose proof (delta_exact e _ _ U A2 C2) as Y2.
  set (dx1 := dbl_sub (d_x b) (d_x a)) in *. set (dy1 := dbl_sub (d_y b) (d_y a)) in *. set (dx2 := dbl_sub (d_x c) (d_x a)) in *. set (dy2 := dbl_sub (d_y c) (d_y a)) in *.
  set (x1 := X b - X a) in *. set (y1 := Y b - Y a) in *. set (x2 := X c - X a) in *. set (y2 := Y c - Y a) in *.
  assert (S : forall x y r s, exactly x r (e + e) (2 ^ 48) -> exactly y s (e + e) (2 ^ 48) -> exactly (dbl_add x y) (r + s) (e + e) (2 ^ 48 + 2 ^ 48)).
  { intros. apply exact_add; auto; step_ranges. }
  destruct (exact_at _ _ _ _ (mul24 e _ _ _ _ U X2 Y1)) as [F1 E1], (exact_at _ _ _ _ (mul24 e _ _ _ _ U X1 Y2)) as [F2 E2].
  destruct (exact_at _ _ _ _ (mul24 e _ _ _ _ U X1 X2)) as [F3 E3], (exact_at _ _ _ _ (mul24 e _ _ _ _ U Y1 Y2)) as [F4 E4].
  destruct (exact_at _ _ _ _ (S _ _ _ _ (mul24 e _ _ _ _ U X2 X2) (mul24 e _ _ _ _ U Y2 Y2))) as [F5 E5].
  destruct (exact_at _ _ _ _ (S _ _ _ _ (mul24 e _ _ _ _ U X1 X1) (mul24 e _ _ _ _ U Y1 Y1))) as [F6 E6].
  destruct zero_number as [ZF ZE]. rewrite !lt_exact, le_exact by assumption. rewrite E1, E2, E3, E4, E5, E6, ZE. reflexivity.
Qed.
Print Assumptions C165_orientation.
Theorem C165_crossing : forall e a b c d, step_range e -> drawn_on e a -> drawn_on e b -> drawn_on e c -> drawn_on e d ->
  d_intersect_with a b c d = intersect_with (Seg (as_point a) (as_point b)) (Seg (as_point c) (as_point d)).
Proof.
  intros e a b c d U A B C E. unfold d_intersect_with, intersect_with. cbn [s_p0 s_p1]. rewrite !(C165_orientation e) by assumption. reflexivity.
Qed.
Print Assumptions C165_crossing.
(** Two points are on the same side of a line when the determinants do not have opposite signs. *)
Theorem C165_same_side : forall e a b p q, step_range e -> drawn_on e a -> drawn_on e b -> drawn_on e p -> drawn_on e q ->
  (d_same_side p q a b = true <-> 0 <= determinant a b p * determinant a b q).
Proof.
  intros e a b p q U A B P Q. unfold d_same_side. fold (d_side_of a b p). fold (d_side_of a b q).
  destruct (mul_sign (e + e) _ _ _ _ ltac:(unfold step_range in U; lia) (side_exact e a b p U A B P) (side_exact e a b q U A B Q)) as [F E].
  destruct zero_number as [ZF ZE]. rewrite le_exact, ZE by assumption. rewrite <- E. destruct (Rleb_spec 0 (B2R (fmul (d_side_of a b p) (d_side_of a b q)))); split; intro; congruence || lra.
Qed.
Print Assumptions C165_same_side.
(** A point of a triangle which is not flat: its determinants with the edges all have the sign of the triangle. *)
Theorem C165_inside : forall e a b c p, step_range e -> drawn_on e a -> drawn_on e b -> drawn_on e c -> drawn_on e p -> 0 < determinant a b c ->
  (d_inside a b c p = true <-> 0 <= determinant a b p /\ 0 <= determinant b c p /\ 0 <= determinant c a p).
Proof.
  intros e a b c p U A B C P T. unfold d_inside. rewrite !andb_true_iff, !(C165_same_side e) by assumption.
  assert (E1 : determinant b c a = determinant a b c) by (unfold determinant; ring).
  assert (E2 : determinant a c b = - determinant a b c) by (unfold determinant; ring).
  assert (E3 : determinant a c p = - determinant c a p) by (unfold determinant; ring).
  rewrite E1, E2, E3. set (k := determinant a b c) in *. split.
  - intros (H1 & H2 & H3). repeat split; nra.
  - intros (H1 & H2 & H3). repeat split; nra.
Qed.
Print Assumptions C165_inside.

Example C165_case : drawn_on 0 (D three (of_int 4)) /\ step_range 0 /\ d_left_of (D zero zero) (D three (of_int 4)) (D zero one) = true /\
  d_inside (D zero zero) (D (of_int 4) zero) (D zero (of_int 4)) (D one one) = true /\
  d_intersect_with (D zero zero) (D two two) (D zero two) (D two zero) = true.
Proof.
  assert (F : forall z, (Z.abs z <= 2 ^ 23)%Z -> number (of_int z) -> B2R (of_int z) = IZR z -> grid_number 0 (2 ^ 23) (of_int z)).
  { intros z B N E. split; [exact N|]. exists z. split; [rewrite E; cbn; ring|exact B]. }
  split; [split; apply F; try lia; unfold number; vm_compute; repeat split; lra|]. split; [unfold step_range; lia|]. repeat split; vm_compute; reflexivity.
Qed.
