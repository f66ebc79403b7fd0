(** C177: the accuracy of transformations and of their products in double precision. *)
From Coq Require Import Reals Lra Lia List Bool ZArith.
From Flocq Require Import Core Relative BinarySingleNaN.
From Verif Require Import Base ModelColor ModelDouble ModelDoubleCompose ProofDouble PropDouble ProofAccuracy PropAccuracy ProofCurveAccuracy PropCurveAccuracy ProofArea PropArea ProofRotation PropRotation ProofIntersection.
Import ListNotations.
Local Open Scope R_scope.

(** ** What is expected *)
Definition image_x (t : dmat) (x y : R) : R := B2R (dm00 t) * x + B2R (dm01 t) * y + B2R (dm02 t).
Definition image_y (t : dmat) (x y : R) : R := B2R (dm10 t) * x + B2R (dm11 t) * y + B2R (dm12 t).
(** A transformation which does not enlarge: coefficients at most one, translation at most s. *)
Definition coefficient (x : float) : Prop := number x /\ Rabs (B2R x) <= 1.
Definition moderate (s : R) (t : dmat) : Prop :=
  (coefficient (dm00 t) /\ coefficient (dm01 t) /\ radius_of s (dm02 t)) /\ (coefficient (dm10 t) /\ coefficient (dm11 t) /\ radius_of s (dm12 t)).

(** ** Lemmas *)
Lemma times_one x : finite x -> finite (fmul x one) /\ val (fmul x one) = val x.
Proof.
  intros F. destruct one_val as (VO & FO & _). pose proof (@Bmult_correct 53 1024 prec_ok emax_ok mode_NE x one) as C. fold (val x) (val one) in C. rewrite VO, Rmult_1_r in C.
  change (round radix2 (SpecFloat.fexp 53 1024) (round_mode mode_NE) (val x)) with (rnd (val x)) in C. rewrite rnd_val in C. rewrite Rlt_bool_true in C by apply val_small. destruct C as (C1 & C2 & _).
  split; [unfold finite, fmul; rewrite C2; unfold finite in F, FO; rewrite F, FO; reflexivity|exact C1].
Qed.
Lemma times_zero x : finite x -> finite (fmul x zero) /\ val (fmul x zero) = 0.
Proof. intros F. destruct x as [s|s| |s m e H]; try discriminate F; split; reflexivity. Qed.
Lemma number_within s x : radius_of s x -> within s x (B2R x) 0 1.
Proof. intros (F & B). apply within_self; assumption. Qed.
Lemma coefficient_within x : coefficient x -> within 1 x (B2R x) 0 1.
Proof. intros (F & B). apply within_self; assumption. Qed.
Lemma le_product S p q b c : 0 <= b -> 0 <= c -> 0 <= S -> Rabs p <= b -> Rabs q <= c * S -> Rabs (p * q) <= b * c * S.
Proof. intros B C S0 P Q. rewrite Rabs_mult, (Rmult_assoc b c S). apply Rmult_le_compat; auto using Rabs_pos. Qed.
(** Two products and a third term. *)
Lemma two_products S x p e b y q f c x' p' y' q' : scale S -> 0 <= e <= 40 -> 0 <= f <= 40 -> 0 <= b <= 10 -> 0 <= c <= 10 ->
  within 1 x p e b -> within S y q f c -> within 1 x' p' e b -> within S y' q' f c ->
  within S (dbl_add (fmul x y) (fmul x' y')) (p * q + p' * q') (2 * (e * c + b * f + b * c) + 2 * (b * c) + / 10) (2 * (b * c)).
Proof.
  intros SS E F B C WX WY WX' WY'. pose proof (scale_pos S SS) as P. assert (BC : 0 <= b * c <= 100) by (split; nra). assert (EC : 0 <= e * c <= 400) by (split; nra). assert (BF : 0 <= b * f <= 400) by (split; nra).
  assert (G : forall x p y q, within 1 x p e b -> within S y q f c -> Rabs (p * q) <= b * c * S /\ within S (fmul x y) (p * q) (e * c + b * f + b * c + / 50) (b * c)).
  { intros x0 p0 y0 q0 W V. assert (L : Rabs (p0 * q0) <= b * c * S) by (destruct W as (_ & _ & W), V as (_ & _ & V); rewrite Rmult_1_r in W; apply le_product; lra).
    split; [exact L|]. apply mul_within; auto; lra. }
  destruct (G _ _ _ _ WX WY) as (L1 & G1). destruct (G _ _ _ _ WX' WY') as (L2 & G2). assert (T : Rabs (p * q + p' * q') <= 2 * (b * c) * S) by (apply Rle_trans with (1 := Rabs_triang _ _); lra).
  assert (W : within S (dbl_add (fmul x y) (fmul x' y')) (p * q + p' * q') ((e * c + b * f + b * c + / 50) + (e * c + b * f + b * c + / 50) + 2 * (b * c) + / 100) (2 * (b * c))).
  { apply (add_within S _ _ _ (b * c) _ _ _ (b * c)); auto; lra. }
  apply (within_le _ _ _ _ _ (2 * (e * c + b * f + b * c) + 2 * (b * c) + / 10) (2 * (b * c)) SS) in W; [exact W|lra|lra].
Qed.
Lemma third_term S x p e b z r f c k : scale S -> 0 <= e <= 500 -> 0 <= f <= 50 -> 0 <= b <= 100 -> 0 <= c <= 10 -> within S x p e b -> within S z r f c -> e + f + b + c + / 100 <= k -> within S (dbl_add x z) (p + r) k (b + c).
Proof.
  intros SS E F B C WX WZ K. assert (L : Rabs (p + r) <= (b + c) * S) by (destruct WX as (_ & _ & W), WZ as (_ & _ & V); apply Rle_trans with (1 := Rabs_triang _ _); lra).
  pose proof (add_within S x p e b z r f c (b + c) SS ltac:(lra) ltac:(lra) ltac:(lra) WX WZ L) as M. apply (within_le _ _ _ _ _ k (b + c) SS) in M; [exact M|lra|lra].
Qed.
Lemma one_within S z r f c : within S z r f c -> within S (fmul z one) r f c.
Proof. intros (F & A & B). destruct (times_one z F) as (F1 & V1). split; [exact F1|]. rewrite V1. split; assumption. Qed.
Lemma zero_within S z : finite z -> 0 < S -> within S (fmul z zero) 0 0 0.
Proof. intros F P. destruct (times_zero z F) as (F1 & V1). split; [exact F1|]. rewrite V1, Rminus_0_r, Rabs_R0. lra. Qed.
(** One row applied to a point which is known up to an error. *)
Lemma row_within s m0 m1 m2 p0 p1 p2 e b g h w x y f c k : scale s -> 0 <= e <= 20 -> 0 <= b <= 3 -> 0 <= g <= 20 -> 0 <= h <= 3 -> 0 <= f <= 20 -> 0 <= c <= 3 ->
  within 1 m0 p0 e b -> within 1 m1 p1 e b -> within s m2 p2 g h -> within s (d_x w) x f c -> within s (d_y w) y f c ->
  2 * (e * c + b * f + b * c) + 4 * (b * c) + / 5 + g + h <= k -> within s (d_row m0 m1 m2 w) (p0 * x + p1 * y + p2) k (2 * (b * c) + h).
Proof.
  intros SS E B G H F C W0 W1 W2 WX WY K. pose proof (two_products s _ _ e b _ _ f c _ _ _ _ SS ltac:(lra) ltac:(lra) ltac:(lra) ltac:(lra) W0 WX W1 WY) as T.
  assert (BC : 0 <= b * c <= 9) by (split; nra). assert (EC : 0 <= e * c <= 60) by (split; nra). assert (BF : 0 <= b * f <= 60) by (split; nra).
  apply (third_term s _ _ (2 * (e * c + b * f + b * c) + 2 * (b * c) + / 10) (2 * (b * c)) _ _ g h k SS); try lra; [exact T|apply one_within, W2].
Qed.
Lemma row_of_compose s a b : size s -> moderate s a -> moderate s b ->
  let c := d_compose a b in
  (within 1 (dm00 c) (B2R (dm00 a) * B2R (dm00 b) + B2R (dm01 a) * B2R (dm10 b)) 6.2 2 /\ within 1 (dm01 c) (B2R (dm00 a) * B2R (dm01 b) + B2R (dm01 a) * B2R (dm11 b)) 6.2 2 /\
   within s (dm02 c) (B2R (dm00 a) * B2R (dm02 b) + B2R (dm01 a) * B2R (dm12 b) + B2R (dm02 a)) 7.2 3) /\
  (within 1 (dm10 c) (B2R (dm10 a) * B2R (dm00 b) + B2R (dm11 a) * B2R (dm10 b)) 6.2 2 /\ within 1 (dm11 c) (B2R (dm10 a) * B2R (dm01 b) + B2R (dm11 a) * B2R (dm11 b)) 6.2 2 /\
   within s (dm12 c) (B2R (dm10 a) * B2R (dm02 b) + B2R (dm11 a) * B2R (dm12 b) + B2R (dm12 a)) 7.2 3).
Proof.
  intros SS ((A00 & A01 & A02) & (A10 & A11 & A12)) ((B00 & B01 & B02) & (B10 & B11 & B12)) c.
  assert (LIN : forall a0 a1 a2 b0 b1, coefficient a0 -> coefficient a1 -> number a2 -> coefficient b0 -> coefficient b1 -> within 1 (d_term a0 a1 a2 b0 b1 zero) (B2R a0 * B2R b0 + B2R a1 * B2R b1) 6.2 2).
  { intros a0 a1 a2 b0 b1 H0 H1 H2 H3 H4. pose proof (two_products 1 _ _ 0 1 _ _ 0 1 _ _ _ _ scale_one ltac:(lra) ltac:(lra) ltac:(lra) ltac:(lra) (coefficient_within _ H0) (coefficient_within _ H3) (coefficient_within _ H1) (coefficient_within _ H4)) as T.
    pose proof (third_term 1 _ _ (2 * (0 * 1 + 1 * 0 + 1 * 1) + 2 * (1 * 1) + / 10) (2 * (1 * 1)) _ _ 0 0 6.2 scale_one ltac:(lra) ltac:(lra) ltac:(lra) ltac:(lra) T (zero_within 1 a2 H2 Rlt_0_1) ltac:(lra)) as Q. rewrite Rplus_0_r in Q. apply (within_le _ _ _ _ _ 6.2 2 scale_one) in Q; [exact Q|lra|lra]. }
  assert (TR : forall a0 a1 a2 b0 b1, coefficient a0 -> coefficient a1 -> radius_of s a2 -> radius_of s b0 -> radius_of s b1 -> within s (d_term a0 a1 a2 b0 b1 one) (B2R a0 * B2R b0 + B2R a1 * B2R b1 + B2R a2) 7.2 3).
  { intros a0 a1 a2 b0 b1 H0 H1 H2 H3 H4. pose proof (two_products s _ _ 0 1 _ _ 0 1 _ _ _ _ SS ltac:(lra) ltac:(lra) ltac:(lra) ltac:(lra) (coefficient_within _ H0) (number_within _ _ H3) (coefficient_within _ H1) (number_within _ _ H4)) as T.
    pose proof (third_term s _ _ (2 * (0 * 1 + 1 * 0 + 1 * 1) + 2 * (1 * 1) + / 10) (2 * (1 * 1)) _ _ 0 1 7.2 SS ltac:(lra) ltac:(lra) ltac:(lra) ltac:(lra) T (one_within _ _ _ _ _ (number_within _ _ H2)) ltac:(lra)) as Q. apply (within_le _ _ _ _ _ 7.2 3 SS) in Q; [exact Q|lra|lra]. }
  pose proof (proj1 A02). pose proof (proj1 A12). split; (split; [|split]); cbn [c d_compose dm00 dm01 dm02 dm10 dm11 dm12]; auto.
Qed.

(** ** The theorems *)
(** The image of a point. *)
Theorem C177_apply : forall s t p, size s -> moderate s t -> in_drawing s p -> near_point 7.3 s (d_apply t p) (image_x t (X p) (Y p)) (image_y t (X p) (Y p)).
Proof.
  intros s t p SS ((A00 & A01 & A02) & (A10 & A11 & A12)) DP. destruct (point_within s p DP) as (PX & PY).
  assert (G : forall m0 m1 m2, coefficient m0 -> coefficient m1 -> radius_of s m2 -> within s (d_row m0 m1 m2 p) (B2R m0 * X p + B2R m1 * Y p + B2R m2) 7.3 (2 * (1 * 1) + 1)).
  { intros m0 m1 m2 H0 H1 H2. apply (row_within s _ _ _ _ _ _ 0 1 0 1 p _ _ 0 1); auto using coefficient_within, number_within; lra. }
  unfold d_apply. eapply (within_near 7.3 s); [apply G; assumption|apply G; assumption|lra|exact SS].
Qed.
Print Assumptions C177_apply.
(** The image by a product is near the image of the image, however it is computed. *)
Theorem C177_compose : forall s a b p, size s -> moderate s a -> moderate s b -> in_drawing s p ->
  let x := image_x a (image_x b (X p) (Y p)) (image_y b (X p) (Y p)) in let y := image_y a (image_x b (X p) (Y p)) (image_y b (X p) (Y p)) in
  near_point 36 s (d_apply (d_compose a b) p) x y /\ near_point 35 s (d_apply a (d_apply b p)) x y.
Proof.
  intros s a b p SS MA MB DP x y. destruct (row_of_compose s a b SS MA MB) as ((C00 & C01 & C02) & (C10 & C11 & C12)). destruct (point_within s p DP) as (PX & PY).
  pose proof MA as ((A00 & A01 & A02) & (A10 & A11 & A12)). pose proof MB as ((B00 & B01 & B02) & (B10 & B11 & B12)). split.
  - assert (G : forall m0 m1 m2 p0 p1 p2, within 1 m0 p0 6.2 2 -> within 1 m1 p1 6.2 2 -> within s m2 p2 7.2 3 -> within s (d_row m0 m1 m2 p) (p0 * X p + p1 * Y p + p2) 36 (2 * (2 * 1) + 3)).
    { intros m0 m1 m2 p0 p1 p2 H0 H1 H2. apply (row_within s _ _ _ _ _ _ 6.2 2 7.2 3 p _ _ 0 1); auto; lra. }
    pose proof (G _ _ _ _ _ _ C00 C01 C02) as GX. pose proof (G _ _ _ _ _ _ C10 C11 C12) as GY. unfold d_apply. apply (within_near 36 s _ _ x y 36 (2 * (2 * 1) + 3)); [| |lra|exact SS].
    + replace x with ((B2R (dm00 a) * B2R (dm00 b) + B2R (dm01 a) * B2R (dm10 b)) * X p + (B2R (dm00 a) * B2R (dm01 b) + B2R (dm01 a) * B2R (dm11 b)) * Y p + (B2R (dm00 a) * B2R (dm02 b) + B2R (dm01 a) * B2R (dm12 b) + B2R (dm02 a))) by (unfold x, image_x, image_y; ring). exact GX.
    + replace y with ((B2R (dm10 a) * B2R (dm00 b) + B2R (dm11 a) * B2R (dm10 b)) * X p + (B2R (dm10 a) * B2R (dm01 b) + B2R (dm11 a) * B2R (dm11 b)) * Y p + (B2R (dm10 a) * B2R (dm02 b) + B2R (dm11 a) * B2R (dm12 b) + B2R (dm12 a))) by (unfold y, image_x, image_y; ring). exact GY.
  - assert (G : forall m0 m1 m2, coefficient m0 -> coefficient m1 -> radius_of s m2 -> within s (d_row m0 m1 m2 p) (B2R m0 * X p + B2R m1 * Y p + B2R m2) 7.3 3).
    { intros m0 m1 m2 H0 H1 H2. apply (within_le s _ _ 7.3 (2 * (1 * 1) + 1) 7.3 3 SS); [lra|lra|]. apply (row_within s _ _ _ _ _ _ 0 1 0 1 p _ _ 0 1); auto using coefficient_within, number_within; lra. }
    pose proof (G _ _ _ B00 B01 B02) as WX. pose proof (G _ _ _ B10 B11 B12) as WY. fold (image_x b (X p) (Y p)) in WX. fold (image_y b (X p) (Y p)) in WY.
    assert (G2 : forall m0 m1 m2, coefficient m0 -> coefficient m1 -> radius_of s m2 -> within s (d_row m0 m1 m2 (d_apply b p)) (B2R m0 * image_x b (X p) (Y p) + B2R m1 * image_y b (X p) (Y p) + B2R m2) 35 (2 * (1 * 3) + 1)).
    { intros m0 m1 m2 H0 H1 H2. apply (row_within s _ _ _ _ _ _ 0 1 0 1 (d_apply b p) _ _ 7.3 3); auto using coefficient_within, number_within; lra. }
    unfold d_apply at 1. eapply (within_near 35 s); [apply G2; assumption|apply G2; assumption|lra|exact SS].
Qed.
Print Assumptions C177_compose.

(** ** What is lost *)
(** The product does not act exactly as its factors one after the other: two reductions by ten of the
    point (5, 5). *)
Theorem C177_associative_refuted : let t := d_scaling (tenths 1) (tenths 1) in let p := D (of_int 5) (of_int 5) in
  dbl_eq (d_x (d_apply (d_compose t t) p)) (d_x (d_apply t (d_apply t p))) = false.
Proof. vm_compute. reflexivity. Qed.
Print Assumptions C177_associative_refuted.

Example C177_example : moderate 8 (d_scaling (tenths 1) (tenths 1)) /\ moderate 8 (d_screen (of_int 7)) /\ in_drawing 8 (D (of_int 5) (of_int 7)) /\ size 8.
Proof.
  assert (V1 : number (tenths 1) /\ B2R (tenths 1) = 3602879701896397 / 2 ^ 55) by number_value. assert (V7 : number (of_int 7) /\ B2R (of_int 7) = 7) by number_value. assert (V5 : number (of_int 5) /\ B2R (of_int 5) = 5) by number_value.
  destruct V1 as (F1 & V1), V7 as (F7 & V7), V5 as (F5 & V5). destruct one_val as (VO & FO & _). unfold val in VO.
  assert (CZ : coefficient zero) by (split; [reflexivity|change (B2R zero) with 0; rewrite Rabs_R0; lra]). assert (RZ : radius_of 8 zero) by (split; [reflexivity|change (B2R zero) with 0; rewrite Rabs_R0; lra]).
  assert (C1 : coefficient (tenths 1)) by (split; [exact F1|rewrite V1, Rabs_pos_eq by lra; lra]). assert (CO : coefficient one) by (split; [exact FO|rewrite VO, Rabs_pos_eq by lra; lra]).
  assert (CN : coefficient (dbl_neg one)) by (split; [unfold number, dbl_neg; rewrite is_finite_Bopp; exact FO|unfold dbl_neg; rewrite B2R_Bopp, Rabs_Ropp, VO, Rabs_pos_eq by lra; lra]).
  assert (R7 : radius_of 8 (of_int 7)) by (split; [exact F7|rewrite V7, Rabs_pos_eq by lra; lra]).
  split; [split; (split; [|split]); assumption|]. split; [split; (split; [|split]); assumption|].
  split; [split; [split; assumption|]; cbn [d_x d_y]; rewrite V5, V7, !Rabs_pos_eq by lra; lra|].
  split; [apply Rle_trans with (bpow radix2 0); [apply bpow_le; lia|cbn; lra]|apply Rle_trans with (bpow radix2 3); [cbn; lra|apply bpow_le; lia]].
Qed.
