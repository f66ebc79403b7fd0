(** C177: products of transformations with whole coefficients are exact on a grid. *)
From Coq Require Import Reals Lra Lia List Bool ZArith.
From Flocq Require Import Core Relative BinarySingleNaN.
From Verif Require Import Base ModelColor ModelDouble ModelDoubleCompose ProofDouble PropDouble ProofGrid PropGrid PropCurveAccuracy PropArea PropDriftGrid PropCompose.
Import ListNotations.
Local Open Scope R_scope.

(** ** What is expected *)
(** Whole coefficients of at most 1024, as for symmetries, quarters of turns and enlargements; translations of
    multiples of 2^e, by at most 2^20. *)
Definition whole (e : Z) (t : dmat) : Prop :=
  (grid_number 0 (2 ^ 10) (dm00 t) /\ grid_number 0 (2 ^ 10) (dm01 t) /\ grid_number e (2 ^ 20) (dm02 t)) /\
  (grid_number 0 (2 ^ 10) (dm10 t) /\ grid_number 0 (2 ^ 10) (dm11 t) /\ grid_number e (2 ^ 20) (dm12 t)).

(** ** Lemmas *)
Lemma grid_exact e m x : grid_number e m x -> exactly x (B2R x) e m.
Proof. intros H. apply grid_exactly. auto. Qed.
Lemma term_exact e m n k a0 a1 b0 b1 c r0 r1 s0 s1 q : in_range e (m * n + m * n + k) -> (0 <= k)%Z -> (0 <= m * n)%Z -> exactly a0 r0 0 m -> exactly a1 r1 0 m -> exactly b0 s0 e n -> exactly b1 s1 e n -> exactly c q e k ->
  exactly (dbl_add (dbl_add (fmul a0 b0) (fmul a1 b1)) c) (r0 * s0 + r1 * s1 + q) e (m * n + m * n + k).
Proof.
  intros (R1 & R2) K MN A0 A1 B0 B1 C. apply exact_add; [|exact C|split; assumption]. apply exact_add; [| |split; [exact R1|lia]].
  - apply (exact_mul _ _ _ _ 0 e); auto. split; [exact R1|lia].
  - apply (exact_mul _ _ _ _ 0 e); auto. split; [exact R1|lia].
Qed.
Lemma null_exact e x k : (0 <= k)%Z -> finite x -> exactly (fmul x zero) 0 e k.
Proof. intros K F. destruct (times_zero x F) as (F0 & V0). split; [exact F0|]. split; [exact V0|]. exists 0%Z. split; [ring|exact K]. Qed.
Lemma same_exact e x r k : exactly x r e k -> exactly (fmul x one) r e k.
Proof. intros (F & V & Z). destruct (times_one x F) as (F1 & V1). split; [exact F1|]. split; [congruence|exact Z]. Qed.
Lemma row_exact e m n k m0 m1 m2 p0 p1 p2 w x y : in_range e (m * n + m * n + k) -> (0 <= k)%Z -> (0 <= m * n)%Z -> exactly m0 p0 0 m -> exactly m1 p1 0 m -> exactly m2 p2 e k -> exactly (d_x w) x e n -> exactly (d_y w) y e n ->
  exactly (d_row m0 m1 m2 w) (p0 * x + p1 * y + p2) e (m * n + m * n + k).
Proof. intros. unfold d_row. apply term_exact; auto using same_exact. Qed.

(** ** The theorem *)
(** The image by the product and the image of the image are the same point, and the right one. *)
Theorem C177_grid : forall e a b p, (-1074 <= e <= 971)%Z -> whole e a -> whole e b -> grid_point e (2 ^ 20) p ->
  let x := image_x a (image_x b (X p) (Y p)) (image_y b (X p) (Y p)) in let y := image_y a (image_x b (X p) (Y p)) (image_y b (X p) (Y p)) in
  is_at (d_apply (d_compose a b) p) x y /\ is_at (d_apply a (d_apply b p)) x y.
Proof.
  intros e a b p HE ((A00 & A01 & A02) & (A10 & A11 & A12)) ((B00 & B01 & B02) & (B10 & B11 & B12)) (PX & PY) x y.
  assert (R : forall f m, (f = 0 \/ f = e)%Z -> (m < 2 ^ 53)%Z -> in_range f m) by (intros f m [->| ->] M; split; lia).
  apply grid_exact in A00, A01, A02, A10, A11, A12, B00, B01, B02, B10, B11, B12, PX, PY.
  assert (AT : forall w u v m n, exactly (d_x w) u e m -> exactly (d_y w) v e n -> is_at w u v) by (intros w u v m n (F1 & V1 & _) (F2 & V2 & _); split; [split; assumption|split; assumption]).
  assert (L : forall a0 a1 a2 b0 b1 r0 r1 s0 s1, exactly a0 r0 0 (2 ^ 10) -> exactly a1 r1 0 (2 ^ 10) -> finite a2 -> exactly b0 s0 0 (2 ^ 10) -> exactly b1 s1 0 (2 ^ 10) ->
    exactly (d_term a0 a1 a2 b0 b1 zero) (r0 * s0 + r1 * s1 + 0) 0 (2 ^ 21)).
  { intros a0 a1 a2 b0 b1 r0 r1 s0 s1 H0 H1 H2 H3 H4. unfold d_term. apply (exact_more _ _ _ (2 ^ 10 * 2 ^ 10 + 2 ^ 10 * 2 ^ 10 + 0)); [lia|].
    apply term_exact; auto; try lia; [apply R; [auto|lia]|apply null_exact; [lia|exact H2]]. }
  assert (T : forall a0 a1 a2 b0 b1 r0 r1 r2 s0 s1, exactly a0 r0 0 (2 ^ 10) -> exactly a1 r1 0 (2 ^ 10) -> exactly a2 r2 e (2 ^ 20) -> exactly b0 s0 e (2 ^ 20) -> exactly b1 s1 e (2 ^ 20) ->
    exactly (d_term a0 a1 a2 b0 b1 one) (r0 * s0 + r1 * s1 + r2) e (2 ^ 32)).
  { intros a0 a1 a2 b0 b1 r0 r1 r2 s0 s1 H0 H1 H2 H3 H4. unfold d_term. apply (exact_more _ _ _ (2 ^ 10 * 2 ^ 20 + 2 ^ 10 * 2 ^ 20 + 2 ^ 20)); [lia|].
    apply term_exact; auto using same_exact; try lia. apply R; [auto|lia]. }
  assert (FA : finite (dm02 a) /\ finite (dm12 a)) by (split; [apply A02|apply A12]). destruct FA as (FA & FA').
  split.
  - pose proof (row_exact e (2 ^ 21) (2 ^ 20) (2 ^ 32) _ _ _ _ _ _ p _ _ (R e (2 ^ 21 * 2 ^ 20 + 2 ^ 21 * 2 ^ 20 + 2 ^ 32)%Z (or_intror eq_refl) eq_refl) ltac:(lia) ltac:(lia)
      (L _ _ _ _ _ _ _ _ _ A00 A01 FA B00 B10) (L _ _ _ _ _ _ _ _ _ A00 A01 FA B01 B11) (T _ _ _ _ _ _ _ _ _ _ A00 A01 A02 B02 B12) PX PY) as GX.
    pose proof (row_exact e (2 ^ 21) (2 ^ 20) (2 ^ 32) _ _ _ _ _ _ p _ _ (R e (2 ^ 21 * 2 ^ 20 + 2 ^ 21 * 2 ^ 20 + 2 ^ 32)%Z (or_intror eq_refl) eq_refl) ltac:(lia) ltac:(lia)
      (L _ _ _ _ _ _ _ _ _ A10 A11 FA' B00 B10) (L _ _ _ _ _ _ _ _ _ A10 A11 FA' B01 B11) (T _ _ _ _ _ _ _ _ _ _ A10 A11 A12 B02 B12) PX PY) as GY.
    refine (AT (d_apply (d_compose a b) p) x y _ _ (exact_as _ _ _ _ _ _ _ _ eq_refl (Z.le_refl _) GX) (exact_as _ _ _ _ _ _ _ _ eq_refl (Z.le_refl _) GY)); unfold x, y, image_x, image_y; ring.
  - assert (G : forall n m0 m1 m2 w u v, (n <= 2 ^ 32)%Z -> (0 <= n)%Z -> exactly m0 (B2R m0) 0 (2 ^ 10) -> exactly m1 (B2R m1) 0 (2 ^ 10) -> exactly m2 (B2R m2) e (2 ^ 20) -> exactly (d_x w) u e n -> exactly (d_y w) v e n ->
      exactly (d_row m0 m1 m2 w) (B2R m0 * u + B2R m1 * v + B2R m2) e (2 ^ 10 * n + 2 ^ 10 * n + 2 ^ 20)).
    { intros n m0 m1 m2 w u v N N0 H0 H1 H2 H3 H4. apply row_exact; auto; try lia. apply R; [auto|lia]. }
    pose proof (G (2 ^ 20)%Z _ _ _ p _ _ ltac:(lia) ltac:(lia) B00 B01 B02 PX PY) as QX. pose proof (G (2 ^ 20)%Z _ _ _ p _ _ ltac:(lia) ltac:(lia) B10 B11 B12 PX PY) as QY.
    refine (AT (d_apply a (d_apply b p)) x y _ _ (G _ _ _ _ (d_apply b p) _ _ _ _ A00 A01 A02 QX QY) (G _ _ _ _ (d_apply b p) _ _ _ _ A10 A11 A12 QX QY)); lia.
Qed.
Print Assumptions C177_grid.

(** A quarter of a turn followed by a translation, and a symmetry. *)
Example C177_grid_example : whole 0 (DM zero (dbl_neg one) one one zero one) /\ whole 0 (DM one zero zero zero (dbl_neg one) zero) /\ grid_point 0 (2 ^ 20) (D one one).
Proof.
  destruct exact_one as (F & V & _). unfold val in V.
  assert (G : forall m, (1 <= m)%Z -> grid_number 0 m one) by (intros m M; split; [exact F|]; exists 1%Z; split; [rewrite V; cbn; ring|lia]).
  assert (GZ : forall m, (1 <= m)%Z -> grid_number 0 m zero) by (intros m M; split; [reflexivity|]; exists 0%Z; split; [change (B2R zero) with 0; ring|lia]).
  assert (GN : forall m, (1 <= m)%Z -> grid_number 0 m (dbl_neg one)).
  { intros m M. split; [unfold number, dbl_neg; rewrite is_finite_Bopp; exact F|]. exists (-1)%Z. split; [unfold dbl_neg; rewrite B2R_Bopp, V; cbn; ring|lia]. }
  repeat split; try (apply G; lia); try (apply GZ; lia); apply GN; lia.
Qed.
