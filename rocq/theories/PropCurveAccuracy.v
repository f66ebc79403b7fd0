(** C169: the accuracy of points of curves, of lines and of splits in double precision. *)
From Coq Require Import Reals Lra Lia List Bool ZArith.
From Flocq Require Import Core BinarySingleNaN.
From Verif Require Import Base ModelColor ModelDouble ModelDoubleCurve ProofDouble PropDouble ProofAccuracy PropAccuracy ProofCurveAccuracy.
Import ListNotations.
Local Open Scope R_scope.

(** ** What is expected *)
(** A size which bounds the coordinates of a drawing. *)
Definition size (s : R) : Prop := bpow radix2 (-900) <= s <= bpow radix2 900.
Definition in_drawing (s : R) (a : dvec) : Prop := numbers a /\ Rabs (X a) <= s /\ Rabs (Y a) <= s.
(** A point is at (x, y), up to k units of rounding of the size. *)
Definition near_point (k s : R) (p : dvec) (x y : R) : Prop := numbers p /\ Rabs (X p - x) <= k / 2 ^ 53 * s /\ Rabs (Y p - y) <= k / 2 ^ 53 * s.
Definition parameter (t : float) : Prop := number t /\ 0 <= B2R t <= 1.
(** A power function which is right up to four units of rounding. *)
Definition accurate (pow : float -> nat -> float) : Prop := forall x n, parameter x -> n = 2%nat \/ n = 3%nat ->
  number (pow x n) /\ Rabs (B2R (pow x n) - B2R x ^ n) <= 4 / 2 ^ 53 * B2R x ^ n + bpow radix2 (-1070).
(** The curves. *)
Definition bezier2 (a b c t : R) : R := (1 - t) ^ 2 * a + 2 * (1 - t) * t * b + t ^ 2 * c.
Definition bezier3 (a b c d t : R) : R := (1 - t) ^ 3 * a + 3 * (1 - t) ^ 2 * t * b + 3 * (1 - t) * t ^ 2 * c + t ^ 3 * d.
Definition towards (a b t : R) : R := (1 - t) * a + t * b.

(** ** Lemmas *)
Section Weights.
Context (s : R) (SS : size s) (t : float) (PT : parameter t).
Notation k := (B2R t).

Lemma weight_t : within 1 t k 0 k.
Proof. destruct PT as (F & T). split; [exact F|]. unfold val. rewrite Rminus_diag_eq, Rabs_R0, Rabs_pos_eq by (reflexivity || lra). lra. Qed.
Lemma weight_1 : within 1 one 1 0 1.
Proof. destruct one_val as (V & F & _). split; [exact F|]. rewrite V, Rminus_diag_eq, Rabs_R0, Rabs_R1 by reflexivity. lra. Qed.
Lemma weight_u : within 1 (dbl_sub one t) (1 - k) 1.01 (1 - k) /\ 0 <= val (dbl_sub one t) <= 1.
Proof.
  destruct PT as (F & T). assert (B : Rabs (1 - k) <= 1 * 1) by (rewrite Rabs_pos_eq; lra).
  pose proof (sub_within 1 one 1 0 1 t k 0 k 1 scale_one ltac:(lra) ltac:(lra) ltac:(lra) weight_1 weight_t B) as (W1 & W2 & W3). split.
  - split; [exact W1|]. split; [pose proof u_tiny; lra|rewrite Rabs_pos_eq; lra].
  - destruct one_val as (VO & FO & _). rewrite (sub_finite _ _ FO F W1), VO. split.
    + apply round_ge_generic; auto with typeclass_instances; [apply generic_format_0|unfold val; lra].
    + apply round_le_generic; auto with typeclass_instances; [apply (power_format 0); lia|unfold val; lra].
Qed.
Lemma small_bpow : bpow radix2 (-1070) <= / 100 * u.
Proof.
  apply Rle_trans with (bpow radix2 (-63)); [apply bpow_le; lia|]. unfold u. cbn. unfold Z.pow_pos. cbn. lra.
Qed.
Lemma power_within pow n (x : float) r e : accurate pow -> n = 2%nat \/ n = 3%nat -> parameter x -> 0 <= r <= 1 -> Rabs (B2R x - r) <= e * u -> 0 <= e ->
  within 1 (pow x n) (r ^ n) (INR n * e + 4.01) 1.
Proof.
  intros A N P R E E0. destruct (A x n P N) as (F & H). destruct P as (_ & XB). pose proof small_bpow as SB. pose proof u_tiny as U. set (y := B2R x) in *.
  assert (PY : 0 <= y ^ n <= 1). { split; [apply pow_le; lra|]. rewrite <- (pow1 n). apply pow_incr. lra. }
  assert (D : Rabs (y ^ n - r ^ n) <= INR n * e * u).
  { destruct N as [-> | ->].
    - replace (y ^ 2 - r ^ 2) with ((y - r) * (y + r)) by ring. rewrite Rabs_mult, (Rabs_pos_eq (y + r)) by lra. replace (INR 2) with 2 by (cbn; lra). pose proof (Rabs_pos (y - r)). nra.
    - replace (y ^ 3 - r ^ 3) with ((y - r) * (y * y + y * r + r * r)) by ring. assert (0 <= y * y + y * r + r * r <= 3) by (split; nra).
      rewrite Rabs_mult, (Rabs_pos_eq (y * y + y * r + r * r)) by lra. replace (INR 3) with 3 by (cbn; lra). pose proof (Rabs_pos (y - r)). nra. }
  split; [exact F|]. split.
  - rewrite Rmult_1_r. unfold val. replace (B2R (pow x n) - r ^ n) with (B2R (pow x n) - y ^ n + (y ^ n - r ^ n)) by ring. apply Rle_trans with (1 := Rabs_triang _ _).
    replace (4 / 2 ^ 53) with (4 * u) in H by (unfold u; field). assert (4 * u * y ^ n <= 4 * u) by nra. lra.
  - rewrite Rabs_pos_eq by (apply pow_le; lra). rewrite Rmult_1_l, <- (pow1 n). apply pow_incr. lra.
Qed.

(** One step towards another point. *)
Lemma towards_within x r y q e : 0 <= e <= 500 -> within s x r e 1 -> within s y q e 1 ->
  within s (dbl_add (fmul (dbl_sub one t) x) (fmul t y)) (towards r q k) (e + 3.1) 1.
Proof.
  intros E A B. destruct weight_u as (WU & _). pose proof weight_t as WT. destruct PT as (_ & T). pose proof (scale_pos s SS) as P. pose proof u_tiny as U.
  destruct A as (FA & EA & BA), B as (FB & EB & BB). rewrite Rmult_1_l in BA, BB.
  assert (M1 : Rabs ((1 - k) * r) <= (1 - k) * s) by (rewrite Rabs_mult, Rabs_pos_eq by lra; nra).
  assert (M2 : Rabs (k * q) <= k * s) by (rewrite Rabs_mult, Rabs_pos_eq by lra; nra).
  assert (C : Rabs ((1 - k) * r + k * q) <= 1 * s).
  { apply Rle_trans with (1 := Rabs_triang _ _). lra. }
  assert (A : within s x r e 1) by (split; [assumption|split; lra]). assert (B : within s y q e 1) by (split; [assumption|split; lra]).
  pose proof (mul_within s _ _ 1.01 (1 - k) _ _ e 1 (1 - k) SS ltac:(lra) ltac:(lra) ltac:(lra) ltac:(lra) ltac:(lra) ltac:(nra) WU A M1) as W1.
  pose proof (mul_within s _ _ 0 k _ _ e 1 k SS ltac:(lra) ltac:(lra) ltac:(lra) ltac:(lra) ltac:(lra) ltac:(nra) WT B M2) as W2.
  apply (within_le s _ _ ((1.01 * 1 + (1 - k) * e + (1 - k) + / 50) + (0 * 1 + k * e + k + / 50) + 1 + / 100) 1 _ _ SS); [nra|lra|].
  apply (add_within s _ _ _ (1 - k) _ _ _ k); try assumption; try lra; nra.
Qed.
End Weights.

Lemma point_within s a : in_drawing s a -> within s (d_x a) (X a) 0 1 /\ within s (d_y a) (Y a) 0 1.
Proof. intros ((FX & FY) & BX & BY). split; apply within_self; assumption. Qed.
Lemma near_within k s p x y b : within s (d_x p) x k b -> within s (d_y p) y k b -> near_point k s p x y.
Proof.
  intros (FX & EX & _) (FY & EY & _). replace (k * u * s) with (k / 2 ^ 53 * s) in * by (unfold u; field). repeat split; assumption.
Qed.
Lemma bezier2_le s a b c t : Rabs a <= s -> Rabs b <= s -> Rabs c <= s -> 0 <= t <= 1 -> Rabs (bezier2 a b c t) <= s.
Proof.
  intros A B C T. unfold bezier2. apply Rle_trans with (1 := Rabs_triang _ _). assert (P : 0 <= s) by (pose proof (Rabs_pos a); lra).
  assert (0 <= (1 - t) ^ 2) by nra. assert (0 <= 2 * (1 - t) * t) by nra. assert (0 <= t ^ 2) by nra.
  pose proof (combine_le s ((1 - t) ^ 2) (2 * (1 - t) * t) a b ltac:(assumption) ltac:(assumption) A B). rewrite (Rabs_mult (t ^ 2)), (Rabs_pos_eq (t ^ 2)) by assumption.
  assert (t ^ 2 * Rabs c <= t ^ 2 * s) by nra. nra.
Qed.
Lemma bezier3_le s a b c d t : Rabs a <= s -> Rabs b <= s -> Rabs c <= s -> Rabs d <= s -> 0 <= t <= 1 -> Rabs (bezier3 a b c d t) <= s.
Proof.
  intros A B C D T. replace (bezier3 a b c d t) with ((1 - t) * bezier2 a b c t + t * bezier2 b c d t) by (unfold bezier2, bezier3; ring).
  replace s with ((1 - t + t) * s) by ring. apply combine_le; try lra; apply bezier2_le; assumption.
Qed.

(** ** Quadratic curves *)
Lemma quadratic_coordinate pow s (t a b c : float) : accurate pow -> size s -> parameter t -> within s a (B2R a) 0 1 -> within s b (B2R b) 0 1 -> within s c (B2R c) 0 1 ->
  let f := dbl_sub one t in
  within s (dbl_add (dbl_add (fmul (pow f 2%nat) a) (fmul f (fmul t (fmul two b)))) (fmul (pow t 2%nat) c)) (bezier2 (B2R a) (B2R b) (B2R c) (B2R t)) 24 1.
Proof.
  intros A SS PT WA WB WC f. destruct (weight_u t PT) as (WU & RU). pose proof (weight_t t PT) as WT. pose proof PT as (FT & T). set (k := B2R t) in *. pose proof (scale_pos s SS) as P.
  fold f in WU, RU. pose proof WU as (FU & EU & _).
  assert (P2 : within 1 (pow f 2%nat) ((1 - k) ^ 2) 6.1 1).
  { apply (within_le 1 _ _ (INR 2 * 1.01 + 4.01) 1); [exact scale_one|cbn; lra|lra|]. apply power_within; auto; try lra; [split; assumption|]. unfold val in EU. rewrite Rmult_1_r in EU. exact EU. }
  assert (Q2 : within 1 (pow t 2%nat) (k ^ 2) 4.1 1).
  { apply (within_le 1 _ _ (INR 2 * 0 + 4.01) 1); [exact scale_one|cbn; lra|lra|]. apply power_within; auto; try lra. fold k. rewrite Rminus_diag_eq, Rabs_R0 by reflexivity. lra. }
  pose proof WA as (_ & _ & BA). pose proof WB as (_ & _ & BB). pose proof WC as (_ & _ & BC). rewrite Rmult_1_l in BA, BB, BC.
  set (x := B2R a) in *. set (y := B2R b) in *. set (z := B2R c) in *.
  assert (W2 : within 1 two 2 0 2).
  { assert (E : val two = 2 /\ finite two) by (split; [unfold val; vm_compute; lra|vm_compute; reflexivity]). destruct E as (E & F2). split; [exact F2|]. rewrite E, Rminus_diag_eq, Rabs_R0, Rabs_pos_eq by (reflexivity || lra). lra. }
  pose proof (Rabs_pos x) as NX. pose proof (Rabs_pos y) as NY. pose proof (Rabs_pos z) as NZ.
  assert (K2 : 0 <= (1 - k) ^ 2 <= 1) by (split; nra). assert (K3 : 0 <= k ^ 2 <= 1) by (split; nra). assert (K4 : 0 <= (1 - k) * (k * 2) <= / 2).
  { split; [nra|]. assert (0 <= (1 - 2 * k) ^ 2) by apply pow2_ge_0. nra. }
  assert (B1 : Rabs ((1 - k) ^ 2 * x) <= 1 * s) by (rewrite Rabs_mult, (Rabs_pos_eq ((1 - k) ^ 2)) by lra; nra).
  assert (B2 : Rabs (2 * y) <= 2 * s) by (rewrite Rabs_mult, (Rabs_pos_eq 2) by lra; nra).
  assert (B3 : Rabs (k * (2 * y)) <= 2 * s) by (rewrite Rabs_mult, (Rabs_pos_eq k) by lra; pose proof (Rabs_pos (2 * y)); nra).
  assert (B4 : Rabs ((1 - k) * (k * (2 * y))) <= / 2 * s).
  { replace ((1 - k) * (k * (2 * y))) with ((1 - k) * (k * 2) * y) by ring. rewrite Rabs_mult, (Rabs_pos_eq ((1 - k) * (k * 2))) by lra. nra. }
  assert (B5 : Rabs (k ^ 2 * z) <= 1 * s) by (rewrite Rabs_mult, (Rabs_pos_eq (k ^ 2)) by lra; nra).
  assert (B6 : Rabs ((1 - k) ^ 2 * x + (1 - k) * (k * (2 * y))) <= 1 * s).
  { replace ((1 - k) * (k * (2 * y))) with ((1 - k) * (k * 2) * y) by ring. apply Rle_trans with (((1 - k) ^ 2 + (1 - k) * (k * 2)) * s); [apply combine_le; lra|]. apply Rmult_le_compat_r; [lra|]. nra. }
  assert (B7 : Rabs ((1 - k) ^ 2 * x + (1 - k) * (k * (2 * y)) + k ^ 2 * z) <= 1 * s).
  { rewrite Rmult_1_l. replace ((1 - k) ^ 2 * x + (1 - k) * (k * (2 * y)) + k ^ 2 * z) with (bezier2 x y z k) by (unfold bezier2; ring). apply bezier2_le; assumption. }
  pose proof (mul_within s _ _ 6.1 1 _ _ 0 1 1 SS ltac:(lra) ltac:(lra) ltac:(lra) ltac:(lra) ltac:(lra) ltac:(lra) P2 WA B1) as M1. apply (within_le s _ _ _ _ 7.2 1 SS) in M1; try lra.
  pose proof (mul_within s _ _ 0 2 _ _ 0 1 2 SS ltac:(lra) ltac:(lra) ltac:(lra) ltac:(lra) ltac:(lra) ltac:(lra) W2 WB B2) as M2. apply (within_le s _ _ _ _ 2.1 2 SS) in M2; try lra.
  apply (within_le 1 _ _ _ _ 0 1 scale_one) in WT; try lra.
  pose proof (mul_within s _ _ 0 1 _ _ 2.1 2 2 SS ltac:(lra) ltac:(lra) ltac:(lra) ltac:(lra) ltac:(lra) ltac:(lra) WT M2 B3) as M3. apply (within_le s _ _ _ _ 4.2 2 SS) in M3; try lra.
  apply (within_le 1 _ _ _ _ 1.01 1 scale_one) in WU; try lra.
  pose proof (mul_within s _ _ 1.01 1 _ _ 4.2 2 (/ 2) SS ltac:(lra) ltac:(lra) ltac:(lra) ltac:(lra) ltac:(lra) ltac:(lra) WU M3 B4) as M4. apply (within_le s _ _ _ _ 6.8 1 SS) in M4; try lra.
  pose proof (mul_within s _ _ 4.1 1 _ _ 0 1 1 SS ltac:(lra) ltac:(lra) ltac:(lra) ltac:(lra) ltac:(lra) ltac:(lra) Q2 WC B5) as M5. apply (within_le s _ _ _ _ 5.2 1 SS) in M5; try lra.
  pose proof (add_within s _ _ 7.2 1 _ _ 6.8 1 1 SS ltac:(lra) ltac:(lra) ltac:(lra) M1 M4 B6) as M6. apply (within_le s _ _ _ _ 15.1 1 SS) in M6; try lra.
  pose proof (add_within s _ _ 15.1 1 _ _ 5.2 1 1 SS ltac:(lra) ltac:(lra) ltac:(lra) M6 M5 B7) as M7. apply (within_le s _ _ _ _ 24 1 SS) in M7; try lra.
  replace (bezier2 x y z k) with ((1 - k) ^ 2 * x + (1 - k) * (k * (2 * y)) + k ^ 2 * z) by (unfold bezier2; ring). exact M7.
Qed.
Theorem C169_quadratic : forall pow s a b c t, accurate pow -> size s -> in_drawing s a -> in_drawing s b -> in_drawing s c -> parameter t ->
  near_point 24 s (d_quadratic_by pow a b c t) (bezier2 (X a) (X b) (X c) (B2R t)) (bezier2 (Y a) (Y b) (Y c) (B2R t)).
Proof.
  intros pow s a b c t A SS PA PB PC PT. destruct (point_within s a PA), (point_within s b PB), (point_within s c PC).
  apply (near_within 24 s _ _ _ 1); apply quadratic_coordinate; assumption.
Qed.
Print Assumptions C169_quadratic.

(** ** Cubic curves *)
Lemma cubic_coordinate pow s (t a b c d : float) : accurate pow -> size s -> parameter t -> within s a (B2R a) 0 1 -> within s b (B2R b) 0 1 -> within s c (B2R c) 0 1 -> within s d (B2R d) 0 1 ->
  within s (dbl_add (dbl_add (dbl_add a (fmul t (fmul three (dbl_sub b a)))) (fmul (pow t 2%nat) (fmul three (dbl_add (dbl_sub c (fmul two b)) a))))
                    (fmul (pow t 3%nat) (dbl_sub (dbl_add (dbl_sub d (fmul three c)) (fmul three b)) a))) (bezier3 (B2R a) (B2R b) (B2R c) (B2R d) (B2R t)) 300 1.
Proof.
  intros A SS PT WA WB WC WD. pose proof (weight_t t PT) as WT. pose proof PT as (FT & T). set (k := B2R t) in *. pose proof (scale_pos s SS) as P.
  assert (Z : Rabs (B2R t - k) <= 0 * u) by (fold k; rewrite Rminus_diag_eq, Rabs_R0 by reflexivity; lra).
  assert (Q2 : within 1 (pow t 2%nat) (k ^ 2) 4.1 1).
  { apply (within_le 1 _ _ (INR 2 * 0 + 4.01) 1); [exact scale_one|cbn; lra|lra|]. apply power_within; auto; lra. }
  assert (Q3 : within 1 (pow t 3%nat) (k ^ 3) 4.1 1).
  { apply (within_le 1 _ _ (INR 3 * 0 + 4.01) 1); [exact scale_one|cbn; lra|lra|]. apply power_within; auto; lra. }
  pose proof WA as (_ & _ & BA). pose proof WB as (_ & _ & BB). pose proof WC as (_ & _ & BC). pose proof WD as (_ & _ & BD). rewrite Rmult_1_l in BA, BB, BC, BD.
  set (x := B2R a) in *. set (y := B2R b) in *. set (z := B2R c) in *. set (w := B2R d) in *.
  assert (W2 : within 1 two 2 0 2).
  { assert (E : val two = 2 /\ finite two) by (split; [unfold val; vm_compute; lra|vm_compute; reflexivity]). destruct E as (E & F2). split; [exact F2|]. rewrite E, Rminus_diag_eq, Rabs_R0, Rabs_pos_eq by (reflexivity || lra). lra. }
  assert (W3 : within 1 three 3 0 3).
  { assert (E : val three = 3 /\ finite three) by (split; [unfold val; vm_compute; lra|vm_compute; reflexivity]). destruct E as (E & F3). split; [exact F3|]. rewrite E, Rminus_diag_eq, Rabs_R0, Rabs_pos_eq by (reflexivity || lra). lra. }
  apply (within_le 1 _ _ _ _ 0 1 scale_one) in WT; try lra.
  assert (K2 : 0 <= k ^ 2 <= 1) by (split; nra). assert (K3 : 0 <= k ^ 3 <= 1) by (split; [apply pow_le; lra|rewrite <- (pow1 3); apply pow_incr; lra]).
  apply Rabs_le_inv in BA, BB, BC, BD.
  assert (N : forall p l, Rabs l <= p * s -> forall q, 0 <= q <= 1 -> Rabs (q * l) <= p * s).
  { intros p l L q Q. rewrite Rabs_mult, (Rabs_pos_eq q) by lra. pose proof (Rabs_pos l). nra. }
  (* first coefficient *)
  assert (B1 : Rabs (y - x) <= 2 * s) by (apply Rabs_le; lra). assert (B2 : Rabs (3 * (y - x)) <= 6 * s) by (apply Rabs_le; lra).
  pose proof (sub_within s _ _ 0 1 _ _ 0 1 2 SS ltac:(lra) ltac:(lra) ltac:(lra) WB WA B1) as M1. apply (within_le s _ _ _ _ 2.1 2 SS) in M1; try lra.
  pose proof (mul_within s _ _ 0 3 _ _ 2.1 2 6 SS ltac:(lra) ltac:(lra) ltac:(lra) ltac:(lra) ltac:(lra) ltac:(lra) W3 M1 B2) as M2. apply (within_le s _ _ _ _ 12.4 6 SS) in M2; try lra.
  pose proof (mul_within s _ _ 0 1 _ _ 12.4 6 6 SS ltac:(lra) ltac:(lra) ltac:(lra) ltac:(lra) ltac:(lra) ltac:(lra) WT M2 (N _ _ B2 k T)) as M3. apply (within_le s _ _ _ _ 18.5 6 SS) in M3; try lra.
  assert (B3 : Rabs (x + k * (3 * (y - x))) <= 7 * s).
  { apply Rle_trans with (1 := Rabs_triang _ _). pose proof (N _ _ B2 k T). assert (Rabs x <= s) by (apply Rabs_le; lra). lra. }
  pose proof (add_within s _ _ 0 1 _ _ 18.5 6 7 SS ltac:(lra) ltac:(lra) ltac:(lra) WA M3 B3) as M4. apply (within_le s _ _ _ _ 25.6 7 SS) in M4; try lra.
  (* second coefficient *)
  assert (B4 : Rabs (2 * y) <= 2 * s) by (apply Rabs_le; lra). assert (B5 : Rabs (z - 2 * y) <= 3 * s) by (apply Rabs_le; lra).
  assert (B6 : Rabs (z - 2 * y + x) <= 4 * s) by (apply Rabs_le; lra). assert (B7 : Rabs (3 * (z - 2 * y + x)) <= 12 * s) by (apply Rabs_le; lra).
  pose proof (mul_within s _ _ 0 2 _ _ 0 1 2 SS ltac:(lra) ltac:(lra) ltac:(lra) ltac:(lra) ltac:(lra) ltac:(lra) W2 WB B4) as N1. apply (within_le s _ _ _ _ 2.1 2 SS) in N1; try lra.
  pose proof (sub_within s _ _ 0 1 _ _ 2.1 2 3 SS ltac:(lra) ltac:(lra) ltac:(lra) WC N1 B5) as N2. apply (within_le s _ _ _ _ 5.2 3 SS) in N2; try lra.
  pose proof (add_within s _ _ 5.2 3 _ _ 0 1 4 SS ltac:(lra) ltac:(lra) ltac:(lra) N2 WA B6) as N3. apply (within_le s _ _ _ _ 9.3 4 SS) in N3; try lra.
  pose proof (mul_within s _ _ 0 3 _ _ 9.3 4 12 SS ltac:(lra) ltac:(lra) ltac:(lra) ltac:(lra) ltac:(lra) ltac:(lra) W3 N3 B7) as N4. apply (within_le s _ _ _ _ 40 12 SS) in N4; try lra.
  pose proof (mul_within s _ _ 4.1 1 _ _ 40 12 12 SS ltac:(lra) ltac:(lra) ltac:(lra) ltac:(lra) ltac:(lra) ltac:(lra) Q2 N4 (N _ _ B7 _ K2)) as N5. apply (within_le s _ _ _ _ 101.3 12 SS) in N5; try lra.
  assert (B8 : Rabs (x + k * (3 * (y - x)) + k ^ 2 * (3 * (z - 2 * y + x))) <= 19 * s).
  { apply Rle_trans with (1 := Rabs_triang _ _). pose proof (N _ _ B7 _ K2). lra. }
  pose proof (add_within s _ _ 25.6 7 _ _ 101.3 12 19 SS ltac:(lra) ltac:(lra) ltac:(lra) M4 N5 B8) as N6. apply (within_le s _ _ _ _ 146 19 SS) in N6; try lra.
  (* third coefficient *)
  assert (C1 : Rabs (3 * z) <= 3 * s) by (apply Rabs_le; lra). assert (C2 : Rabs (w - 3 * z) <= 4 * s) by (apply Rabs_le; lra). assert (C3 : Rabs (3 * y) <= 3 * s) by (apply Rabs_le; lra).
  assert (C4 : Rabs (w - 3 * z + 3 * y) <= 7 * s) by (apply Rabs_le; lra). assert (C5 : Rabs (w - 3 * z + 3 * y - x) <= 8 * s) by (apply Rabs_le; lra).
  pose proof (mul_within s _ _ 0 3 _ _ 0 1 3 SS ltac:(lra) ltac:(lra) ltac:(lra) ltac:(lra) ltac:(lra) ltac:(lra) W3 WC C1) as O1. apply (within_le s _ _ _ _ 3.1 3 SS) in O1; try lra.
  pose proof (sub_within s _ _ 0 1 _ _ 3.1 3 4 SS ltac:(lra) ltac:(lra) ltac:(lra) WD O1 C2) as O2. apply (within_le s _ _ _ _ 7.2 4 SS) in O2; try lra.
  pose proof (mul_within s _ _ 0 3 _ _ 0 1 3 SS ltac:(lra) ltac:(lra) ltac:(lra) ltac:(lra) ltac:(lra) ltac:(lra) W3 WB C3) as O3. apply (within_le s _ _ _ _ 3.1 3 SS) in O3; try lra.
  pose proof (add_within s _ _ 7.2 4 _ _ 3.1 3 7 SS ltac:(lra) ltac:(lra) ltac:(lra) O2 O3 C4) as O4. apply (within_le s _ _ _ _ 17.4 7 SS) in O4; try lra.
  pose proof (sub_within s _ _ 17.4 7 _ _ 0 1 8 SS ltac:(lra) ltac:(lra) ltac:(lra) O4 WA C5) as O5. apply (within_le s _ _ _ _ 25.5 8 SS) in O5; try lra.
  pose proof (mul_within s _ _ 4.1 1 _ _ 25.5 8 8 SS ltac:(lra) ltac:(lra) ltac:(lra) ltac:(lra) ltac:(lra) ltac:(lra) Q3 O5 (N _ _ C5 _ K3)) as O6. apply (within_le s _ _ _ _ 66.4 8 SS) in O6; try lra.
  (* the point *)
  assert (E : bezier3 x y z w k = x + k * (3 * (y - x)) + k ^ 2 * (3 * (z - 2 * y + x)) + k ^ 3 * (w - 3 * z + 3 * y - x)) by (unfold bezier3; ring).
  assert (B9 : Rabs (x + k * (3 * (y - x)) + k ^ 2 * (3 * (z - 2 * y + x)) + k ^ 3 * (w - 3 * z + 3 * y - x)) <= 1 * s).
  { rewrite <- E, Rmult_1_l. apply bezier3_le; try assumption; apply Rabs_le; lra. }
  pose proof (add_within s _ _ 146 19 _ _ 66.4 8 1 SS ltac:(lra) ltac:(lra) ltac:(lra) N6 O6 B9) as L. apply (within_le s _ _ _ _ 300 1 SS) in L; try lra.
  rewrite E. exact L.
Qed.
(** A cubic curve, by its coefficients, is drawn with a larger error than a quadratic one. *)
Theorem C169_cubic : forall pow s a b c d t, accurate pow -> size s -> in_drawing s a -> in_drawing s b -> in_drawing s c -> in_drawing s d -> parameter t ->
  near_point 300 s (d_cubic_by pow a b c d t) (bezier3 (X a) (X b) (X c) (X d) (B2R t)) (bezier3 (Y a) (Y b) (Y c) (Y d) (B2R t)).
Proof.
  intros pow s a b c d t A SS PA PB PC PD PT. destruct (point_within s a PA), (point_within s b PB), (point_within s c PC), (point_within s d PD).
  apply (near_within 300 s _ _ _ 1); apply cubic_coordinate; assumption.
Qed.
Print Assumptions C169_cubic.

(** ** Splits *)
Definition near_points (k s : R) (ps : list dvec) (xs ys : list R) : Prop :=
  length ps = length xs /\ length ps = length ys /\ forall i, (i < length ps)%nat -> near_point k s (nth i ps (D zero zero)) (nth i xs 0) (nth i ys 0).
(** The control points of both parts, by the construction of de Casteljau. *)
Definition first3 (a b c t : R) : list R := [a; towards a b t; bezier2 a b c t].
Definition last3 (a b c t : R) : list R := [bezier2 a b c t; towards b c t; c].
Definition first4 (a b c d t : R) : list R := [a; towards a b t; bezier2 a b c t; bezier3 a b c d t].
Definition last4 (a b c d t : R) : list R := [bezier3 a b c d t; bezier2 b c d t; towards c d t; d].

Lemma step_within s t (SS : size s) (PT : parameter t) p q x y x' y' e : 0 <= e <= 500 ->
  within s (d_x p) x e 1 /\ within s (d_y p) y e 1 -> within s (d_x q) x' e 1 /\ within s (d_y q) y' e 1 ->
  within s (d_x (d_interpolate p q t)) (towards x x' (B2R t)) (e + 3.1) 1 /\ within s (d_y (d_interpolate p q t)) (towards y y' (B2R t)) (e + 3.1) 1.
Proof. intros E (A & B) (C & D). split; apply (towards_within s SS t PT); assumption. Qed.
Lemma near_all k s ps xs ys : size s -> Forall2 (fun p xy => exists e, e <= k /\ within s (d_x p) (fst xy) e 1 /\ within s (d_y p) (snd xy) e 1) ps (combine xs ys) ->
  length ps = length xs -> length ps = length ys -> near_points k s ps xs ys.
Proof.
  intros SS F LX LY. split; [exact LX|]. split; [exact LY|]. revert xs ys LX LY F. induction ps as [|p ps IH]; intros [|x xs] [|y ys] LX LY F i I; try discriminate; [cbn in I; lia|].
  cbn in F. inversion F as [|p' q ps' qs (e & E & A & B) F']; subst. destruct i as [|i].
  - cbn. apply (near_within k s _ _ _ 1); [apply (within_le s _ _ e 1); auto; lra|apply (within_le s _ _ e 1); auto; lra].
  - cbn. apply IH; auto. cbn in I. lia.
Qed.
Theorem C169_split_quadratic : forall s a b c t, size s -> in_drawing s a -> in_drawing s b -> in_drawing s c -> parameter t ->
  near_points 7 s (fst (d_quadratic_split a b c t)) (first3 (X a) (X b) (X c) (B2R t)) (first3 (Y a) (Y b) (Y c) (B2R t)) /\
  near_points 7 s (snd (d_quadratic_split a b c t)) (last3 (X a) (X b) (X c) (B2R t)) (last3 (Y a) (Y b) (Y c) (B2R t)).
Proof.
  intros s a b c t SS PA PB PC PT. pose proof (point_within s a PA) as WA. pose proof (point_within s b PB) as WB. pose proof (point_within s c PC) as WC.
  pose proof (step_within s t SS PT a b _ _ _ _ 0 ltac:(lra) WA WB) as W01. pose proof (step_within s t SS PT b c _ _ _ _ 0 ltac:(lra) WB WC) as W12.
  pose proof (step_within s t SS PT _ _ _ _ _ _ (0 + 3.1) ltac:(lra) W01 W12) as WP.
  replace (towards (towards (X a) (X b) (B2R t)) (towards (X b) (X c) (B2R t)) (B2R t)) with (bezier2 (X a) (X b) (X c) (B2R t)) in WP by (unfold towards, bezier2; ring).
  replace (towards (towards (Y a) (Y b) (B2R t)) (towards (Y b) (Y c) (B2R t)) (B2R t)) with (bezier2 (Y a) (Y b) (Y c) (B2R t)) in WP by (unfold towards, bezier2; ring).
  split; apply near_all; try reflexivity; try exact SS; cbn; repeat constructor; eexists; (split; [|eassumption || exact WA || exact WB || exact WC || exact W01 || exact W12 || exact WP]); lra.
Qed.
Print Assumptions C169_split_quadratic.
Theorem C169_split_cubic : forall s a b c d t, size s -> in_drawing s a -> in_drawing s b -> in_drawing s c -> in_drawing s d -> parameter t ->
  near_points 10 s (fst (d_cubic_split a b c d t)) (first4 (X a) (X b) (X c) (X d) (B2R t)) (first4 (Y a) (Y b) (Y c) (Y d) (B2R t)) /\
  near_points 10 s (snd (d_cubic_split a b c d t)) (last4 (X a) (X b) (X c) (X d) (B2R t)) (last4 (Y a) (Y b) (Y c) (Y d) (B2R t)).
Proof.
  intros s a b c d t SS PA PB PC PD PT. pose proof (point_within s a PA) as WA. pose proof (point_within s b PB) as WB. pose proof (point_within s c PC) as WC. pose proof (point_within s d PD) as WD.
  pose proof (step_within s t SS PT a b _ _ _ _ 0 ltac:(lra) WA WB) as W01. pose proof (step_within s t SS PT b c _ _ _ _ 0 ltac:(lra) WB WC) as W12. pose proof (step_within s t SS PT c d _ _ _ _ 0 ltac:(lra) WC WD) as W23.
  pose proof (step_within s t SS PT _ _ _ _ _ _ (0 + 3.1) ltac:(lra) W01 W12) as WL. pose proof (step_within s t SS PT _ _ _ _ _ _ (0 + 3.1) ltac:(lra) W12 W23) as WR.
  pose proof (step_within s t SS PT _ _ _ _ _ _ (0 + 3.1 + 3.1) ltac:(lra) WL WR) as WP.
  assert (E2 : forall x y z k, towards (towards x y k) (towards y z k) k = bezier2 x y z k) by (intros; unfold towards, bezier2; ring).
  rewrite !E2 in WL. rewrite !E2 in WR.
  assert (E3 : forall x y z w k, towards (towards (towards x y k) (towards y z k) k) (towards (towards y z k) (towards z w k) k) k = bezier3 x y z w k) by (intros; unfold towards, bezier3; ring).
  rewrite !E3 in WP.
  split; apply near_all; try reflexivity; try exact SS; cbn; repeat constructor; eexists; (split; [|exact WA || exact WB || exact WC || exact WD || exact W01 || exact W12 || exact W23 || exact WL || exact WR || exact WP]); lra.
Qed.
Print Assumptions C169_split_cubic.

(** ** Lines *)
(** The point of a line through two points, between these points. *)
Theorem C169_line : forall s a b t, size s -> in_drawing s a -> in_drawing s b -> parameter t ->
  near_point 8 s (d_line_point a b t) (towards (X a) (X b) (B2R t)) (towards (Y a) (Y b) (B2R t)).
Proof.
  intros s a b t SS PA PB PT. destruct (point_within s a PA) as (AX & AY), (point_within s b PB) as (BX & BY). pose proof (scale_pos s SS) as P.
  assert (G : forall p q, within s p (B2R p) 0 1 -> within s q (B2R q) 0 1 -> within s (dbl_add p (fmul t (dbl_sub q p))) (towards (B2R p) (B2R q) (B2R t)) 8 1).
  { intros p q WP WQ. pose proof (weight_t t PT) as WT. pose proof PT as (_ & T). apply (within_le 1 _ _ _ _ 0 1 scale_one) in WT; try lra.
    pose proof WP as (_ & _ & BP). pose proof WQ as (_ & _ & BQ). rewrite Rmult_1_l in BP, BQ. set (x := B2R p) in *. set (y := B2R q) in *. set (k := B2R t) in *.
    assert (B3 : Rabs ((1 - k) * x + k * y) <= (1 - k + k) * s) by (apply combine_le; lra).
    apply Rabs_le_inv in BP, BQ. assert (B1 : Rabs (y - x) <= 2 * s) by (apply Rabs_le; lra).
    assert (B2 : Rabs (k * (y - x)) <= 2 * s) by (rewrite Rabs_mult, (Rabs_pos_eq k) by lra; pose proof (Rabs_pos (y - x)); nra).
    pose proof (sub_within s _ _ 0 1 _ _ 0 1 2 SS ltac:(lra) ltac:(lra) ltac:(lra) WQ WP B1) as M1. apply (within_le s _ _ _ _ 2.1 2 SS) in M1; try lra.
    pose proof (mul_within s _ _ 0 1 _ _ 2.1 2 2 SS ltac:(lra) ltac:(lra) ltac:(lra) ltac:(lra) ltac:(lra) ltac:(lra) WT M1 B2) as M2. apply (within_le s _ _ _ _ 4.2 2 SS) in M2; try lra.
    replace ((1 - k) * x + k * y) with (x + k * (y - x)) in B3 by ring. replace (1 - k + k) with 1 in B3 by ring.
    pose proof (add_within s _ _ 0 1 _ _ 4.2 2 1 SS ltac:(lra) ltac:(lra) ltac:(lra) WP M2 B3) as M3. apply (within_le s _ _ _ _ 8 1 SS) in M3; try lra.
    unfold towards. replace ((1 - k) * x + k * y) with (x + k * (y - x)) by ring. exact M3. }
  apply (near_within 8 s _ _ _ 1); apply G; assumption.
Qed.
Print Assumptions C169_line.
(** The point of a segment, also where C166 does not apply because a number is very small. *)
Theorem C169_segment : forall s a b t, size s -> in_drawing s a -> in_drawing s b -> parameter t ->
  near_point 3.1 s (d_interpolate a b t) (towards (X a) (X b) (B2R t)) (towards (Y a) (Y b) (B2R t)).
Proof.
  intros s a b t SS PA PB PT. destruct (step_within s t SS PT a b _ _ _ _ 0 ltac:(lra) (point_within s a PA) (point_within s b PB)) as (A & B).
  rewrite Rplus_0_l in A, B. apply (near_within 3.1 s _ _ _ 1); assumption.
Qed.
Print Assumptions C169_segment.

(** ** Products are accurate powers *)
Lemma products_accurate : accurate products.
Proof.
  intros x n (F & B) N. pose proof u_tiny as U. set (y := B2R x) in *. replace (4 / 2 ^ 53) with (4 * u) by (unfold u; field).
  assert (T : bpow radix2 (-1070) = 16 * bpow radix2 (-1074)) by (change (-1070)%Z with (4 + -1074)%Z; rewrite bpow_plus; cbn [bpow]; cbn; lra). pose proof (bpow_gt_0 radix2 (-1074)) as PB. set (h := bpow radix2 (-1074)) in *.
  assert (M : forall p q : float, finite p -> finite q -> 0 <= val p <= 1 -> 0 <= val q <= 1 -> finite (fmul p q) /\ val (fmul p q) = rnd (val p * val q) /\ 0 <= val (fmul p q) <= 1).
  { intros p q FP FQ BP BQ. assert (R : 0 <= rnd (val p * val q) <= 1).
    { split; [apply round_ge_generic; auto with typeclass_instances; [apply generic_format_0|nra]|apply round_le_generic; auto with typeclass_instances; [apply (power_format 0); lia|nra]]. }
    pose proof (@Bmult_correct 53 1024 prec_ok emax_ok mode_NE p q) as C.
    change (round radix2 fexp (round_mode mode_NE) (B2R p * B2R q)) with (rnd (val p * val q)) in C.
    rewrite Rlt_bool_true in C. 2:{ rewrite Rabs_pos_eq by lra. apply Rle_lt_trans with (1 := proj2 R). change 1 with (bpow radix2 0). apply bpow_lt. lia. }
    destruct C as (C1 & C2 & _). rewrite FP, FQ in C2. split; [exact C2|]. unfold val, fmul in *. rewrite C1. split; [reflexivity|exact R]. }
  destruct (M x x F F B B) as (F2 & V2 & B2). assert (E2 : Rabs (val (fmul x x) - y * y) <= u * (y * y) + / 2 * h).
  { rewrite V2. pose proof (rnd_error (val x * val x)) as E. unfold val in E |- *. fold y in E |- *. rewrite (Rabs_pos_eq (y * y)) in E by nra. exact E. }
  destruct N as [-> | ->].
  - change (products x 2) with (fmul x x). split; [exact F2|]. fold (val (fmul x x)). replace (y ^ 2) with (y * y) by ring. assert (0 <= u * (y * y)) by nra. lra.
  - change (products x 3) with (fmul (fmul x x) x). destruct (M _ _ F2 F B2 B) as (F3 & V3 & _). split; [exact F3|]. fold (val (fmul (fmul x x) x)).
    rewrite V3. set (q := val (fmul x x)) in *. pose proof (rnd_error (q * val x)) as E3. fold h in E3. unfold val in E3 |- *. fold y in E3 |- *. rewrite (Rabs_pos_eq (q * y)) in E3 by nra.
    apply Rabs_le_inv in E2. apply Rabs_le_inv in E3. replace (y ^ 3) with (y * y * y) by ring. assert (Y2 : 0 <= y * y) by nra. assert (Y3 : 0 <= y * y * y) by nra.
    assert (Q1 : - (u * (y * y) + / 2 * h) * y <= (q - y * y) * y <= (u * (y * y) + / 2 * h) * y) by (split; apply Rmult_le_compat_r; lra).
    assert (HY : h * y <= h) by nra. assert (0 <= h * y) by nra. set (c := y * y * y) in *. assert (Z1 : (q - y * y) * y = q * y - c) by (unfold c; ring).
    assert (Z2 : (u * (y * y) + / 2 * h) * y = u * c + / 2 * (h * y)) by (unfold c; ring). assert (Z3 : - (u * (y * y) + / 2 * h) * y = - (u * c + / 2 * (h * y))) by (unfold c; ring).
    rewrite Z1, Z2, Z3 in Q1. assert (UC : 0 <= u * c <= 1 * c) by (split; [apply Rmult_le_pos; lra|apply Rmult_le_compat_r; lra]). assert (UH : 0 <= u * h <= 1 * h) by (split; [apply Rmult_le_pos; lra|apply Rmult_le_compat_r; lra]).
    assert (Q2 : u * (q * y) <= u * (2 * c + h)) by (apply Rmult_le_compat_l; lra). assert (Z4 : u * (2 * c + h) = 2 * (u * c) + u * h) by ring. rewrite Z4 in Q2.
    assert (Z5 : 4 * u * c = 4 * (u * c)) by ring. rewrite Z5, T. apply Rabs_le. split; lra.
Qed.

(** ** What is lost *)
(** A curve leaves the box of its control points: three or four points at 0.1 or 0.3 give a curve
    which moves. *)
Theorem C169_box_refuted : accurate products /\
  (let p := D (tenths 1) zero in parameter (tenths 1) /\ 0 < B2R (tenths 1) < B2R (d_x (d_quadratic_by products p p p (tenths 1)))) /\
  (let p := D (tenths 3) zero in parameter one /\ 0 < B2R (tenths 3) < B2R (d_x (d_cubic_by products p p p p one))).
Proof.
  split; [exact products_accurate|]. assert (L : forall p q : float, number p -> number q -> Bltb p q = true -> B2R p < B2R q).
  { intros p q FP FQ H. rewrite Bltb_correct in H by assumption. destruct (Rlt_bool_spec (B2R p) (B2R q)); [assumption|discriminate]. }
  assert (L0 : forall p : float, number p -> Bltb zero p = true -> 0 < B2R p) by (intros p FP H; change 0 with (B2R zero); apply L; [reflexivity|exact FP|exact H]).
  assert (L1 : forall p : float, number p -> Bltb p one = true -> B2R p < 1) by (intros p FP H; replace 1 with (B2R one) by apply one_val; apply L; [exact FP|vm_compute; reflexivity|exact H]).
  split; cbv zeta.
  - assert (F : number (tenths 1)) by (vm_compute; reflexivity). assert (A : 0 < B2R (tenths 1)) by (apply L0; vm_compute; reflexivity). assert (B : B2R (tenths 1) < 1) by (apply L1; vm_compute; reflexivity).
    split; [split; [exact F|lra]|]. split; [exact A|]. apply L; vm_compute; reflexivity.
  - split; [split; [vm_compute; reflexivity|]|split].
    + replace (B2R one) with 1 by (symmetry; apply one_val). lra.
    + apply L0; vm_compute; reflexivity.
    + apply L; vm_compute; reflexivity.
Qed.
Print Assumptions C169_box_refuted.
Example C169_example : accurate products /\ size 1000 /\ in_drawing 1000 (D (tenths 1) three) /\ parameter (tenths 3).
Proof.
  split; [exact products_accurate|]. assert (V : (0 < B2R (tenths 1) < 1) /\ (0 < B2R (tenths 3) < 1) /\ B2R three = 3) by (vm_compute; repeat split; lra). destruct V as (V1 & V2 & V3).
  split; [|split].
  - split; [apply Rle_trans with (bpow radix2 0); [apply bpow_le; lia|cbn; lra]|apply Rle_trans with (bpow radix2 10); [cbn; lra|apply bpow_le; lia]].
  - unfold in_drawing. cbn [d_x d_y]. rewrite V3, !Rabs_pos_eq by lra. split; [split; vm_compute; reflexivity|]. lra.
  - split; [vm_compute; reflexivity|lra].
Qed.
