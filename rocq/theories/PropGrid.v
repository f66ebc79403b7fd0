(** C164: coordinates which are multiples of a power of two: the double precision numbers commit no error. *)
From Coq Require Import Reals Lra Lia List Bool ZArith.
From Flocq Require Import Core BinarySingleNaN.
From Verif Require Import Base ModelColor ModelDouble ProofDouble PropDouble ProofGrid.
Import ListNotations.
Local Open Scope R_scope.

(** ** What is expected *)
(** A number of the grid of step 2^e: an integer of absolute value at most [m], times 2^e. *)
Definition grid_number (e m : Z) (x : float) : Prop :=
  number x /\ exists z, B2R x = IZR z * bpow radix2 e /\ (Z.abs z <= m)%Z.
Definition grid_point (e m : Z) (a : dvec) : Prop := grid_number e m (d_x a) /\ grid_number e m (d_y a).
(** Steps which are neither too small nor too large. *)
Definition usual (e : Z) : Prop := (-400 <= e <= 400)%Z.
Notation X a := (B2R (d_x a)).
Notation Y a := (B2R (d_y a)).
(** The parameters 0, 1/64, 2/64, ... 1. *)
Definition fraction64 (t : float) : Prop := number t /\ exists k, (0 <= k <= 64)%Z /\ B2R t = IZR k / 64.
Definition bernstein2 (x0 x1 x2 t : R) : R := (1 - t) * (1 - t) * x0 + 2 * t * (1 - t) * x1 + t * t * x2.
Definition bernstein3 (x0 x1 x2 x3 t : R) : R :=
  (1 - t) * (1 - t) * (1 - t) * x0 + 3 * t * (1 - t) * (1 - t) * x1 + 3 * t * t * (1 - t) * x2 + t * t * t * x3.

(** ** Lemmas *)
Lemma grid_exact e m x : grid_number e m x -> exactly x (B2R x) e m.
Proof. intros (F & Z). split; [exact F|]. split; [reflexivity|exact Z]. Qed.
Lemma exact_at x r e m : exactly x r e m -> number x /\ B2R x = r.
Proof. intros (F & V & _). split; assumption. Qed.
Lemma fraction_exact t : fraction64 t -> exactly t (B2R t) (-6) 64.
Proof.
  intros (F & k & K & E). split; [exact F|]. split; [reflexivity|]. exists k. split; [|lia]. rewrite E. cbn. unfold Z.pow_pos. cbn. lra.
Qed.
Lemma complement_exact t : fraction64 t -> exactly (dbl_sub one t) (1 - B2R t) (-6) 64.
Proof.
  intros T. pose proof (exact_finer one 1 0 1 6 ltac:(lia) exact_one) as O. pose proof (exact_sub _ _ _ _ _ _ _ O (fraction_exact t T)) as S.
  change (0 - 6)%Z with (-6)%Z in S. destruct S as (F & V & _); [split; cbn; lia|]. split; [exact F|]. split; [exact V|].
  destruct T as (_ & k & K & E). exists (64 - k)%Z. split; [|lia]. rewrite E, minus_IZR. cbn. unfold Z.pow_pos. cbn. lra.
Qed.
Ltac ranges := unfold in_range, usual in *; split; lia.

Lemma interpolate_exact e m x y r s t : exactly x r e m -> exactly y s e m -> fraction64 t -> usual (e - 6) -> (0 <= m < 2 ^ 46)%Z ->
  exactly (dbl_add (fmul (dbl_sub one t) x) (fmul t y)) ((1 - B2R t) * r + B2R t * s) (e - 6) (128 * m).
Proof.
  intros A B T U M. pose proof (exact_mul _ _ _ _ _ _ _ _ (complement_exact t T) A ltac:(ranges)) as P.
  pose proof (exact_mul _ _ _ _ _ _ _ _ (fraction_exact t T) B ltac:(ranges)) as Q.
  eapply exact_as; [| | |exact (exact_add _ _ _ _ _ _ _ P Q ltac:(ranges))]; [reflexivity|lia|lia].
Qed.
Lemma quadratic_exact e x y z r s u t : exactly x r e (2 ^ 30) -> exactly y s e (2 ^ 30) -> exactly z u e (2 ^ 30) -> fraction64 t -> usual e ->
  let v := dbl_sub one t in
  number (dbl_add (dbl_add (fmul (dbl_square v) x) (fmul v (fmul t (fmul two y)))) (fmul (dbl_square t) z)) /\
  B2R (dbl_add (dbl_add (fmul (dbl_square v) x) (fmul v (fmul t (fmul two y)))) (fmul (dbl_square t) z)) = bernstein2 r s u (B2R t).
Proof.
  intros A B C T U v. pose proof (complement_exact t T) as V. fold v in V. pose proof (fraction_exact t T) as TE. unfold usual in U.
  assert (V2 : exactly (dbl_square v) ((1 - B2R t) * (1 - B2R t)) (-12) 4096) by (apply (exact_mul v v _ _ (-6) (-6) 64 64 V V); ranges).
  assert (T2 : exactly (dbl_square t) (B2R t * B2R t) (-12) 4096) by (apply (exact_mul t t _ _ (-6) (-6) 64 64 TE TE); ranges).
  assert (P : exactly (fmul (dbl_square v) x) ((1 - B2R t) * (1 - B2R t) * r) (-12 + e) (4096 * 2 ^ 30)) by (apply exact_mul; auto; ranges).
  assert (Q0 : exactly (fmul two y) (2 * s) e (2 * 2 ^ 30)) by (apply (exact_mul two y 2 s 0 e 2 (2 ^ 30) exact_two B); ranges).
  assert (Q1 : exactly (fmul t (fmul two y)) (B2R t * (2 * s)) (-6 + e) (64 * (2 * 2 ^ 30))) by (apply exact_mul; auto; ranges).
  assert (Q : exactly (fmul v (fmul t (fmul two y))) ((1 - B2R t) * (B2R t * (2 * s))) (-6 + (-6 + e)) (64 * (64 * (2 * 2 ^ 30)))) by (apply exact_mul; auto; ranges).
  assert (W : exactly (fmul (dbl_square t) z) (B2R t * B2R t * u) (-12 + e) (4096 * 2 ^ 30)) by (apply exact_mul; auto; ranges).
  replace (-6 + (-6 + e))%Z with (-12 + e)%Z in Q by lia.
  pose proof (exact_add _ _ _ _ _ _ _ P Q ltac:(ranges)) as S1. pose proof (exact_add _ _ _ _ _ _ _ S1 W ltac:(ranges)) as S2.
  apply exact_at in S2. destruct S2 as [F E]. split; [exact F|]. rewrite E. unfold bernstein2. ring.
Qed.
Lemma cubic_exact e x y z w r s u q t : exactly x r e (2 ^ 30) -> exactly y s e (2 ^ 30) -> exactly z u e (2 ^ 30) -> exactly w q e (2 ^ 30) ->
  fraction64 t -> usual e ->
  let f := dbl_add (dbl_add (dbl_add x (fmul t (fmul three (dbl_sub y x))))
                            (fmul (dbl_square t) (fmul three (dbl_add (dbl_sub z (fmul two y)) x))))
                   (fmul (dbl_cube t) (dbl_sub (dbl_add (dbl_sub w (fmul three z)) (fmul three y)) x)) in
  number f /\ B2R f = bernstein3 r s u q (B2R t).
Proof.
  intros A B C D T U f. pose proof (fraction_exact t T) as TE. unfold usual in U.
  assert (T2 : exactly (dbl_square t) (B2R t * B2R t) (-12) 4096) by (apply (exact_mul t t _ _ (-6) (-6) 64 64 TE TE); ranges).
  assert (T3 : exactly (dbl_cube t) (B2R t * B2R t * B2R t) (-18) 262144) by (apply (exact_mul _ t _ _ (-12) (-6) 4096 64 T2 TE); ranges).
  assert (C1 : exactly (fmul three (dbl_sub y x)) (3 * (s - r)) e (3 * (2 ^ 30 + 2 ^ 30))).
  { apply (exact_mul three _ 3 _ 0 e 3); [exact exact_three|apply exact_sub; auto; ranges|ranges]. }
  assert (Y2 : exactly (fmul two y) (2 * s) e (2 * 2 ^ 30)) by (apply (exact_mul two y 2 s 0 e 2 (2 ^ 30) exact_two B); ranges).
  assert (C2 : exactly (fmul three (dbl_add (dbl_sub z (fmul two y)) x)) (3 * (u - 2 * s + r)) e (3 * (2 ^ 30 + 2 * 2 ^ 30 + 2 ^ 30))).
  { apply (exact_mul three _ 3 _ 0 e 3); [exact exact_three| |ranges]. apply exact_add; auto; [|ranges]. apply exact_sub; auto; ranges. }
  assert (Y3 : exactly (fmul three y) (3 * s) e (3 * 2 ^ 30)) by (apply (exact_mul three y 3 s 0 e 3 (2 ^ 30) exact_three B); ranges).
  assert (Z3 : exactly (fmul three z) (3 * u) e (3 * 2 ^ 30)) by (apply (exact_mul three z 3 u 0 e 3 (2 ^ 30) exact_three C); ranges).
  assert (C3 : exactly (dbl_sub (dbl_add (dbl_sub w (fmul three z)) (fmul three y)) x) (q - 3 * u + 3 * s - r) e (2 ^ 30 + 3 * 2 ^ 30 + 3 * 2 ^ 30 + 2 ^ 30)).
  { apply exact_sub; auto; [|ranges]. apply exact_add; auto; [|ranges]. apply exact_sub; auto; ranges. }
  pose proof (exact_mul _ _ _ _ _ _ _ _ TE C1 ltac:(ranges)) as P1. pose proof (exact_mul _ _ _ _ _ _ _ _ T2 C2 ltac:(ranges)) as P2.
  pose proof (exact_mul _ _ _ _ _ _ _ _ T3 C3 ltac:(ranges)) as P3.
  pose proof (exact_finer _ _ _ _ 18 ltac:(lia) A) as A'. pose proof (exact_finer _ _ _ _ 12 ltac:(lia) P1) as P1'.
  pose proof (exact_finer _ _ _ _ 6 ltac:(lia) P2) as P2'.
  replace (-6 + e - 12)%Z with (e - 18)%Z in P1' by lia. replace (-12 + e - 6)%Z with (e - 18)%Z in P2' by lia. replace (-18 + e)%Z with (e - 18)%Z in P3 by lia.
  pose proof (exact_add _ _ _ _ _ _ _ A' P1' ltac:(ranges)) as S1. pose proof (exact_add _ _ _ _ _ _ _ S1 P2' ltac:(ranges)) as S2.
  pose proof (exact_add _ _ _ _ _ _ _ S2 P3 ltac:(ranges)) as S3. apply exact_at in S3. destruct S3 as [F E]. split; [exact F|].
  etransitivity; [exact E|]. unfold bernstein3. ring.
Qed.

(** ** Vectors *)
(** Sums, differences and middles are exact. *)
Theorem C164_sums : forall e a b, usual e -> grid_point e (2 ^ 51) a -> grid_point e (2 ^ 51) b ->
  is_at (d_add a b) (X a + X b) (Y a + Y b) /\ is_at (d_sub a b) (X a - X b) (Y a - Y b) /\
  is_at (d_middle a b) ((X a + X b) / 2) ((Y a + Y b) / 2).
Proof.
  intros e a b U [A1 A2] [B1 B2]. apply grid_exact in A1, A2, B1, B2. unfold usual in U.
  assert (G : forall x y, exactly x (B2R x) e (2 ^ 51) -> exactly y (B2R y) e (2 ^ 51) ->
    (number (dbl_add x y) /\ B2R (dbl_add x y) = B2R x + B2R y) /\ (number (dbl_sub x y) /\ B2R (dbl_sub x y) = B2R x - B2R y) /\
    (number (fmul half (dbl_add x y)) /\ B2R (fmul half (dbl_add x y)) = (B2R x + B2R y) / 2)).
  { intros x y EX EY. pose proof (exact_add _ _ _ _ _ _ _ EX EY ltac:(ranges)) as S. pose proof (exact_sub _ _ _ _ _ _ _ EX EY ltac:(ranges)) as M.
    pose proof (exact_mul _ _ _ _ _ _ _ _ exact_half S ltac:(ranges)) as H. apply exact_at in S, M, H. split; [exact S|]. split; [exact M|].
    destruct H as [H1 H2]. split; [exact H1|]. rewrite H2. lra. }
  destruct (G _ _ A1 B1) as ((P1 & P2) & (P3 & P4) & P5 & P6), (G _ _ A2 B2) as ((Q1 & Q2) & (Q3 & Q4) & Q5 & Q6). repeat split; assumption.
Qed.
Print Assumptions C164_sums.
(** What is added and taken away leaves the vector as it was, to be compared with C160_cancel_refuted. *)
Theorem C164_cancel : forall e a b, usual e -> grid_point e (2 ^ 50) a -> grid_point e (2 ^ 50) b -> same_point (d_sub (d_add a b) b) a.
Proof.
  intros e a b U [A1 A2] [B1 B2]. apply grid_exact in A1, A2, B1, B2. unfold usual in U.
  assert (G : forall x y, exactly x (B2R x) e (2 ^ 50) -> exactly y (B2R y) e (2 ^ 50) ->
    number (dbl_sub (dbl_add x y) y) /\ B2R (dbl_sub (dbl_add x y) y) = B2R x).
  { intros x y EX EY. pose proof (exact_add _ _ _ _ _ _ _ EX EY ltac:(ranges)) as S. pose proof (exact_sub _ _ _ _ _ _ _ S EY ltac:(ranges)) as M.
    apply exact_at in M. destruct M as [F E]. split; [exact F|]. rewrite E. ring. }
  destruct (G _ _ A1 B1), (G _ _ A2 B2). repeat split; assumption.
Qed.
Print Assumptions C164_cancel.
(** Cross products are exact. *)
Theorem C164_cross : forall e a b, (-200 <= e <= 200)%Z -> grid_point e (2 ^ 25) a -> grid_point e (2 ^ 25) b ->
  number (d_cross a b) /\ B2R (d_cross a b) = X a * Y b - Y a * X b.
Proof.
  intros e a b U [A1 A2] [B1 B2]. apply grid_exact in A1, A2, B1, B2. unfold d_cross. eapply exact_at.
  apply exact_sub; [apply exact_mul; eauto; ranges|apply exact_mul; eauto; ranges|ranges].
Qed.
Print Assumptions C164_cross.
(** Lengths are the exact ones, rounded once; a length which is a number of the grid itself is exact. *)
Theorem C164_length : forall fused e a, (-200 <= e <= 200)%Z -> grid_point e (2 ^ 25) a ->
  number (d_magnitude fused a) /\ B2R (d_magnitude fused a) = nearest (sqrt (X a * X a + Y a * Y a)).
Proof.
  intros fused e a U [A1 A2]. apply grid_exact in A1, A2. unfold d_magnitude.
  assert (XX : exactly (fmul (d_x a) (d_x a)) (X a * X a) (e + e) (2 ^ 25 * 2 ^ 25)) by (apply exact_mul; auto; ranges).
  assert (S : exactly (if fused then dbl_fma (d_y a) (d_y a) (fmul (d_x a) (d_x a)) else dbl_add (fmul (d_x a) (d_x a)) (fmul (d_y a) (d_y a)))
    (X a * X a + Y a * Y a) (e + e) (2 ^ 25 * 2 ^ 25 + 2 ^ 25 * 2 ^ 25)).
  { destruct fused.
    - rewrite Rplus_comm. apply (exact_fma _ _ _ _ _ _ _ _ _ _ _ A2 A2 XX). ranges.
    - apply exact_add; [exact XX|apply exact_mul; auto; ranges|ranges]. }
  apply (exact_sqrt _ _ _ _ S). nra.
Qed.
Print Assumptions C164_length.
Theorem C164_length_exact : forall fused e a n, (-200 <= e <= 200)%Z -> grid_point e (2 ^ 25) a -> (0 <= n < 2 ^ 53)%Z ->
  let r := IZR n * bpow radix2 e in r * r = X a * X a + Y a * Y a -> B2R (d_magnitude fused a) = r.
Proof.
  intros fused e a n U G N r E. destruct (C164_length fused e a U G) as (_ & L). rewrite L, <- E.
  rewrite sqrt_square by (apply Rmult_le_pos; [apply IZR_le; lia|apply bpow_ge_0]).
  apply (representable n e n); [ranges|lia].
Qed.
Print Assumptions C164_length_exact.

(** ** Points of segments, lines and curves *)
Theorem C164_segment : forall e a b t, usual (e - 6) -> grid_point e (2 ^ 40) a -> grid_point e (2 ^ 40) b -> fraction64 t ->
  is_at (d_interpolate a b t) ((1 - B2R t) * X a + B2R t * X b) ((1 - B2R t) * Y a + B2R t * Y b).
Proof.
  intros e a b t U [A1 A2] [B1 B2] T. apply grid_exact in A1, A2, B1, B2.
  destruct (exact_at _ _ _ _ (interpolate_exact _ _ _ _ _ _ t A1 B1 T U ltac:(lia))), (exact_at _ _ _ _ (interpolate_exact _ _ _ _ _ _ t A2 B2 T U ltac:(lia))).
  repeat split; assumption.
Qed.
Print Assumptions C164_segment.
Theorem C164_line : forall e a b s, (-200 <= e <= 200)%Z -> grid_point e (2 ^ 25) a -> grid_point e (2 ^ 25) b -> grid_number 0 (2 ^ 25) s ->
  is_at (d_line_point a b s) (X a + B2R s * (X b - X a)) (Y a + B2R s * (Y b - Y a)).
Proof.
  intros e a b s U [A1 A2] [B1 B2] S. apply grid_exact in A1, A2, B1, B2, S.
  assert (G : forall x y, exactly x (B2R x) e (2 ^ 25) -> exactly y (B2R y) e (2 ^ 25) ->
    number (dbl_add x (fmul s (dbl_sub y x))) /\ B2R (dbl_add x (fmul s (dbl_sub y x))) = B2R x + B2R s * (B2R y - B2R x)).
  { intros x y EX EY. pose proof (exact_sub _ _ _ _ _ _ _ EY EX ltac:(ranges)) as M. pose proof (exact_mul _ _ _ _ _ _ _ _ S M ltac:(ranges)) as P.
    change (0 + e)%Z with e in P. exact (exact_at _ _ _ _ (exact_add _ _ _ _ _ _ _ EX P ltac:(ranges))). }
  destruct (G _ _ A1 B1), (G _ _ A2 B2). repeat split; assumption.
Qed.
Print Assumptions C164_line.
Theorem C164_quadratic : forall e a b c t, usual e -> grid_point e (2 ^ 30) a -> grid_point e (2 ^ 30) b -> grid_point e (2 ^ 30) c -> fraction64 t ->
  is_at (d_quadratic a b c t) (bernstein2 (X a) (X b) (X c) (B2R t)) (bernstein2 (Y a) (Y b) (Y c) (B2R t)).
Proof.
  intros e a b c t U [A1 A2] [B1 B2] [C1 C2] T. apply grid_exact in A1, A2, B1, B2, C1, C2.
  destruct (quadratic_exact _ _ _ _ _ _ _ t A1 B1 C1 T U), (quadratic_exact _ _ _ _ _ _ _ t A2 B2 C2 T U). repeat split; assumption.
Qed.
Print Assumptions C164_quadratic.
Theorem C164_cubic : forall e a b c d t, usual e -> grid_point e (2 ^ 30) a -> grid_point e (2 ^ 30) b -> grid_point e (2 ^ 30) c ->
  grid_point e (2 ^ 30) d -> fraction64 t ->
  is_at (d_cubic a b c d t) (bernstein3 (X a) (X b) (X c) (X d) (B2R t)) (bernstein3 (Y a) (Y b) (Y c) (Y d) (B2R t)).
Proof.
  intros e a b c d t U [A1 A2] [B1 B2] [C1 C2] [D1 D2] T. apply grid_exact in A1, A2, B1, B2, C1, C2, D1, D2.
  destruct (cubic_exact _ _ _ _ _ _ _ _ _ t A1 B1 C1 D1 T U), (cubic_exact _ _ _ _ _ _ _ _ _ t A2 B2 C2 D2 T U). repeat split; assumption.
Qed.
Print Assumptions C164_cubic.
(** A curve split at such a parameter: both parts end at the point of the curve, and are drawn on the curve. *)
Definition at_ (l : list dvec) (i : nat) : dvec := nth i l (D zero zero).
Theorem C164_split_quadratic : forall e a b c t, (-388 <= e <= 400)%Z -> grid_point e (2 ^ 30) a -> grid_point e (2 ^ 30) b -> grid_point e (2 ^ 30) c -> fraction64 t ->
  let '(l, r) := d_quadratic_split a b c t in
  at_ l 2 = at_ r 0 /\ same_point (at_ l 2) (d_quadratic a b c t) /\
  forall s, bernstein2 (X (at_ l 0)) (X (at_ l 1)) (X (at_ l 2)) s = bernstein2 (X a) (X b) (X c) (B2R t * s) /\
            bernstein2 (Y (at_ l 0)) (Y (at_ l 1)) (Y (at_ l 2)) s = bernstein2 (Y a) (Y b) (Y c) (B2R t * s) /\
            bernstein2 (X (at_ r 0)) (X (at_ r 1)) (X (at_ r 2)) s = bernstein2 (X a) (X b) (X c) (B2R t + (1 - B2R t) * s) /\
            bernstein2 (Y (at_ r 0)) (Y (at_ r 1)) (Y (at_ r 2)) s = bernstein2 (Y a) (Y b) (Y c) (B2R t + (1 - B2R t) * s).
Proof.
  intros e a b c t U A B C T. destruct (C164_quadratic e a b c t ltac:(unfold usual; lia) A B C T) as (N & QX & QY).
  destruct A as [A1 A2], B as [B1 B2], C as [C1 C2]. apply grid_exact in A1, A2, B1, B2, C1, C2.
  assert (G : forall x y z r s u, exactly x r e (2 ^ 30) -> exactly y s e (2 ^ 30) -> exactly z u e (2 ^ 30) ->
    let I x y := dbl_add (fmul (dbl_sub one t) x) (fmul t y) in let J x y := (1 - B2R t) * x + B2R t * y in
    B2R (I x y) = J r s /\ B2R (I y z) = J s u /\ number (I (I x y) (I y z)) /\ B2R (I (I x y) (I y z)) = J (J r s) (J s u)).
  { intros x y z r s u EX EY EZ I J.
    pose proof (interpolate_exact _ _ _ _ _ _ t EX EY T ltac:(unfold usual; lia) ltac:(lia)) as P.
    pose proof (interpolate_exact _ _ _ _ _ _ t EY EZ T ltac:(unfold usual; lia) ltac:(lia)) as Q.
    pose proof (interpolate_exact _ _ _ _ _ _ t P Q T ltac:(unfold usual; lia) ltac:(lia)) as S.
    apply exact_at in P, Q, S. destruct P, Q, S. repeat split; assumption. }
  destruct (G _ _ _ _ _ _ A1 B1 C1) as (P1 & P2 & P3 & P4), (G _ _ _ _ _ _ A2 B2 C2) as (Q1 & Q2 & Q3 & Q4).
  unfold d_quadratic_split, at_. cbn [nth]. split; [reflexivity|]. unfold same_point, is_at. rewrite QX, QY. unfold d_interpolate, d_add, d_scale, numbers. cbn [d_x d_y].
  rewrite P1, P2, P4, Q1, Q2, Q4. unfold bernstein2. repeat split; try assumption; ring.
Qed.
Print Assumptions C164_split_quadratic.
Theorem C164_split_cubic : forall e a b c d t, (-382 <= e <= 400)%Z -> grid_point e (2 ^ 30) a -> grid_point e (2 ^ 30) b -> grid_point e (2 ^ 30) c ->
  grid_point e (2 ^ 30) d -> fraction64 t ->
  let '(l, r) := d_cubic_split a b c d t in
  at_ l 3 = at_ r 0 /\ same_point (at_ l 3) (d_cubic a b c d t) /\
  forall s, bernstein3 (X (at_ l 0)) (X (at_ l 1)) (X (at_ l 2)) (X (at_ l 3)) s = bernstein3 (X a) (X b) (X c) (X d) (B2R t * s) /\
            bernstein3 (Y (at_ l 0)) (Y (at_ l 1)) (Y (at_ l 2)) (Y (at_ l 3)) s = bernstein3 (Y a) (Y b) (Y c) (Y d) (B2R t * s) /\
            bernstein3 (X (at_ r 0)) (X (at_ r 1)) (X (at_ r 2)) (X (at_ r 3)) s = bernstein3 (X a) (X b) (X c) (X d) (B2R t + (1 - B2R t) * s) /\
            bernstein3 (Y (at_ r 0)) (Y (at_ r 1)) (Y (at_ r 2)) (Y (at_ r 3)) s = bernstein3 (Y a) (Y b) (Y c) (Y d) (B2R t + (1 - B2R t) * s).
Proof.
  intros e a b c d t U A B C D' T. destruct (C164_cubic e a b c d t ltac:(unfold usual; lia) A B C D' T) as (N & QX & QY).
  destruct A as [A1 A2], B as [B1 B2], C as [C1 C2], D' as [D1 D2]. apply grid_exact in A1, A2, B1, B2, C1, C2, D1, D2.
  assert (G : forall x y z w r s u v, exactly x r e (2 ^ 30) -> exactly y s e (2 ^ 30) -> exactly z u e (2 ^ 30) -> exactly w v e (2 ^ 30) ->
    let I x y := dbl_add (fmul (dbl_sub one t) x) (fmul t y) in let J x y := (1 - B2R t) * x + B2R t * y in
    B2R (I x y) = J r s /\ B2R (I z w) = J u v /\ B2R (I (I x y) (I y z)) = J (J r s) (J s u) /\ B2R (I (I y z) (I z w)) = J (J s u) (J u v) /\
    number (I (I (I x y) (I y z)) (I (I y z) (I z w))) /\ B2R (I (I (I x y) (I y z)) (I (I y z) (I z w))) = J (J (J r s) (J s u)) (J (J s u) (J u v))).
  { intros x y z w r s u v EX EY EZ EW I J.
    pose proof (interpolate_exact _ _ _ _ _ _ t EX EY T ltac:(unfold usual; lia) ltac:(lia)) as P.
    pose proof (interpolate_exact _ _ _ _ _ _ t EY EZ T ltac:(unfold usual; lia) ltac:(lia)) as Q.
    pose proof (interpolate_exact _ _ _ _ _ _ t EZ EW T ltac:(unfold usual; lia) ltac:(lia)) as S.
    pose proof (interpolate_exact _ _ _ _ _ _ t P Q T ltac:(unfold usual; lia) ltac:(lia)) as PQ.
    pose proof (interpolate_exact _ _ _ _ _ _ t Q S T ltac:(unfold usual; lia) ltac:(lia)) as QS.
    pose proof (interpolate_exact _ _ _ _ _ _ t PQ QS T ltac:(unfold usual; lia) ltac:(lia)) as PQS.
    apply exact_at in P, S, PQ, QS, PQS. destruct P, S, PQ, QS, PQS. repeat split; assumption. }
  destruct (G _ _ _ _ _ _ _ _ A1 B1 C1 D1) as (P1 & P2 & P3 & P4 & P5 & P6), (G _ _ _ _ _ _ _ _ A2 B2 C2 D2) as (Q1 & Q2 & Q3 & Q4 & Q5 & Q6).
  unfold d_cubic_split, at_. cbn [nth]. split; [reflexivity|]. unfold same_point, is_at. rewrite QX, QY. unfold d_interpolate, d_add, d_scale, numbers. cbn [d_x d_y].
  rewrite P1, P2, P3, P4, P6, Q1, Q2, Q3, Q4, Q6. unfold bernstein3. repeat split; try assumption; ring.
Qed.
Print Assumptions C164_split_cubic.

(** ** Transformations *)
Definition grid_matrix (e m : Z) (t : dmat) : Prop :=
  grid_number e m (dm00 t) /\ grid_number e m (dm01 t) /\ grid_number e m (dm10 t) /\ grid_number e m (dm11 t).
(** The image of a point by a matrix of integers is exact. *)
Theorem C164_transformation : forall e t p, usual e -> grid_matrix 0 (2 ^ 25) t -> grid_number e (2 ^ 50) (dm02 t) -> grid_number e (2 ^ 50) (dm12 t) ->
  grid_point e (2 ^ 25) p ->
  is_at (d_apply t p) (B2R (dm00 t) * X p + B2R (dm01 t) * Y p + B2R (dm02 t)) (B2R (dm10 t) * X p + B2R (dm11 t) * Y p + B2R (dm12 t)).
Proof.
  intros e t p U (M00 & M01 & M10 & M11) M02 M12 [P1 P2]. apply grid_exact in M00, M01, M10, M11, M02, M12, P1, P2. unfold usual in U.
  assert (G : forall m0 m1 m2, exactly m0 (B2R m0) 0 (2 ^ 25) -> exactly m1 (B2R m1) 0 (2 ^ 25) -> exactly m2 (B2R m2) e (2 ^ 50) ->
    number (d_row m0 m1 m2 p) /\ B2R (d_row m0 m1 m2 p) = B2R m0 * X p + B2R m1 * Y p + B2R m2).
  { intros m0 m1 m2 E0 E1 E2. pose proof (exact_mul _ _ _ _ _ _ _ _ E0 P1 ltac:(ranges)) as A. pose proof (exact_mul _ _ _ _ _ _ _ _ E1 P2 ltac:(ranges)) as B.
    change (0 + e)%Z with e in A, B. pose proof (exact_mul _ _ _ _ _ _ _ _ E2 exact_one ltac:(ranges)) as C. rewrite Z.add_0_r in C.
    pose proof (exact_add _ _ _ _ _ _ _ A B ltac:(ranges)) as S. pose proof (exact_add _ _ _ _ _ _ _ S C ltac:(ranges)) as S'. apply exact_at in S'.
    destruct S' as [F E]. split; [exact F|]. unfold d_row. rewrite E. ring. }
  destruct (G _ _ _ M00 M01 M02), (G _ _ _ M10 M11 M12). repeat split; assumption.
Qed.
Print Assumptions C164_transformation.

(** ** Off the grid, with decimal numbers, the parts of a split curve do not end at the point of the curve. *)
Theorem C164_off_grid : exists a b c d t, numbers a /\ numbers b /\ numbers c /\ numbers d /\ number t /\
  d_eq (at_ (fst (d_cubic_split a b c d t)) 3) (d_cubic a b c d t) = false.
Proof.
  exists (D (tenths 1) zero), (D (tenths 2) zero), (D (tenths 4) zero), (D (tenths 7) zero), (tenths 3). unfold numbers, number. repeat split; vm_compute; reflexivity.
Qed.
Print Assumptions C164_off_grid.

Example C164_case : grid_point 0 (2 ^ 25) (D three (of_int 4)) /\ fraction64 half /\ d_eq (D (d_magnitude true (D three (of_int 4))) zero) (D (of_int 5) zero) = true.
Proof.
  assert (F : forall z, (Z.abs z <= 2 ^ 25)%Z -> number (of_int z) -> B2R (of_int z) = IZR z -> grid_number 0 (2 ^ 25) (of_int z)).
  { intros z B N E. split; [exact N|]. exists z. split; [rewrite E; cbn; ring|exact B]. }
  split; [split; apply F; try lia; unfold number; vm_compute; repeat split; lra|]. split; [|vm_compute; reflexivity].
  split; [vm_compute; reflexivity|]. exists 32%Z. split; [lia|]. destruct exact_half as (_ & V & _). unfold val in V. rewrite V. lra.
Qed.
