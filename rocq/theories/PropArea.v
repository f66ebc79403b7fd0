(** C170: the accuracy of areas and perimeters in double precision. *)
From Coq Require Import Reals Lra Lia List Bool ZArith Permutation.
From Flocq Require Import Core Relative BinarySingleNaN.
From Verif Require Import Base ModelColor ModelDouble ModelDoublePolygon ModelDoubleArea ProofDouble PropDouble ProofAccuracy PropAccuracy PropDoublePolygon ProofCurveAccuracy PropCurveAccuracy ProofArea.
Import ListNotations.
Local Open Scope R_scope.

(** ** What is expected *)
Definition side_size (s : R) : Prop := bpow radix2 (-400) <= s <= bpow radix2 400.
Definition few {A : Type} (l : list A) : Prop := l <> [] /\ (Z.of_nat (length l) <= 2 ^ 40)%Z.
Definition triangle_area (a b c : R * R) : R := Rabs (shoelace a b + shoelace b c + shoelace c a) / 2.
Definition distance (p q : R * R) : R := sqrt ((fst q - fst p) ^ 2 + (snd q - snd p) ^ 2).
Fixpoint way_to (first : R * R) (l : list (R * R)) : R :=
  match l with
  | [] => 0
  | p :: l => match l with [] => distance p first | q :: _ => distance p q + way_to first l end
  end.
(** The length of the way around. *)
Definition way_around (l : list (R * R)) : R := match l with [] => 0 | first :: _ => way_to first l end.
(** A sum of positive numbers which is right up to one unit of rounding for each term. *)
Definition accurate_sum (sum : list float -> float) : Prop := forall l, (Z.of_nat (length l) <= 2 ^ 40)%Z -> Forall (fun x => number x /\ 0 <= B2R x <= bpow radix2 510) l ->
  number (sum l) /\ Rabs (B2R (sum l) - total (map B2R l)) <= 1.01 * INR (length l) / 2 ^ 53 * total (map B2R l).

(** ** Lemmas *)
Lemma square_scale s : side_size s -> 0 < s /\ scale s /\ scale (s * s).
Proof.
  intros [A B]. pose proof (bpow_gt_0 radix2 (-400)) as P. split; [lra|]. split.
  - split; [apply Rle_trans with (2 := A)|apply Rle_trans with (1 := B)]; apply bpow_le; lia.
  - split.
    + apply Rle_trans with (bpow radix2 (-800)); [apply bpow_le; lia|]. change (-800)%Z with (-400 + -400)%Z. rewrite bpow_plus. apply Rmult_le_compat; lra.
    + apply Rle_trans with (bpow radix2 800); [|apply bpow_le; lia]. change 800%Z with (400 + 400)%Z. rewrite bpow_plus. apply Rmult_le_compat; lra.
Qed.
Lemma product_le s x y p q : Rabs x <= p * s -> Rabs y <= q * s -> Rabs (x * y) <= p * q * (s * s).
Proof.
  intros A B. rewrite Rabs_mult. replace (p * q * (s * s)) with ((p * s) * (q * s)) by ring. apply Rmult_le_compat; auto using Rabs_pos.
Qed.
Lemma cross_within s p q : side_size s -> in_drawing s p -> in_drawing s q ->
  within (s * s) (dbl_sub (fmul (d_x p) (d_y q)) (fmul (d_x q) (d_y p))) (shoelace (X p, Y p) (X q, Y q)) 4.1 2.
Proof.
  intros SS PP PQ. destruct (square_scale s SS) as (P & S1 & S2). destruct (point_within s p PP) as (PX & PY), (point_within s q PQ) as (QX & QY).
  pose proof PX as (_ & _ & B1). pose proof PY as (_ & _ & B2). pose proof QX as (_ & _ & B3). pose proof QY as (_ & _ & B4).
  pose proof (product_le s _ _ 1 1 B1 B4) as L1. pose proof (product_le s _ _ 1 1 B3 B2) as L2. replace (1 * 1) with 1 in L1, L2 by ring.
  pose proof (product_within s _ _ 0 1 _ _ 0 1 1 P S2 ltac:(lra) ltac:(lra) ltac:(lra) ltac:(lra) ltac:(lra) ltac:(lra) PX QY L1) as M1. apply (within_le _ _ _ _ _ 1.03 1 S2) in M1; try lra.
  pose proof (product_within s _ _ 0 1 _ _ 0 1 1 P S2 ltac:(lra) ltac:(lra) ltac:(lra) ltac:(lra) ltac:(lra) ltac:(lra) QX PY L2) as M2. apply (within_le _ _ _ _ _ 1.03 1 S2) in M2; try lra.
  assert (L : Rabs (X p * Y q - X q * Y p) <= 2 * (s * s)). { unfold Rminus. apply Rle_trans with (1 := Rabs_triang _ _). rewrite Rabs_Ropp. lra. }
  pose proof (sub_within (s * s) _ _ 1.03 1 _ _ 1.03 1 2 S2 ltac:(lra) ltac:(lra) ltac:(lra) M1 M2 L) as M. apply (within_le _ _ _ _ _ 4.1 2 S2) in M; try lra.
  exact M.
Qed.
Lemma term_bound s x r : 0 < s -> within (s * s) x r 4.1 2 -> finite x /\ Rabs (val x) <= 2.001 * (s * s).
Proof.
  intros P (F & E & B). split; [exact F|]. pose proof u_tiny as U. replace (val x) with (val x - r + r) by ring. apply Rle_trans with (1 := Rabs_triang _ _).
  assert (0 < s * s) by nra. assert (4.1 * u * (s * s) <= / 1000 * (s * s)) by (apply Rmult_le_compat_r; lra). lra.
Qed.
Lemma crosses_near s first l : side_size s -> in_drawing s first -> Forall (in_drawing s) l ->
  Forall (fun y => finite y /\ Rabs (val y) <= 2.001 * (s * s)) (d_crosses_to first l) /\ length (d_crosses_to first l) = length l /\
  Rabs (total (map val (d_crosses_to first l)) - twice_area_to (X first, Y first) (coordinates l)) <= INR (length l) * (4.1 * u * (s * s)).
Proof.
  intros SS F L. destruct (square_scale s SS) as (P & _). induction L as [|p l Hp L IH]; [cbn; rewrite Rminus_0_r, Rabs_R0, Rmult_0_l; auto using Rle_refl|]. destruct l as [|q l].
  - pose proof (cross_within s p first SS Hp F) as W. split; [constructor; [apply (term_bound s _ _ P W)|constructor]|]. split; [reflexivity|].
    cbn [d_crosses_to coordinates map twice_area_to length INR]. unfold total. cbn [fold_right]. rewrite Rplus_0_r, Rmult_1_l. apply W.
  - destruct IH as (IH1 & IH2 & IH3). inversion L as [|? ? Hq _]; subst. pose proof (cross_within s p q SS Hp Hq) as W.
    change (d_crosses_to first (p :: q :: l)) with (dbl_sub (fmul (d_x p) (d_y q)) (fmul (d_x q) (d_y p)) :: d_crosses_to first (q :: l)).
    split; [constructor; [apply (term_bound s _ _ P W)|assumption]|]. split; [cbn [length] in *; lia|].
    change (twice_area_to (X first, Y first) (coordinates (p :: q :: l))) with (shoelace (X p, Y p) (X q, Y q) + twice_area_to (X first, Y first) (coordinates (q :: l))).
    change (length (p :: q :: l)) with (S (length (q :: l))). rewrite S_INR. unfold total in *. cbn [map fold_right] in *.
    match goal with |- Rabs (?a + ?b - (?c + ?d)) <= _ => replace (a + b - (c + d)) with ((a - c) + (b - d)) by ring end. apply Rle_trans with (1 := Rabs_triang _ _).
    destruct W as (_ & W & _). lra.
Qed.
Lemma val_half : val half = / 2 /\ finite half.
Proof. split; [unfold val; vm_compute; lra|vm_compute; reflexivity]. Qed.

(** ** The area of a polygon *)
(** However numpy orders the sum, the area of a polygon of n points is right up to 4 n^2 units of
    rounding of the square of the size. *)
Theorem C170_area : forall s points sum, side_size s -> Forall (in_drawing s) points -> few points -> np_sum (d_crosses points) sum ->
  number (d_signed_area sum) /\ Rabs (B2R (d_signed_area sum) - twice_area (coordinates points) / 2) <= 4 * INR (length points) ^ 2 / 2 ^ 53 * s ^ 2.
Proof.
  intros s points sum SS F (NE & N) Sm. destruct (square_scale s SS) as (P & S1 & S2). destruct points as [|p l]; [contradiction|].
  inversion F as [|? ? Hp _]; subst. destruct (crosses_near s p (p :: l) SS Hp F) as (C1 & C2 & C3). change (d_crosses (p :: l)) with (d_crosses_to p (p :: l)) in Sm.
  set (cs := d_crosses_to p (p :: l)) in *. set (W := s * s) in *. set (M := 2.001 * W) in *. assert (PW : 0 < W) by (unfold W; nra). pose proof u_tiny as U.
  assert (MH : M <= bpow radix2 810).
  { unfold M, W. destruct SS as [_ SS]. apply Rle_trans with (4 * (bpow radix2 400 * bpow radix2 400)); [|rewrite <- bpow_plus; change 4 with (bpow radix2 2); rewrite <- bpow_plus; apply bpow_le; lia].
    apply Rmult_le_compat; try lra; [nra|]. apply Rmult_le_compat; lra. }
  destruct (sum_bounded 810 M cs sum ltac:(lia) MH ltac:(unfold M; nra) Sm C1 ltac:(rewrite C2; exact N)) as (FS & ES & _).
  pose proof (total_bound M cs C1) as TB. unfold count in ES, TB. rewrite C2 in ES, TB. change (twice_area (coordinates (p :: l))) with (twice_area_to (X p, Y p) (coordinates (p :: l))).
  set (T := twice_area_to (X p, Y p) (coordinates (p :: l))) in *. set (V := total (map val cs)) in *. pose proof (few_terms _ N) as FT.
  assert (N1 : 1 <= INR (length (p :: l))) by (cbn [length]; rewrite S_INR; pose proof (pos_INR (length l)); lra). set (n := INR (length (p :: l))) in *.
  assert (UW : 0 < u * W) by nra. assert (UN : n * u <= / 8000) by (unfold u; apply Rle_trans with (2 ^ 40 * / 2 ^ 53); [apply Rmult_le_compat_r; [left; apply Rinv_0_lt_compat; lra|lra]|lra]).
  assert (ES2 : Rabs (val sum - V) <= 2.03 * (n * (n - 1)) * (u * W)).
  { apply Rle_trans with (1 := ES). unfold M. replace (1.01 * (n * (n - 1)) * u * (2.001 * W)) with (2.02101 * (n * (n - 1)) * (u * W)) by lra. apply Rmult_le_compat_r; [lra|]. apply Rmult_le_compat_r; [nra|lra]. }
  assert (XS : Rabs (val sum) <= 2.01 * n * W).
  { replace (val sum) with (val sum - V + V) by ring. apply Rle_trans with (1 := Rabs_triang _ _).
    assert (2.03 * (n * (n - 1)) * (u * W) <= / 1000 * n * W).
    { replace (2.03 * (n * (n - 1)) * (u * W)) with (2.03 * ((n - 1) * u) * (n * W)) by ring. replace (/ 1000 * n * W) with (/ 1000 * (n * W)) by ring. apply Rmult_le_compat_r; nra. }
    unfold M in TB. assert (0 < n * W) by nra. lra. }
  assert (ET : Rabs (val sum - T) <= (2.03 * (n * (n - 1)) + 4.1 * n) * (u * W)).
  { replace (val sum - T) with (val sum - V + (V - T)) by ring. apply Rle_trans with (1 := Rabs_triang _ _). lra. }
  destruct val_half as (VH & FH). pose proof (rnd_error (/ 2 * val sum)) as RE. pose proof (tiny_scale W S2) as TS. rewrite Rabs_mult, (Rabs_pos_eq (/ 2)) in RE by lra.
  pose proof (@Bmult_correct 53 1024 prec_ok emax_ok mode_NE half sum) as C.
  change (round radix2 fexp (round_mode mode_NE) (B2R half * B2R sum)) with (rnd (val half * val sum)) in C. rewrite VH in C. rewrite Rlt_bool_true in C.
  2:{ apply (round_small _ (52 + 800)); [lia|]. rewrite Rabs_mult, (Rabs_pos_eq (/ 2)) by lra. apply Rle_trans with (2 * 2 ^ 40 * W); [nra|]. rewrite bpow_plus. destruct SS as [_ SS]. apply Rmult_le_compat; try lra.
      - change (bpow radix2 52) with (IZR (2 ^ 52)). lra.
      - unfold W. change 800%Z with (400 + 400)%Z. rewrite bpow_plus. apply Rmult_le_compat; lra. }
  destruct C as (CV & CF & _). rewrite FH, FS in CF. split; [exact CF|]. unfold d_signed_area, fmul. rewrite CV.
  replace (4 * n ^ 2 / 2 ^ 53 * s ^ 2) with (4 * (n * n) * (u * W)) by (unfold u, W; field).
  replace (rnd (/ 2 * val sum) - T / 2) with (rnd (/ 2 * val sum) - / 2 * val sum + / 2 * (val sum - T)) by field. apply Rle_trans with (1 := Rabs_triang _ _).
  rewrite (Rabs_mult (/ 2)), (Rabs_pos_eq (/ 2)) by lra.
  assert (R1 : u * (/ 2 * Rabs (val sum)) <= 1.005 * n * (u * W)). { apply Rle_trans with (u * (/ 2 * (2.01 * n * W))); [apply Rmult_le_compat_l; lra|]. lra. }
  apply Rle_trans with (1.005 * n * (u * W) + u * W / 1000 + / 2 * ((2.03 * (n * (n - 1)) + 4.1 * n) * (u * W))); [lra|].
  replace (1.005 * n * (u * W) + u * W / 1000 + / 2 * ((2.03 * (n * (n - 1)) + 4.1 * n) * (u * W))) with ((1.005 * n + / 1000 + / 2 * (2.03 * (n * (n - 1)) + 4.1 * n)) * (u * W)) by lra.
  apply Rmult_le_compat_r; [lra|]. nra.
Qed.
Print Assumptions C170_area.
Lemma sign_of_val x : finite x -> (val x < 0 -> Bsign x = true) /\ (0 < val x -> Bsign x = false).
Proof.
  unfold finite, val. destruct x as [sg|sg| |sg m e H]; cbn; intros F; try discriminate; [split; lra|].
  destruct sg; split; intros L; try reflexivity; exfalso.
  - assert (F2R (Float radix2 (Z.neg m) e) < 0) by (apply F2R_lt_0; reflexivity). cbn in *. lra.
  - assert (0 < F2R (Float radix2 (Z.pos m) e)) by (apply F2R_gt_0; reflexivity). cbn in *. lra.
Qed.
(** When the area exceeds this error, the sense of the points is the right one. *)
Theorem C170_sense : forall s points sum, side_size s -> Forall (in_drawing s) points -> few points -> np_sum (d_crosses points) sum ->
  let a := twice_area (coordinates points) / 2 in
  (4 * INR (length points) ^ 2 / 2 ^ 53 * s ^ 2 < a -> d_area_sign sum = Some 1%Z) /\ (4 * INR (length points) ^ 2 / 2 ^ 53 * s ^ 2 < - a -> d_area_sign sum = Some (-1)%Z).
Proof.
  intros s points sum SS F N Sm a. destruct (C170_area s points sum SS F N Sm) as (FA & E). fold a in E. apply Rabs_le_inv in E.
  destruct (sign_of_val _ FA) as (SN & SP). unfold d_area_sign, d_sign. fold (val (d_signed_area sum)) in E.
  assert (Q : val (d_signed_area sum) <> 0 -> dbl_eq (d_signed_area sum) zero = false).
  { intros NZ. destruct (dbl_eq (d_signed_area sum) zero) eqn:D; [|reflexivity]. exfalso. apply NZ. change 0 with (val zero). apply eq_val; [exact FA|reflexivity|exact D]. }
  split; intros L; cbv zeta; rewrite Q by lra; [rewrite SP by lra|rewrite SN by lra]; reflexivity.
Qed.
Print Assumptions C170_sense.

(** ** The area of a triangle *)
Theorem C170_triangle : forall s a b c, side_size s -> in_drawing s a -> in_drawing s b -> in_drawing s c ->
  number (d_triangle_area a b c) /\ Rabs (B2R (d_triangle_area a b c) - triangle_area (X a, Y a) (X b, Y b) (X c, Y c)) <= 21 / 2 ^ 53 * s ^ 2.
Proof.
  intros s a b c SS PA PB PC. destruct (square_scale s SS) as (P & S1 & S2).
  assert (D : forall p q, in_drawing s p -> in_drawing s q -> within s (d_x (d_sub q p)) (X q - X p) 2.1 2 /\ within s (d_y (d_sub q p)) (Y q - Y p) 2.1 2).
  { intros p q PP PQ. destruct (point_within s p PP) as (PX & PY), (point_within s q PQ) as (QX & QY).
    pose proof PX as (_ & _ & B1). pose proof PY as (_ & _ & B2). pose proof QX as (_ & _ & B3). pose proof QY as (_ & _ & B4). apply Rabs_le_inv in B1, B2, B3, B4.
    assert (L1 : Rabs (X q - X p) <= 2 * s) by (apply Rabs_le; lra). assert (L2 : Rabs (Y q - Y p) <= 2 * s) by (apply Rabs_le; lra).
    pose proof (sub_within s _ _ 0 1 _ _ 0 1 2 S1 ltac:(lra) ltac:(lra) ltac:(lra) QX PX L1) as M1. pose proof (sub_within s _ _ 0 1 _ _ 0 1 2 S1 ltac:(lra) ltac:(lra) ltac:(lra) QY PY L2) as M2.
    apply (within_le _ _ _ _ _ 2.1 2 S1) in M1; try lra. apply (within_le _ _ _ _ _ 2.1 2 S1) in M2; try lra. split; assumption. }
  destruct (D a b PA PB) as (BX & BY), (D a c PA PC) as (CX & CY). set (v := d_sub b a) in *. set (w := d_sub c a) in *.
  pose proof BX as (_ & _ & B1). pose proof BY as (_ & _ & B2). pose proof CX as (_ & _ & B3). pose proof CY as (_ & _ & B4).
  pose proof (product_le s _ _ 2 2 B1 B4) as L1. pose proof (product_le s _ _ 2 2 B2 B3) as L2. replace (2 * 2) with 4 in L1, L2 by ring.
  pose proof (product_within s _ _ 2.1 2 _ _ 2.1 2 4 P S2 ltac:(lra) ltac:(lra) ltac:(lra) ltac:(lra) ltac:(lra) ltac:(lra) BX CY L1) as M1. apply (within_le _ _ _ _ _ 12.45 4 S2) in M1; try lra.
  pose proof (product_within s _ _ 2.1 2 _ _ 2.1 2 4 P S2 ltac:(lra) ltac:(lra) ltac:(lra) ltac:(lra) ltac:(lra) ltac:(lra) BY CX L2) as M2. apply (within_le _ _ _ _ _ 12.45 4 S2) in M2; try lra.
  set (r := (X b - X a) * (Y c - Y a)) in *. set (q := (Y b - Y a) * (X c - X a)) in *.
  assert (L : Rabs (r - q) <= 8 * (s * s)). { unfold Rminus. apply Rle_trans with (1 := Rabs_triang _ _). rewrite Rabs_Ropp. lra. }
  pose proof (sub_within (s * s) _ _ 12.45 4 _ _ 12.45 4 8 S2 ltac:(lra) ltac:(lra) ltac:(lra) M1 M2 L) as (FC & EC & _).
  change (dbl_sub (fmul (d_x v) (d_y w)) (fmul (d_y v) (d_x w))) with (d_cross v w) in FC, EC.
  assert (WA : within (s * s) (dbl_abs (d_cross v w)) (Rabs (r - q)) 32.95 8).
  { split; [unfold finite, dbl_abs; rewrite is_finite_Babs; exact FC|]. unfold val, dbl_abs. rewrite B2R_Babs. fold (val (d_cross v w)). split.
    - apply Rle_trans with (1 := Rabs_triang_inv2 _ _). apply Rle_trans with (1 := EC). pose proof u_tiny. pose proof (scale_pos _ S2). assert (0 < u * (s * s)) by nra. lra.
    - rewrite Rabs_Rabsolu. exact L. }
  assert (WH : within 1 half (/ 2) 0 (/ 2)). { destruct val_half as (VH & FH). split; [exact FH|]. rewrite VH, Rminus_diag_eq, Rabs_R0, Rabs_pos_eq by (reflexivity || lra). lra. }
  assert (LH : Rabs (/ 2 * Rabs (r - q)) <= 4 * (s * s)) by (rewrite Rabs_mult, Rabs_Rabsolu, (Rabs_pos_eq (/ 2)) by lra; lra).
  pose proof (mul_within (s * s) _ _ 0 (/ 2) _ _ 32.95 8 4 S2 ltac:(lra) ltac:(lra) ltac:(lra) ltac:(lra) ltac:(lra) ltac:(lra) WH WA LH) as M. apply (within_le _ _ _ _ _ 21 4 S2) in M; try lra.
  destruct M as (FM & EM & _). split; [exact FM|]. unfold triangle_area, shoelace. cbn [fst snd].
  replace (X a * Y b - X b * Y a + (X b * Y c - X c * Y b) + (X c * Y a - X a * Y c)) with (r - q) by (unfold r, q; ring).
  replace (Rabs (r - q) / 2) with (/ 2 * Rabs (r - q)) by field. replace (21 / 2 ^ 53 * s ^ 2) with (21 * u * (s * s)) by (unfold u; field). exact EM.
Qed.
Print Assumptions C170_triangle.

(** ** The perimeter *)
Lemma edges_lengths (f : dvec * dvec -> R) first l : (forall p q, f (p, q) = distance (X p, Y p) (X q, Y q)) ->
  total (map f (d_edges_to first l)) = way_to (X first, Y first) (coordinates l) /\ length (d_edges_to first l) = length l.
Proof.
  intros E. induction l as [|p l IH]; [split; reflexivity|]. destruct l as [|q l].
  - cbn. rewrite E. split; [ring|reflexivity].
  - destruct IH as (IH1 & IH2). change (d_edges_to first (p :: q :: l)) with ((p, q) :: d_edges_to first (q :: l)). split; [|cbn [length] in *; lia].
    change (way_to (X first, Y first) (coordinates (p :: q :: l))) with (distance (X p, Y p) (X q, Y q) + way_to (X first, Y first) (coordinates (q :: l))).
    unfold total in *. cbn [map fold_right]. rewrite E, IH1. reflexivity.
Qed.
Lemma root_bounds a b k : 0 <= a -> 0 <= k -> a * (k * k) <= b -> sqrt a * k <= sqrt b.
Proof. intros A K H. rewrite <- (sqrt_square k K). rewrite <- sqrt_mult_alt by exact A. apply sqrt_le_1_alt. exact H. Qed.
Lemma root_bounds' a b k : 0 <= a -> 0 <= k -> b <= a * (k * k) -> sqrt b <= sqrt a * k.
Proof. intros A K H. rewrite <- (sqrt_square k K) at 1. rewrite <- sqrt_mult_alt by exact A. apply sqrt_le_1_alt. exact H. Qed.
(** An edge. *)
Lemma edge_near fused p q : numbers p -> numbers q -> ordinary_point (d_sub q p) ->
  let r := distance (X p, Y p) (X q, Y q) in number (d_length fused (p, q)) /\ Rabs (B2R (d_length fused (p, q)) - r) <= 4.1 * u * r /\ 0 <= B2R (d_length fused (p, q)) <= bpow radix2 510.
Proof.
  intros (PX & PY) (QX & QY) O r. pose proof u_tiny as U. destruct (C166_length_partial fused _ O) as (F & E). cbv zeta in E.
  destruct O as ((FX & BX) & FY & BY). destruct (sub_near _ _ QX PX FX) as (d1 & D1 & E1). destruct (sub_near _ _ QY PY FY) as (d2 & D2 & E2).
  change (d_length fused (p, q)) with (d_magnitude fused (d_sub q p)). set (v := d_sub q p) in *. change (val (dbl_sub (d_x q) (d_x p))) with (X v) in E1. change (val (dbl_sub (d_y q) (d_y p))) with (Y v) in E2.
  unfold val in E1, E2. set (a := X q - X p) in *. set (b := Y q - Y p) in *. assert (R : r = sqrt (a * a + b * b)) by (unfold r, distance; cbn [fst snd]; f_equal; unfold a, b; ring).
  assert (NA : 0 <= a * a) by nra. assert (NB : 0 <= b * b) by nra. assert (NR : 0 <= r) by (rewrite R; apply sqrt_pos). apply Rabs_le_inv in D1, D2.
  assert (G : forall c d, - u <= d <= u -> 0 <= c * c -> c * c * ((1 - u) * (1 - u)) <= c * (1 + d) * (c * (1 + d)) <= c * c * ((1 + u) * (1 + u))).
  { intros c d D C. replace (c * (1 + d) * (c * (1 + d))) with (c * c * ((1 + d) * (1 + d))) by ring. split; apply Rmult_le_compat_l; nra. }
  pose proof (G a d1 D1 NA) as G1. pose proof (G b d2 D2 NB) as G2. rewrite <- E1 in G1. rewrite <- E2 in G2. set (t := sqrt (X v * X v + Y v * Y v)) in *.
  assert (T1 : r * (1 - u) <= t) by (rewrite R; apply root_bounds; lra). assert (T2 : t <= r * (1 + u)) by (rewrite R; apply root_bounds'; lra).
  assert (NT : 0 <= t) by apply sqrt_pos. replace (3 / 2 ^ 53) with (3 * u) in E by (unfold u; field). apply Rabs_le_inv in E.
  assert (UT : u * t <= u * r + / 1000 * (u * r)). { apply Rle_trans with (u * (r * (1 + u))); [apply Rmult_le_compat_l; lra|]. assert (0 <= u * r) by nra. nra. }
  split; [exact F|]. split; [apply Rabs_le; split; lra|]. split.
  - assert (u * t <= / 10 * t) by (apply Rmult_le_compat_r; lra). lra.
  - assert (TB : t <= bpow radix2 501).
    { unfold t. rewrite <- (sqrt_square (bpow radix2 501)) by apply bpow_ge_0. apply sqrt_le_1_alt.
      assert (SQ : forall z, band (-500) 500 z -> z * z <= bpow radix2 500 * bpow radix2 500).
      { intros z Z. apply band_le in Z. rewrite <- (Rabs_pos_eq (z * z)), Rabs_mult by nra. apply Rmult_le_compat; auto using Rabs_pos. }
      pose proof (SQ _ BX). pose proof (SQ _ BY). assert (Q : bpow radix2 501 = 2 * bpow radix2 500) by (change 501%Z with (1 + 500)%Z; rewrite bpow_plus; reflexivity). rewrite Q.
      pose proof (bpow_gt_0 radix2 500). unfold val in *. nra. }
    assert (Q : bpow radix2 510 = 512 * bpow radix2 501) by (change 510%Z with (9 + 501)%Z; rewrite bpow_plus; reflexivity). rewrite Q. pose proof (bpow_gt_0 radix2 501).
    assert (u * t <= / 10 * t) by (apply Rmult_le_compat_r; lra). lra.
Qed.
(** The perimeter of a polygon of n points is right up to 2 n + 5 units of rounding, relatively. *)
Theorem C170_perimeter_partial : forall sum fused points, accurate_sum sum -> few points -> Forall numbers points -> Forall (fun e => ordinary_point (d_sub (snd e) (fst e))) (d_edges points) ->
  number (d_perimeter sum fused points) /\
  Rabs (B2R (d_perimeter sum fused points) - way_around (coordinates points)) <= (2 * INR (length points) + 5) / 2 ^ 53 * way_around (coordinates points).
Proof.
  intros sum fused points A (NE & N) F O. destruct points as [|p l]; [contradiction|]. unfold d_perimeter. change (d_edges (p :: l)) with (d_edges_to p (p :: l)) in *.
  change (way_around (coordinates (p :: l))) with (way_to (X p, Y p) (coordinates (p :: l))).
  set (f := fun e : dvec * dvec => distance (X (fst e), Y (fst e)) (X (snd e), Y (snd e))). destruct (edges_lengths f p (p :: l) ltac:(reflexivity)) as (W & L). rewrite <- W.
  assert (FE : Forall (fun e => numbers (fst e) /\ numbers (snd e)) (d_edges_to p (p :: l))).
  { clear - F. inversion F as [|? ? Hp _]; subst. revert F. generalize (p :: l). intros m M. induction M as [|q m Hq M IH]; [constructor|]. destruct m as [|q' m].
    - repeat constructor; assumption || apply Hq || apply Hp.
    - inversion M; subst. constructor; [split; assumption|exact IH]. }
  set (es := d_edges_to p (p :: l)) in *.
  assert (H : Forall (fun x => number x /\ 0 <= B2R x <= bpow radix2 510) (map (d_length fused) es) /\ Rabs (total (map B2R (map (d_length fused) es)) - total (map f es)) <= 4.1 * u * total (map f es) /\ 0 <= total (map f es)).
  { clear - FE O. induction es as [|[a b] es IH]; [cbn; rewrite Rminus_0_r, Rabs_R0, Rmult_0_r; repeat split; auto; lra|].
    inversion FE as [|? ? (NA & NB) FE']; subst. inversion O as [|? ? Oab O']; subst. destruct (IH O' FE') as (I1 & I2 & I3). destruct (edge_near fused a b NA NB Oab) as (G1 & G2 & G3). cbv zeta in G2.
    assert (NF : 0 <= f (a, b)) by apply sqrt_pos. change (distance (X a, Y a) (X b, Y b)) with (f (a, b)) in G2. split; [constructor; [split; assumption|exact I1]|].
    unfold total in *. cbn [map fold_right]. split; [|lra]. match goal with |- Rabs (?x + ?y - (?z + ?w)) <= _ => replace (x + y - (z + w)) with ((x - z) + (y - w)) by ring end.
    apply Rle_trans with (1 := Rabs_triang _ _). lra. }
  destruct H as (H1 & H2 & H3). destruct (A (map (d_length fused) es)) as (FS & E); [rewrite map_length, L; exact N|exact H1|]. split; [exact FS|].
  rewrite map_length, L in E. set (w := total (map f es)) in *. set (x := total (map B2R (map (d_length fused) es))) in *. pose proof u_tiny as U. pose proof (few_terms _ N) as FT. set (n := INR (length (p :: l))) in *.
  replace ((2 * n + 5) / 2 ^ 53 * w) with ((2 * n + 5) * (u * w)) by (unfold u; field). replace (1.01 * n / 2 ^ 53 * x) with (1.01 * n * (u * x)) in E by (unfold u; field).
  replace (B2R (sum (map (d_length fused) es)) - w) with (B2R (sum (map (d_length fused) es)) - x + (x - w)) by ring. apply Rle_trans with (1 := Rabs_triang _ _).
  pose proof (Rabs_le_inv _ _ H2) as H2'. assert (UW : 0 <= u * w) by nra.
  assert (UX : u * x <= 1.001 * (u * w)). { apply Rle_trans with (u * (1.001 * w)); [apply Rmult_le_compat_l; [lra|]|lra]. assert (4.1 * u * w <= / 1000 * w) by (apply Rmult_le_compat_r; lra). lra. }
  assert (NX : 1.01 * n * (u * x) <= 1.01 * n * (1.001 * (u * w))) by (apply Rmult_le_compat_l; lra). assert (0 <= n * (u * w)) by nra. lra.
Qed.
Print Assumptions C170_perimeter_partial.
(** The sum from left to right is such a sum. *)
Lemma growth n : (Z.of_nat n <= 2 ^ 40)%Z -> (1 + u) ^ n <= 1 + 1.01 * INR n * u /\ 1 - INR n * u <= (1 - u) ^ n /\ 0 <= (1 - u) ^ n <= 1.
Proof.
  pose proof u_tiny as U. induction n as [|n IH]; intros N; [cbn; lra|]. destruct (IH ltac:(lia)) as (A & B & C). pose proof (few_terms n ltac:(lia)) as FT. rewrite S_INR. cbn [pow].
  assert (UN : INR n * u <= / 8000) by (unfold u; apply Rle_trans with (2 ^ 40 * / 2 ^ 53); [apply Rmult_le_compat_r; [left; apply Rinv_0_lt_compat; lra|lra]|lra]).
  assert (0 <= INR n * u) by nra. split; [|split; [|split]]; nra.
Qed.
Lemma fold_near M l : 0 <= M <= bpow radix2 510 -> Forall (fun x => number x /\ 0 <= B2R x <= M) l -> forall a r k, finite a -> 0 <= r <= INR k * M -> (Z.of_nat (k + length l) <= 2 ^ 40)%Z ->
  r * (1 - u) ^ k <= val a <= r * (1 + u) ^ k ->
  let t := total (map B2R l) in finite (fold_left dbl_add l a) /\ (r + t) * (1 - u) ^ (k + length l) <= val (fold_left dbl_add l a) <= (r + t) * (1 + u) ^ (k + length l).
Proof.
  intros HM F. pose proof u_tiny as U. induction F as [|x l (NX & BX) F IH]; intros a r k FA R K B t.
  - unfold t, total. cbn [map fold_right fold_left length]. rewrite Rplus_0_r, Nat.add_0_r. split; assumption.
  - cbn [length] in K. destruct (growth k ltac:(lia)) as (G1 & G2 & G3). pose proof (few_terms k ltac:(lia)) as FT.
    assert (UN : INR k * u <= / 8000) by (unfold u; apply Rle_trans with (2 ^ 40 * / 2 ^ 53); [apply Rmult_le_compat_r; [left; apply Rinv_0_lt_compat; lra|lra]|lra]).
    assert (PU : 1 <= (1 + u) ^ k) by (apply pow_R1_Rle; lra). assert (VA : 0 <= val a <= 2 * (INR k * M)).
    { assert (0 <= r * (1 - u) ^ k) by nra. split; [lra|]. apply Rle_trans with (1 := proj2 B). apply Rle_trans with (r * 2); [apply Rmult_le_compat_l; lra|lra]. }
    assert (FF : finite (dbl_add a x)).
    { assert (P2 : 2 * (INR k * M) <= bpow radix2 560).
      { replace 560%Z with (50 + 510)%Z by lia. rewrite bpow_plus. rewrite <- Rmult_assoc. apply Rmult_le_compat; try lra. change (bpow radix2 50) with (IZR (2 ^ 50)). lra. }
      apply (add_bounded a x 560 FA NX); [rewrite Rabs_pos_eq; lra| |lia]. unfold val. rewrite Rabs_pos_eq by lra. apply Rle_trans with (bpow radix2 510); [lra|apply bpow_le; lia]. }
    destruct (add_near a x FA NX FF) as (d & D & E). apply Rabs_le_inv in D. unfold val at 3 in E. set (y := B2R x) in *.
    destruct (IH (dbl_add a x) (r + y) (S k) FF) as (I1 & I2).
    + rewrite S_INR. lra.
    + lia.
    + rewrite E. cbn [pow]. assert (RA : 0 <= r * (1 - u) ^ k) by nra. split.
      * apply Rle_trans with ((val a + y) * (1 - u)); [|apply Rmult_le_compat_l; lra].
        replace ((r + y) * ((1 - u) * (1 - u) ^ k)) with ((r * (1 - u) ^ k + y * (1 - u) ^ k) * (1 - u)) by ring. apply Rmult_le_compat_r; [lra|]. assert (y * (1 - u) ^ k <= y * 1) by (apply Rmult_le_compat_l; lra). lra.
      * apply Rle_trans with ((val a + y) * (1 + u)); [apply Rmult_le_compat_l; lra|].
        replace ((r + y) * ((1 + u) * (1 + u) ^ k)) with ((r * (1 + u) ^ k + y * (1 + u) ^ k) * (1 + u)) by ring. apply Rmult_le_compat_r; [lra|]. assert (y * 1 <= y * (1 + u) ^ k) by (apply Rmult_le_compat_l; lra). lra.
    + cbn [fold_left length]. split; [exact I1|]. unfold t, total in *. cbn [map fold_right]. fold y. replace (k + S (length l))%nat with (S k + length l)%nat by lia.
      rewrite <- Rplus_assoc. exact I2.
Qed.
Theorem C170_plain_sum : accurate_sum plain_sum.
Proof.
  intros l N F. unfold plain_sum. pose proof (bpow_gt_0 radix2 510). destruct (fold_near (bpow radix2 510) l ltac:(lra) F zero 0 0 eq_refl) as (A & B); [cbn; lra|cbn; lia|change (val zero) with 0; cbn; lra|].
  rewrite Rplus_0_l in B. cbn [Nat.add] in B. split; [exact A|]. destruct (growth (length l) N) as (G1 & G2 & _).
  assert (T : 0 <= total (map B2R l)). { clear - F. unfold total. induction F as [|x l (_ & X & _) F IH]; cbn [map fold_right]; lra. }
  set (t := total (map B2R l)) in *. set (n := INR (length l)) in *. pose proof (few_terms _ N) as FT. fold n in FT. pose proof u_tiny as U. replace (1.01 * n / 2 ^ 53 * t) with (1.01 * n * u * t) by (unfold u; field).
  fold (val (fold_left dbl_add l zero)). assert (0 <= n * u) by nra. assert (0 <= n * u * t) by nra. apply Rabs_le. split.
  - assert (t * (1 - n * u) <= t * (1 - u) ^ length l) by (apply Rmult_le_compat_l; lra). lra.
  - assert (t * (1 + u) ^ length l <= t * (1 + 1.01 * n * u)) by (apply Rmult_le_compat_l; lra). lra.
Qed.
Print Assumptions C170_plain_sum.

(** ** What is lost *)
(** A thin triangle is given the other sense: the points (0, 0.1), (0.1, 0.3), (0.3, 0.7). *)
Definition thin : list dvec := [D zero (tenths 1); D (tenths 1) (tenths 3); D (tenths 3) (tenths 7)].
Lemma sf_value (x : float) m e : B2SF x = SpecFloat.S754_finite false m e -> number x /\ B2R x = IZR (Zpos m) * bpow radix2 e.
Proof. destruct x as [s|s| |s m' e' H]; cbn; try discriminate. intros E. injection E as -> -> ->. split; reflexivity. Qed.
Ltac number_value := match goal with |- number ?x /\ _ =>
  let s := eval vm_compute in (B2SF x) in match s with SpecFloat.S754_finite false ?m ?e =>
    destruct (sf_value x m e ltac:(vm_compute; reflexivity)) as [? E]; split; [assumption|rewrite E; cbn; unfold Z.pow_pos; cbn; lra] end end.
Lemma value1 : number (tenths 1) /\ B2R (tenths 1) = 3602879701896397 / 2 ^ 55. Proof. number_value. Qed.
Lemma value3 : number (tenths 3) /\ B2R (tenths 3) = 5404319552844595 / 2 ^ 54. Proof. number_value. Qed.
Lemma value7 : number (tenths 7) /\ B2R (tenths 7) = 3152519739159347 / 2 ^ 52. Proof. number_value. Qed.
Theorem C170_sense_refuted : 0 < twice_area (coordinates thin) /\ exists sum, np_sum (d_crosses thin) sum /\ d_area_sign sum = Some (-1)%Z.
Proof.
  split.
  - cbn [coordinates thin map twice_area twice_area_to]. unfold shoelace. cbn [fst snd d_x d_y]. destruct value1 as (_ & ->), value3 as (_ & ->), value7 as (_ & ->). change (B2R zero) with 0. lra.
  - assert (T : exists x y z, d_crosses thin = [x; y; z] /\ d_area_sign (dbl_add (dbl_add x y) z) = Some (-1)%Z) by (eexists; eexists; eexists; split; [reflexivity|vm_compute; reflexivity]).
    destruct T as (x & y & z & -> & E). exists (dbl_add (dbl_add x y) z). split; [|exact E]. apply (sum_two [x; y] [z]); [apply (sum_two [x] [y])|]; constructor.
Qed.
Print Assumptions C170_sense_refuted.
Example C170_example : side_size 1 /\ Forall (in_drawing 1) thin /\ few thin /\ accurate_sum plain_sum.
Proof.
  split; [|split; [|split; [|exact C170_plain_sum]]].
  - split; change 1 with (bpow radix2 0); apply bpow_le; lia.
  - destruct value1 as (F1 & V1), value3 as (F3 & V3), value7 as (F7 & V7). unfold thin, in_drawing, numbers. apply Forall_cons; [|apply Forall_cons; [|apply Forall_cons; [|apply Forall_nil]]]; cbn [d_x d_y];
      rewrite ?V1, ?V3, ?V7; change (B2R zero) with 0; (split; [split; assumption || reflexivity|split; apply Rabs_le; lra]).
  - split; [discriminate|vm_compute; discriminate].
Qed.
