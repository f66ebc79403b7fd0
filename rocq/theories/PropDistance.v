(** C174: the accuracy of the distance of a point to a segment in double precision. *)
From Coq Require Import Reals Lra Lia List Bool ZArith.
From Flocq Require Import Core Relative BinarySingleNaN.
From Verif Require Import Base ModelVector ProofVector ModelColor ModelDouble ModelDecide ModelDoubleArea ModelDoubleRotation ModelDoubleDirection ModelDoubleIntersection ModelDoubleDistance.
From Verif Require Import ProofDouble PropDouble ProofAccuracy PropAccuracy ProofCurveAccuracy PropCurveAccuracy PropDecide ProofArea PropArea ProofRotation PropRotation ProofDirection PropDirection ProofIntersection PropIntersection.
Import ListNotations.
Local Open Scope R_scope.

(** ** What is expected *)
(** The distance of a point to the place at the parameter t of the segment. *)
Definition gap (p0 p1 q : dvec) (t : R) : R := norm (X q - towards (X p0) (X p1) t) (Y q - towards (Y p0) (Y p1) t).
(** The least distance of the point to a place of the segment. *)
Definition least_distance (p0 p1 q : dvec) (r : R) : Prop := (exists t, 0 <= t <= 1 /\ gap p0 p1 q t = r) /\ forall t, 0 <= t <= 1 -> r <= gap p0 p1 q t.
(** The difference of the points is a vector of the machine, away from underflow and overflow. *)
Definition clean (p q : dvec) : Prop := exists w, vector_of p q w /\ ordinary_point w.
Definition between (p q : dvec) : R := norm (X q - X p) (Y q - Y p).

(** ** Lemmas *)
Lemma clean_sub p q : numbers p -> numbers q -> clean p q -> ordinary_point (d_sub q p) /\ X (d_sub q p) = X q - X p /\ Y (d_sub q p) = Y q - Y p.
Proof.
  intros (P1 & P2) (Q1 & Q2) (w & ((W1 & W2) & E1 & E2) & ((_ & O1) & (_ & O2))).
  destruct (sub_number _ _ _ Q1 P1 W1 E1) as (N1 & V1). destruct (sub_number _ _ _ Q2 P2 W2 E2) as (N2 & V2).
  change (dbl_sub (d_x q) (d_x p)) with (d_x (d_sub q p)) in *. change (dbl_sub (d_y q) (d_y p)) with (d_y (d_sub q p)) in *.
  split; [split; split; [exact N1|rewrite V1; exact O1|exact N2|rewrite V2; exact O2]|]. rewrite V1, V2. split; assumption.
Qed.
Lemma null_or a : ordinary_point a -> not_null a \/ (X a = 0 /\ Y a = 0).
Proof. intros O. destruct (Req_dec (X a) 0) as [E|E]; [destruct (Req_dec (Y a) 0) as [E2|E2]; [right; auto|left; split; auto]|left; split; auto]. Qed.
Lemma dot_zero fused a : ordinary_point a -> dbl_eq (d_dot fused a a) zero = true <-> X a = 0 /\ Y a = 0.
Proof.
  intros O. destruct (dot_near fused a a O O) as (F & E). assert (FZ : finite zero) by reflexivity. rewrite (eq_val _ _ F FZ). change (val zero) with 0. pose proof u_tiny as U. split.
  - intros V. rewrite V in E. rewrite (Rabs_pos_eq (X a * X a)), (Rabs_pos_eq (Y a * Y a)) in E by nra. rewrite Rminus_0_l, Rabs_Ropp in E. rewrite Rabs_pos_eq in E by nra.
    assert (Z : X a * X a + Y a * Y a <= / 2 * (X a * X a + Y a * Y a)) by (apply Rle_trans with (1 := E); apply Rmult_le_compat_r; nra). split; nra.
  - intros (EX & EY). rewrite EX, EY in E. replace (0 * 0 + 0 * 0) with 0 in E by ring. rewrite Rmult_0_l, Rabs_R0 in E. rewrite Rminus_0_r in E. apply Rabs_le_inv in E. lra.
Qed.
Lemma length_near fused a : ordinary_point a -> finite (d_magnitude fused a) /\ Rabs (val (d_magnitude fused a) - norm (X a) (Y a)) <= 3 * u * norm (X a) (Y a).
Proof.
  intros O. destruct (C166_length_partial fused a O) as (F & E). split; [exact F|]. unfold norm. replace (X a ^ 2 + Y a ^ 2) with (X a * X a + Y a * Y a) by ring. exact E.
Qed.
Lemma norm_swap x y x' y' : x' = - x -> y' = - y -> norm x' y' = norm x y.
Proof. intros -> ->. unfold norm. f_equal. ring. Qed.
(** The distance in terms of the abscissa f and the distance c to the line. *)
Lemma gap_square p0 p1 q t : let L := between p0 p1 in 0 < L ->
  let c := ((X p1 - X p0) * (Y q - Y p0) - (Y p1 - Y p0) * (X q - X p0)) / L in let f := ((X p1 - X p0) * (X q - X p0) + (Y p1 - Y p0) * (Y q - Y p0)) / L in
  gap p0 p1 q t = norm c (f - t * L).
Proof.
  intros L P c f. unfold gap, norm. f_equal. pose proof (norm_square (X p1 - X p0) (Y p1 - Y p0)) as SQ. fold (between p0 p1) in SQ. fold L in SQ.
  set (vx := X p1 - X p0) in *. set (vy := Y p1 - Y p0) in *. set (dx := X q - X p0) in *. set (dy := Y q - Y p0) in *.
  replace (X q - towards (X p0) (X p1) t) with (dx - t * vx) by (unfold towards, dx, vx; ring). replace (Y q - towards (Y p0) (Y p1) t) with (dy - t * vy) by (unfold towards, dy, vy; ring).
  assert (C : c ^ 2 + f ^ 2 = dx ^ 2 + dy ^ 2).
  { replace (c ^ 2 + f ^ 2) with ((dx ^ 2 + dy ^ 2) * (vx * vx + vy * vy) / (L * L)) by (unfold c, f; field; lra). rewrite <- SQ. field. lra. }
  assert (FL : f * L = vx * dx + vy * dy) by (unfold f; field; lra).
  replace (c ^ 2 + (f - t * L) ^ 2) with (c ^ 2 + f ^ 2 - 2 * t * (f * L) + t ^ 2 * (L * L)) by ring. rewrite C, FL, SQ. ring.
Qed.
Lemma norm_mono c x y : Rabs x <= Rabs y -> norm c x <= norm c y.
Proof. intros H. unfold norm. apply sqrt_le_1_alt. rewrite <- (pow2_abs x), <- (pow2_abs y). pose proof (Rabs_pos x). nra. Qed.
Lemma norm_zero c : norm c 0 = Rabs c.
Proof. unfold norm. replace (c ^ 2 + 0 ^ 2) with (Rsqr c) by (unfold Rsqr; ring). apply sqrt_Rsqr_abs. Qed.

Lemma least_cases c f L r : 0 < L -> (exists t, 0 <= t <= 1 /\ norm c (f - t * L) = r) -> (forall t, 0 <= t <= 1 -> r <= norm c (f - t * L)) ->
  Rabs c <= r /\ r <= norm c f /\ r <= norm c (f - L) /\ (f <= 0 -> r = norm c f) /\ (L <= f -> r = norm c (f - L)) /\ (0 <= f <= L -> r = Rabs c).
Proof.
  intros P (t & T & E) M. assert (LO : Rabs c <= r) by (rewrite <- E; apply norm_left).
  assert (M0 : r <= norm c f). { specialize (M 0 ltac:(lra)). replace (f - 0 * L) with f in M by ring. exact M. }
  assert (M1 : r <= norm c (f - L)). { specialize (M 1 ltac:(lra)). replace (f - 1 * L) with (f - L) in M by ring. exact M. }
  assert (TL : 0 <= t * L <= L) by (split; nra).
  split; [exact LO|]. split; [exact M0|]. split; [exact M1|]. split; [|split].
  - intros H. apply Rle_antisym; [exact M0|]. rewrite <- E. apply norm_mono. rewrite !Rabs_left1 by lra. lra.
  - intros H. apply Rle_antisym; [exact M1|]. rewrite <- E. apply norm_mono. rewrite !Rabs_pos_eq by lra. lra.
  - intros H. apply Rle_antisym; [|exact LO]. assert (Q : 0 <= f / L <= 1) by (split; [apply Rmult_le_pos; [lra|apply Rlt_le, Rinv_0_lt_compat; lra]|apply Rmult_le_reg_r with L; [lra|]; unfold Rdiv; rewrite Rmult_assoc, Rinv_l; lra]).
    specialize (M _ Q). replace (f - f / L * L) with 0 in M by (field; lra). rewrite norm_zero in M. exact M.
Qed.
Lemma norm_apart c x : norm c x <= Rabs c + Rabs x. Proof. apply norm_sum. Qed.
(** The choice between the line and the ends costs no more than the error of the abscissa. *)
Lemma choice_near c f L r (d s l m0 m1 : R) D : 0 < L -> 0 <= D -> (exists t, 0 <= t <= 1 /\ norm c (f - t * L) = r) -> (forall t, 0 <= t <= 1 -> r <= norm c (f - t * L)) ->
  norm c f = D -> norm c (f - L) <= D + L -> Rabs (d - c) <= 8 * u * D -> Rabs (s - f) <= 8 * u * D -> Rabs (l - L) <= 3 * u * L -> Rabs (m0 - D) <= 3 * u * D -> Rabs (m1 - norm c (f - L)) <= 3 * u * norm c (f - L) ->
  (0 <= s <= l -> Rabs (Rabs d - r) <= (16 * D + 6 * L) * u) /\ (s < 0 -> Rabs (m0 - r) <= (16 * D + 6 * L) * u) /\ (l < s -> Rabs (m1 - r) <= (16 * D + 6 * L) * u).
Proof.
  intros P D0 EX M ND N1 ED ES EL E0 E1. pose proof u_tiny as U. destruct (least_cases c f L r P EX M) as (LO & M0 & M1 & C0 & C1 & CM). clear EX M.
  pose proof (norm_apart c f) as A0. pose proof (norm_apart c (f - L)) as A1. rewrite ND in *. set (n1 := norm c (f - L)) in *.
  assert (UD : 0 <= u * D) by (apply Rmult_le_pos; lra). assert (UL : 0 <= u * L) by (apply Rmult_le_pos; lra). assert (UN : u * n1 <= u * (D + L)) by (apply Rmult_le_compat_l; lra).
  replace (8 * u * D) with (8 * (u * D)) in * by ring. replace (3 * u * L) with (3 * (u * L)) in * by ring. replace (3 * u * D) with (3 * (u * D)) in * by ring. replace (3 * u * n1) with (3 * (u * n1)) in * by ring.
  replace ((16 * D + 6 * L) * u) with (16 * (u * D) + 6 * (u * L)) by ring. set (ud := u * D) in *. set (ul := u * L) in *. set (un := u * n1) in *. replace (u * (D + L)) with (ud + ul) in UN by (unfold ud, ul; ring). clearbody ud ul un n1.
  assert (AD : Rabs (Rabs d - Rabs c) <= 8 * ud) by (apply Rle_trans with (2 := ED); apply Rabs_triang_inv2). apply Rabs_le_inv in AD, ES, EL, E0, E1.
  split; [|split]; intros H; apply Rabs_le.
  - destruct (Rle_dec f 0) as [F|F]; [rewrite (C0 F) in *; rewrite (Rabs_left1 f) in A0 by lra; lra|]. destruct (Rle_dec L f) as [G|G]; [rewrite (C1 G) in *; rewrite (Rabs_pos_eq (f - L)) in A1 by lra; lra|]. rewrite (CM ltac:(lra)) in *. lra.
  - destruct (Rle_dec f 0) as [F|F]; [rewrite (C0 F) in *; lra|]. rewrite (Rabs_pos_eq f) in A0 by lra. lra.
  - destruct (Rle_dec L f) as [G|G]; [rewrite (C1 G) in *; lra|]. rewrite (Rabs_left1 (f - L)) in A1 by lra. lra.
Qed.

(** ** The theorem *)
(** The distance of a point to a segment is right, wherever the nearest place is. *)
Theorem C174_distance : forall fused p0 p1 q r, numbers p0 -> numbers p1 -> numbers q -> clean p0 p1 -> clean p0 q -> clean p1 q -> least_distance p0 p1 q r ->
  number (d_distance_to_point fused p0 p1 q) /\ Rabs (B2R (d_distance_to_point fused p0 p1 q) - r) <= (16 * between p0 q + 6 * between p0 p1) / 2 ^ 53.
Proof.
  intros fused p0 p1 q r N0 N1 NQ C01 C0Q C1Q LD. pose proof u_tiny as U.
  assert (REV : forall a b, clean a b -> clean b a).
  { intros a b (w & ((W1 & W2) & E1 & E2) & ((F1 & O1) & (F2 & O2))). exists (D (dbl_neg (d_x w)) (dbl_neg (d_y w))).
    assert (NG : forall x : float, number x -> number (dbl_neg x) /\ B2R (dbl_neg x) = - B2R x) by (intros x F; split; [unfold number, dbl_neg; rewrite is_finite_Bopp; exact F|apply B2R_Bopp]).
    destruct (NG _ W1) as (G1 & V1), (NG _ W2) as (G2 & V2).
    split; [split; [split; assumption|]; cbn [d_x d_y]; rewrite V1, V2; lra|]. split; (split; [assumption|]); cbn [d_x d_y]; [rewrite V1|rewrite V2]; (rewrite Rabs_Ropp; match goal with H : _ = 0 \/ _ |- - ?z = 0 \/ _ => first [destruct O1 as [O1|O1]; [left; lra|right; exact O1]|destruct O2 as [O2|O2]; [left; lra|right; exact O2]] end). }
  destruct (clean_sub p0 p1 N0 N1 C01) as (O1 & X1 & Y1). destruct (clean_sub p0 q N0 NQ C0Q) as (O2 & X2 & Y2). destruct (clean_sub q p0 NQ N0 (REV _ _ C0Q)) as (O3 & X3 & Y3). destruct (clean_sub q p1 NQ N1 (REV _ _ C1Q)) as (O4 & X4 & Y4).
  destruct (length_near fused _ O1) as (FL & EL). destruct (length_near fused _ O3) as (F0 & E0). destruct (length_near fused _ O4) as (F1 & E1).
  rewrite X1, Y1 in EL. rewrite X3, Y3 in E0. rewrite X4, Y4 in E1. rewrite (norm_swap (X q - X p0) (Y q - Y p0) (X p0 - X q) (Y p0 - Y q)) in E0 by lra. rewrite (norm_swap (X q - X p1) (Y q - Y p1) (X p1 - X q) (Y p1 - Y q)) in E1 by lra.
  fold (between p0 p1) in EL. fold (between p0 q) in E0. fold (between p1 q) in E1.
  assert (DP : 0 <= between p0 q) by apply norm_pos. assert (LP : 0 <= between p0 p1) by apply norm_pos.
  assert (UD : 0 <= u * between p0 q) by (apply Rmult_le_pos; lra). assert (UL : 0 <= u * between p0 p1) by (apply Rmult_le_pos; lra).
  unfold d_distance_to_point. unfold Rdiv. change (/ 2 ^ 53) with u.
  destruct (dbl_eq (d_dot fused (d_sub p1 p0) (d_sub p1 p0)) zero) eqn:Z.
  - apply (dot_zero fused _ O1) in Z. rewrite X1, Y1 in Z. destruct Z as (ZX & ZY). split; [exact F0|].
    destruct LD as ((t & T & E) & _). replace (gap p0 p1 q t) with (between p0 q) in E by (unfold gap, between, towards; f_equal; [replace (X p1) with (X p0) by lra|replace (Y p1) with (Y p0) by lra]; ring). rewrite <- E. fold (val (d_magnitude fused (d_sub p0 q))). lra.
  - assert (NV : not_null (d_sub p1 p0)). { destruct (null_or _ O1) as [H|H]; [exact H|]. apply (dot_zero fused _ O1) in H. congruence. }
    assert (LPP : 0 < between p0 p1). { destruct (length_pos _ NV) as (H & _). unfold length_of in H. rewrite X1, Y1 in H. exact H. }
    pose proof (gap_square p0 p1 q) as GS. cbv zeta in GS. specialize (fun t => GS t LPP).
    set (c := ((X p1 - X p0) * (Y q - Y p0) - (Y p1 - Y p0) * (X q - X p0)) / between p0 p1) in *. set (f := ((X p1 - X p0) * (X q - X p0) + (Y p1 - Y p0) * (Y q - Y p0)) / between p0 p1) in *.
    assert (G0 : norm c f = between p0 q). { specialize (GS 0). replace (f - 0 * between p0 p1) with f in GS by ring. rewrite <- GS. unfold gap, between, towards. f_equal; ring. }
    assert (G1 : norm c (f - between p0 p1) = between p1 q). { specialize (GS 1). replace (f - 1 * between p0 p1) with (f - between p0 p1) in GS by ring. rewrite <- GS. unfold gap, between, towards. f_equal; ring. }
    assert (TRI : norm c (f - between p0 p1) <= between p0 q + between p0 p1).
    { rewrite <- G0. apply Rsqr_incr_0_var; [|pose proof (norm_pos c f); lra]. unfold Rsqr. rewrite norm_square. pose proof (norm_square c f). pose proof (norm_left c f) as (_ & LF). apply Rabs_le_inv in LF. nra. }
    assert (DS : exists d s, d_distance_and_abscissa fused p0 (d_sub p1 p0) q = (d, s) /\ finite d /\ finite s /\ Rabs (val d - c) <= 8 * u * between p0 q /\ Rabs (val s - f) <= 8 * u * between p0 q).
    { unfold d_distance_and_abscissa. destruct (dbl_eq (d_dot fused (d_sub q p0) (d_sub q p0)) zero) eqn:Z2.
      - apply (dot_zero fused _ O2) in Z2. rewrite X2, Y2 in Z2. destruct Z2 as (ZX & ZY). exists zero, zero. split; [reflexivity|]. split; [reflexivity|]. split; [reflexivity|].
        assert (c = 0) by (unfold c; rewrite ZX, ZY; field; lra). assert (f = 0) by (unfold f; rewrite ZX, ZY; field; lra). change (val zero) with 0. rewrite H, H0, Rminus_0_r, Rabs_R0. split; lra.
      - assert (NQ0 : not_null (d_sub q p0)). { destruct (null_or _ O2) as [H|H]; [exact H|]. apply (dot_zero fused _ O2) in H. congruence. }
        destruct (C172_projection fused _ _ NQ0 NV) as (H1 & H2 & H3 & H4). unfold length_of, dot_of, cross_of in H3, H4. rewrite X1, Y1, X2, Y2 in H3, H4. fold (between p0 p1) (between p0 q) in H3, H4. change (8 / 2 ^ 53) with (8 * u) in H3, H4.
        eexists. eexists. split; [reflexivity|]. split; [exact H2|]. split; [exact H1|]. split; [exact H4|exact H3]. }
    destruct DS as (d & s & EQ & FD & FS & ED & ES). rewrite EQ. destruct LD as (LD1 & LD2).
    assert (LD1' : exists t, 0 <= t <= 1 /\ norm c (f - t * between p0 p1) = r) by (destruct LD1 as (t & T & E); exists t; split; [exact T|rewrite <- GS; exact E]).
    assert (LD2' : forall t, 0 <= t <= 1 -> r <= norm c (f - t * between p0 p1)) by (intros t T; rewrite <- GS; apply LD2; exact T).
    rewrite <- G1 in E1. destruct (choice_near c f _ r _ _ _ _ _ _ LPP DP LD1' LD2' G0 TRI ED ES EL E0 E1) as (R1 & R2 & R3).
    rewrite !le_exact, lt_exact by (assumption || reflexivity). change (B2R zero) with 0. fold (val s) (val (d_magnitude fused (d_sub p1 p0))).
    destruct (Rleb_spec 0 (val s)) as [S1|S1]; cbn [andb].
    + destruct (Rleb_spec (val s) (val (d_magnitude fused (d_sub p1 p0)))) as [S2|S2].
      * split; [unfold number, dbl_abs; rewrite is_finite_Babs; exact FD|]. unfold dbl_abs. rewrite B2R_Babs. apply R1. lra.
      * destruct (Rltb_spec (val s) 0) as [S3|S3]; [lra|]. split; [exact F1|]. apply R3. lra.
    + destruct (Rltb_spec (val s) 0) as [S3|S3]; [|lra]. split; [exact F0|]. apply R2. exact S3.
Qed.
Print Assumptions C174_distance.

(** There is always one least distance. *)
Theorem C174_least : forall p0 p1 q, exists r, least_distance p0 p1 q r /\ forall r', least_distance p0 p1 q r' -> r' = r.
Proof.
  intros p0 p1 q. assert (U : forall r r', least_distance p0 p1 q r -> least_distance p0 p1 q r' -> r' = r).
  { intros r r' ((t & T & E) & M) ((t' & T' & E') & M'). apply Rle_antisym; [rewrite <- E; apply M'; exact T|rewrite <- E'; apply M; exact T']. }
  assert (G : exists t, 0 <= t <= 1 /\ forall t', 0 <= t' <= 1 -> gap p0 p1 q t <= gap p0 p1 q t').
  { destruct (Rle_lt_or_eq_dec 0 (between p0 p1) (norm_pos _ _)) as [P|P].
    - pose proof (gap_square p0 p1 q) as GS. cbv zeta in GS. set (L := between p0 p1) in *. specialize (fun t => GS t P).
      match type of GS with forall t, _ = norm ?c (?f - t * _) => set (c' := c) in *; set (f' := f) in * end.
      destruct (Rle_dec f' 0) as [F|F]; [|destruct (Rle_dec L f') as [F2|F2]].
      + exists 0. split; [lra|]. intros t T. rewrite !GS. apply norm_mono. assert (0 <= t * L) by nra. rewrite !Rabs_left1 by lra. lra.
      + exists 1. split; [lra|]. intros t T. rewrite !GS. apply norm_mono. assert (t * L <= L) by nra. rewrite !Rabs_pos_eq by lra. lra.
      + assert (Q : 0 <= f' / L <= 1) by (split; [apply Rmult_le_pos; [lra|apply Rlt_le, Rinv_0_lt_compat; lra]|apply Rmult_le_reg_r with L; [lra|]; unfold Rdiv; rewrite Rmult_assoc, Rinv_l; lra]).
        exists (f' / L). split; [exact Q|]. intros t T. rewrite !GS. apply norm_mono. replace (f' - f' / L * L) with 0 by (field; lra). rewrite Rabs_R0. apply Rabs_pos.
    - exists 0. split; [lra|]. intros t T. right. destruct (norm_left (X p1 - X p0) (Y p1 - Y p0)) as (A & B). fold (between p0 p1) in A, B. rewrite <- P in A, B. apply Rabs_le_inv in A, B.
      unfold gap, towards. replace (X p1) with (X p0) by lra. replace (Y p1) with (Y p0) by lra. f_equal; ring. }
  destruct G as (t & T & M). assert (LD : least_distance p0 p1 q (gap p0 p1 q t)) by (split; [exists t; auto|exact M]).
  exists (gap p0 p1 q t). split; [exact LD|]. intros r' H. apply (U _ _ LD H).
Qed.
Print Assumptions C174_least.

(** ** What is lost *)
(** The distance is not null at a point of the segment given by its parameter: the point at the parameter
    1/10 of the segment from (0, 0) to (3, 7). *)
Definition three_seven : dvec := D (of_int 3) (of_int 7).
Theorem C174_on_refuted : forall fused, dbl_eq (d_distance_to_point fused (D zero zero) three_seven (d_interpolate (D zero zero) three_seven (tenths 1))) zero = false.
Proof. intros []; vm_compute; reflexivity. Qed.
Print Assumptions C174_on_refuted.

Example C174_example : let p0 := D zero zero in let p1 := D (of_int 2) one in let q := D one (of_int 3) in
  (numbers p0 /\ numbers p1 /\ numbers q) /\ (clean p0 p1 /\ clean p0 q /\ clean p1 q) /\ least_distance p0 p1 q (sqrt 5).
Proof.
  intros p0 p1 q. destruct one_val as (V1 & F1 & _). unfold val in V1.
  assert (V2 : number (of_int 2) /\ B2R (of_int 2) = 2) by number_value. assert (V3 : number (of_int 3) /\ B2R (of_int 3) = 3) by number_value. destruct V2 as (F2 & V2), V3 as (F3 & V3).
  assert (VZ : B2R zero = 0) by reflexivity. assert (FZ : number zero) by reflexivity. destruct neg_one as (FN & VN). unfold val in VN.
  assert (O : forall x : float, number x -> 1 <= Rabs (B2R x) <= 3 -> ordinary x).
  { intros x F B. split; [exact F|]. right. split; [apply Rle_trans with (bpow radix2 0); [apply bpow_le; lia|cbn; lra]|apply Rle_trans with (bpow radix2 2); [cbn; lra|apply bpow_le; lia]]. }
  assert (C : forall a b x y, number x -> number y -> 1 <= Rabs (B2R x) <= 3 -> 1 <= Rabs (B2R y) <= 3 -> B2R x = X b - X a -> B2R y = Y b - Y a -> clean a b).
  { intros a b x y FX FY BX BY EX EY. exists (D x y). split; [split; [split; assumption|split; assumption]|split; apply O; assumption]. }
  split; [split; [split; assumption|split; split; assumption]|]. split.
  - split; [|split].
    + apply (C _ _ (of_int 2) one); auto; unfold p0, p1; cbn [d_x d_y]; rewrite ?V1, ?V2, ?VZ, ?Rabs_pos_eq by lra; lra.
    + apply (C _ _ one (of_int 3)); auto; unfold p0, q; cbn [d_x d_y]; rewrite ?V1, ?V3, ?VZ, ?Rabs_pos_eq by lra; lra.
    + apply (C _ _ (dbl_neg one) (of_int 2)); auto; unfold p1, q; cbn [d_x d_y]; rewrite ?VN, ?V1, ?V2, ?V3, ?(Rabs_pos_eq 2), ?(Rabs_left (-1)) by lra; lra.
  - assert (G : forall t, gap p0 p1 q t = sqrt (5 * (t - 1) * (t - 1) + 5)).
    { intros t. unfold gap, norm, towards, p0, p1, q. cbn [d_x d_y]. rewrite V1, V2, V3, VZ. f_equal. ring. }
    split; [exists 1; split; [lra|rewrite G; f_equal; ring]|]. intros t T. rewrite G. apply sqrt_le_1_alt. nra.
Qed.
