From Coq Require Import Reals List ZArith Lra Lia Bool.
From Verif Require Import Base ModelVector ModelTransformation ModelLine ModelBezier ModelConic ModelPath ModelSpline.
From Verif Require Import SpecVector ProofVector ProofConic ProofConic3 GluePath ProofPath ProofPath2 ProofPath3 ProofPath4 ProofPath5 ProofPath6.
From Verif Require ModelScene SpecConic.
Import ModelScene(position, PVector, PName, PNumber, coordinates, cast_position).
From Verif Require Import ModelPainter ModelDrawing SpecPath.
Import SpecConic(polar).
From Verif Require SpecPainter.
Import SpecPainter(on_segment, on_quadratic, on_cubic, covers, degrees_cos, degrees_sin).
From Verif Require Import SpecDrawing ProofDrawing.
Import ListNotations.
Local Open Scope R_scope.

(** ** A rounded corner is unique *)
Lemma heading_unique a b d d' : heading a b d -> heading a b d' -> d = d'.
Proof. intros H H'. apply heading_normalise in H. apply heading_normalise in H'. rewrite H in H'. congruence. Qed.

Lemma fillet_unique P d1 d2 r c s e : unitv d1 -> unitv d2 -> crossv d1 d2 <> 0 -> 0 < r -> fillet P d1 d2 r c s e ->
  c = arc_center P d1 d2 r /\ s = arc_start P d1 d2 r /\ e = arc_stop P d1 d2 r.
Proof.
  intros U1 U2 N R0 (k & K0 & Sx & Sy & Ex & Ey & Ds & De & T1 & T2).
  pose proof (dot_cross d1 d2 U1 U2) as DC. unfold unitv in U1, U2.
  assert (D1 : -1 < dotv d1 d2 < 1). { assert (0 < crossv d1 d2 * crossv d1 d2) by nra. nra. }
  (* the centre on the two normals *)
  set (al := (vx c - vx s) * - vy d1 + (vy c - vy s) * vx d1).
  set (be := (vx c - vx e) * - vy d2 + (vy c - vy e) * vx d2).
  assert (C1x : vx c - vx s = - al * vy d1).
  { unfold al. transitivity ((vx c - vx s) * (vx d1 * vx d1 + vy d1 * vy d1) - vx d1 * ((vx c - vx s) * vx d1 + (vy c - vy s) * vy d1)); [rewrite U1, T1; ring|ring]. }
  assert (C1y : vy c - vy s = al * vx d1).
  { unfold al. transitivity ((vy c - vy s) * (vx d1 * vx d1 + vy d1 * vy d1) - vy d1 * ((vx c - vx s) * vx d1 + (vy c - vy s) * vy d1)); [rewrite U1, T1; ring|ring]. }
  assert (C2x : vx c - vx e = - be * vy d2).
  { unfold be. transitivity ((vx c - vx e) * (vx d2 * vx d2 + vy d2 * vy d2) - vx d2 * ((vx c - vx e) * vx d2 + (vy c - vy e) * vy d2)); [rewrite U2, T2; ring|ring]. }
  assert (C2y : vy c - vy e = be * vx d2).
  { unfold be. transitivity ((vy c - vy e) * (vx d2 * vx d2 + vy d2 * vy d2) - vy d2 * ((vx c - vx e) * vx d2 + (vy c - vy e) * vy d2)); [rewrite U2, T2; ring|ring]. }
  clearbody al be.
  assert (Ax : - al * vy d1 - k * vx d1 = - be * vy d2 + k * vx d2) by lra.
  assert (Ay : al * vx d1 - k * vy d1 = be * vx d2 + k * vy d2) by lra.
  assert (A1 : al * crossv d1 d2 = k * (1 + dotv d1 d2)).
  { unfold crossv, dotv. assert (Q : (- al * vy d1 - k * vx d1) * vx d2 + (al * vx d1 - k * vy d1) * vy d2 = k * (vx d2 * vx d2 + vy d2 * vy d2)) by (rewrite Ax, Ay; ring).
    rewrite U2 in Q. lra. }
  assert (R2 : al * al = r * r).
  { rewrite <- Ds. rewrite dist_sq. replace (al * al) with (al * al * (vx d1 * vx d1 + vy d1 * vy d1)) by (rewrite U1; ring).
    assert (Qx : vx s - vx c = al * vy d1) by lra. assert (Qy : vy s - vy c = - al * vx d1) by lra.
    transitivity ((vx s - vx c) * (vx s - vx c) + (vy s - vy c) * (vy s - vy c)); [rewrite Qx, Qy; ring|ring]. }
  assert (Aeq : al = (if Rlt_dec 0 (crossv d1 d2) then r else - r)).
  { assert (P0 : 0 < al * crossv d1 d2) by (rewrite A1; nra).
    assert (Z : (al - r) * (al + r) = 0) by (transitivity (al * al - r * r); [ring|lra]).
    destruct (Rlt_dec 0 (crossv d1 d2)) as [L|L]; apply Rmult_integral in Z; destruct Z as [Z|Z]; try lra; exfalso.
    - assert (al = - r) by lra. nra.
    - assert (al = r) by lra. nra. }
  assert (Keq : k = arc_ratio d1 d2 r * (1 - dotv d1 d2)).
  { assert (Ra : Rabs (crossv d1 d2) * r = al * crossv d1 d2).
    { rewrite Aeq. destruct (Rlt_dec 0 (crossv d1 d2)) as [L|L]; [rewrite Rabs_pos_eq by lra; ring|rewrite Rabs_left by lra; ring]. }
    assert (Kp : 0 < Rabs (crossv d1 d2)) by (apply Rabs_pos_lt; exact N).
    assert (Ha : Rabs (crossv d1 d2) * Rabs (crossv d1 d2) = crossv d1 d2 * crossv d1 d2).
    { rewrite <- Rabs_mult. apply Rabs_pos_eq. nra. }
    unfold arc_ratio. apply (Rmult_eq_reg_r (1 + dotv d1 d2)); [|lra]. rewrite <- A1, <- Ra.
    transitivity (r / Rabs (crossv d1 d2) * (Rabs (crossv d1 d2) * Rabs (crossv d1 d2))); [field; lra|]. rewrite Ha.
    replace (crossv d1 d2 * crossv d1 d2) with ((1 - dotv d1 d2) * (1 + dotv d1 d2)) by lra. ring. }
  assert (Hs : s = arc_start P d1 d2 r) by (apply vec_eq; unfold arc_start; cbn; rewrite ?Sx, ?Sy, <- Keq; reflexivity).
  assert (He : e = arc_stop P d1 d2 r) by (apply vec_eq; unfold arc_stop; cbn; rewrite ?Ex, ?Ey, <- Keq; reflexivity).
  split; [|auto].
  pose proof (fillet_ok P d1 d2 r U1 U2 N R0) as (k' & K0' & Sx' & Sy' & _ & _ & _ & _ & T1' & T2').
  rewrite <- Hs in *. rewrite <- He in *.
  set (c' := arc_center P d1 d2 r) in *.
  assert (L1 : (vx c - vx c') * vx d1 + (vy c - vy c') * vy d1 = 0) by lra.
  assert (L2 : (vx c - vx c') * vx d2 + (vy c - vy c') * vy d2 = 0) by lra.
  apply vec_eq.
  - assert (Q : (vx c - vx c') * crossv d1 d2 = 0).
    { unfold crossv. transitivity (((vx c - vx c') * vx d1 + (vy c - vy c') * vy d1) * vy d2 - ((vx c - vx c') * vx d2 + (vy c - vy c') * vy d2) * vy d1); [ring|]. rewrite L1, L2. ring. }
    apply Rmult_integral in Q. destruct Q; [lra|contradiction].
  - assert (Q : (vy c - vy c') * crossv d1 d2 = 0).
    { unfold crossv. transitivity (((vx c - vx c') * vx d2 + (vy c - vy c') * vy d2) * vx d1 - ((vx c - vx c') * vx d1 + (vy c - vy c') * vy d1) * vx d2); [ring|]. rewrite L1, L2. ring. }
    apply Rmult_integral in Q. destruct Q; [lra|contradiction].
Qed.

(** ** The arc, by angles and by the side of the chord *)
Definition side (s e x : vec) : R := (vx e - vx s) * (vy x - vy s) - (vy e - vy s) * (vx x - vx s).
Lemma side_swap s e x : side e s x = - side s e x. Proof. unfold side. ring. Qed.

Lemma chord_side c r u w a s e x : polar c r u s -> polar c r (u + w) e -> polar c r (u + a) x ->
  side s e x = 4 * (r * r) * (sin (rad (w / 2)) * (sin (rad (a / 2)) * sin (rad ((a - w) / 2)))).
Proof.
  intros [Sx Sy] [Ex Ey] [Xx Xy]. unfold side. rewrite Sx, Sy, Ex, Ey, Xx, Xy.
  set (y := rad u). 
  set (h := rad (w / 2)). set (g := rad (a / 2)).
  replace (rad (u + w)) with (y + (h + h)) by (unfold y, h, rad; field).
  replace (rad (u + a)) with (y + (g + g)) by (unfold y, g, rad; field).
  replace (rad ((a - w) / 2)) with (g - h) by (unfold h, g, rad; field).
  rewrite !cos_plus, !sin_plus, sin_minus, !cos_plus.
  pose proof (sin2_cos2 y) as Hy. pose proof (sin2_cos2 h) as Hh. pose proof (sin2_cos2 g) as Hg. unfold Rsqr in *.
  set (cy := cos y) in *. set (sy := sin y) in *. set (ch := cos h) in *. set (sh := sin h) in *. set (cg := cos g) in *. set (sg := sin g) in *.
  clearbody cy sy ch sh cg sg.
  replace (ch * ch - sh * sh) with (1 - 2 * (sh * sh)) by lra. replace (cg * cg - sg * sg) with (1 - 2 * (sg * sg)) by lra.
  transitivity (r * r * (sy * sy + cy * cy) * (4 * sh * sg * (sg * ch - cg * sh))); [|rewrite Hy; ring].
  transitivity (r * r * (sy * sy + cy * cy) * ((1 - 2 * (sh * sh) - 1) * (2 * sg * cg) - (2 * sh * ch) * (1 - 2 * (sg * sg) - 1))); ring.
Qed.

Lemma sin_half a : 0 < a < 360 -> 0 < sin (rad (a / 2)).
Proof. intros A. pose proof PI_RGT_0. apply sin_gt_0; unfold rad; [assert (0 < a / 2 / 180) by lra; nra|assert (a / 2 / 180 < 1) by lra; nra]. Qed.

Lemma turn_into u a : exists k, u <= a + 360 * IZR k < u + 360.
Proof.
  destruct (archimed ((u - a) / 360)) as [H1 H2]. set (n := up ((u - a) / 360)) in *.
  assert (E : (u - a) / 360 * 360 = u - a) by field.
  destruct (Req_dec (IZR n - (u - a) / 360) 1) as [Q|Q].
  - exists (n - 1)%Z. rewrite minus_IZR. nra.
  - exists n. nra.
Qed.

Lemma arc_side c r u v s e x : 0 < r -> short_turn u v -> polar c r u s -> polar c r v e ->
  (exists a, SpecPainter.swept u v a /\ polar c r a x) <-> (SpecVector.dist c x = r /\ side s e x <= 0).
Proof.
  intros R0 H S E.
  assert (W : exists w, 0 < w < 180 /\ polar c r (u + w) e /\ forall a, SpecPainter.swept u v a <-> u <= a <= u + w).
  { destruct H as [H|H].
    - exists (v - u). split; [exact H|]. replace (u + (v - u)) with v by ring. split; [exact E|].
      intros a. unfold SpecPainter.swept. rewrite Rabs_pos_eq by lra. split; [intros [Q|[Q|Q]]; lra|intros Q; right; left; lra].
    - exists (v - u + 360). split; [exact H|]. replace (u + (v - u + 360)) with (v + 360 * IZR 1) by ring. rewrite polar_turns. split; [exact E|].
      intros a. unfold SpecPainter.swept. rewrite Rabs_left by lra. split; [intros [Q|[Q|Q]]; lra|intros Q; right; right; lra]. }
  destruct W as (w & W & Ew & Sw). pose proof (sin_half w ltac:(lra)) as Hw.
  split.
  - intros (a & Ha & Px). apply Sw in Ha. split; [apply (polar_on_circle c r a x); [lra|exact Px]|].
    replace a with (u + (a - u)) in Px by ring. rewrite (chord_side c r u w (a - u) s e x S Ew Px).
    assert (G1 : 0 <= sin (rad ((a - u) / 2))).
    { destruct (Req_dec a u) as [->|]; [replace ((u - u) / 2) with 0 by field; rewrite rad_0, sin_0; lra|]. apply Rlt_le, sin_half. lra. }
    assert (G2 : sin (rad ((a - u - w) / 2)) <= 0).
    { replace ((a - u - w) / 2) with (- ((u + w - a) / 2)) by field. rewrite rad_m, sin_neg.
      destruct (Req_dec a (u + w)) as [Q|]; [replace ((u + w - a) / 2) with 0 by (rewrite Q; field); rewrite rad_0, sin_0; lra|].
      pose proof (sin_half (u + w - a) ltac:(lra)). lra. }
    assert (0 < r * r) by nra. set (z := sin (rad ((a - u) / 2))) in *. set (y := sin (rad ((a - u - w) / 2))) in *. set (q := sin (rad (w / 2))) in *.
    assert (M : 0 <= r * r * (q * (z * - y))) by (repeat apply Rmult_le_pos; lra).
    replace (4 * (r * r) * (q * (z * y))) with (- 4 * (r * r * (q * (z * - y)))) by ring. lra.
  - intros [D Hs]. destruct (polar_of c r x R0 D) as (a0 & _ & P0). destruct (turn_into u a0) as (k & Hk).
    exists (a0 + 360 * IZR k). rewrite Sw. rewrite polar_turns. split; [|exact P0]. split; [apply Hk|].
    destruct (Rle_lt_dec (a0 + 360 * IZR k) (u + w)) as [L|L]; [exact L|exfalso].
    rewrite <- (polar_turns c r a0 k) in P0. set (a := a0 + 360 * IZR k) in *.
    replace a with (u + (a - u)) in P0 by ring. rewrite (chord_side c r u w (a - u) s e x S Ew P0) in Hs.
    pose proof (sin_half (a - u) ltac:(lra)) as G1. pose proof (sin_half (a - u - w) ltac:(lra)) as G2.
    assert (M : 0 < r * r * (sin (rad (w / 2)) * (sin (rad ((a - u) / 2)) * sin (rad ((a - u - w) / 2))))) by (repeat apply Rmult_lt_0_compat; lra).
    lra.
Qed.

Lemma fillet_side P d1 d2 r c s e : fillet P d1 d2 r c s e -> exists k, 0 < k /\ side s e P = - k * crossv d1 d2.
Proof.
  intros (k & K0 & Sx & Sy & Ex & Ey & _). exists (k * k). split; [nra|]. unfold side, crossv. rewrite Sx, Sy, Ex, Ey. ring.
Qed.

Lemma fillet_covers P d1 d2 r c s e u v x : 0 < r -> crossv d1 d2 <> 0 -> fillet P d1 d2 r c s e -> short_turn u v ->
  (0 < crossv d1 d2 -> polar c r u s /\ polar c r v e) -> (crossv d1 d2 < 0 -> polar c r u e /\ polar c r v s) ->
  (exists a, SpecPainter.swept u v a /\ polar c r a x) <-> on_fillet P c s e r x.
Proof.
  intros R0 N F T H1 H2. destruct (fillet_side _ _ _ _ _ _ _ F) as (k & K0 & K).
  unfold on_fillet. change (_ * _ - _ * _) with (side s e x) at 1. fold (side s e P). fold (side s e x). rewrite K.
  destruct (Rlt_le_dec 0 (crossv d1 d2)) as [L|L].
  - destruct (H1 L) as [A B]. rewrite (arc_side c r u v s e x R0 T A B). assert (0 < k * crossv d1 d2) by nra.
    split; intros [Q1 Q2]; (split; [exact Q1|]); nra.
  - assert (L' : crossv d1 d2 < 0) by lra. destruct (H2 L') as [A B]. rewrite (arc_side c r u v e s x R0 T A B). rewrite side_swap.
    assert (0 < - (k * crossv d1 d2)) by nra. split; intros [Q1 Q2]; (split; [exact Q1|]); nra.
Qed.
