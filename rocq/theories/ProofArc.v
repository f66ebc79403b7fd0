(** Ellipses as Bezier curves, arcs from their end points, transformed ellipses. *)
From Coq Require Import Reals List Lra Lia Psatz ZArith Bool.
From Verif Require Import Base ModelVector ModelTransformation ModelLine ModelBezier ModelConic.
From Verif Require Import SpecVector SpecLine SpecConic GlueConic ProofVector ProofSegment ProofSpline ProofConic ProofConic2 ProofConic3.
Import ListNotations.
Local Open Scope R_scope.
Local Open Scope result_scope.

Lemma half_angle h : -PI < h < PI -> let t := tan (h / 2) in
  cos h = (1 - t ^ 2) / (1 + t ^ 2) /\ sin h = 2 * t / (1 + t ^ 2).
Proof.
  intros H t. assert (C : 0 < cos (h / 2)) by (apply cos_gt_0; lra).
  assert (E : h = 2 * (h / 2)) by field. pose proof (sin2_cos2 (h / 2)) as T. unfold Rsqr in T.
  assert (N : cos (h / 2) * cos (h / 2) + sin (h / 2) * sin (h / 2) <> 0) by lra.
  unfold t, tan. split.
  - rewrite E at 1. rewrite cos_2a. transitivity ((cos (h / 2) * cos (h / 2) - sin (h / 2) * sin (h / 2)) / (cos (h / 2) * cos (h / 2) + sin (h / 2) * sin (h / 2))).
    + replace (cos (h / 2) * cos (h / 2) + sin (h / 2) * sin (h / 2)) with 1 by lra. field.
    + field. split; [|lra]. intro Z. apply N. lra.
  - rewrite E at 1. rewrite sin_2a. transitivity (2 * sin (h / 2) * cos (h / 2) / (cos (h / 2) * cos (h / 2) + sin (h / 2) * sin (h / 2))).
    + replace (cos (h / 2) * cos (h / 2) + sin (h / 2) * sin (h / 2)) with 1 by lra. field.
    + field. split; [|lra]. intro Z. apply N. lra.
Qed.

(** The unit arc of half opening with tangent of the quarter angle [T]. *)
Definition bump (T x : R) : R := 16 * T ^ 6 / (1 + T ^ 2) ^ 2 * (x ^ 2 * (1 - x) ^ 2 * (1 - 2 * x) ^ 2).

Lemma bezier_arc_ok e a b : 0 < b - a < 360 -> let T := tan (rad (b - a) / 4) in
  exists c, bezier_arc e a b = Ok c /\
   ellipse_polar (e_center e) (e_rx e) (e_ry e) (e_angle e) a (c0 c) /\
   ellipse_polar (e_center e) (e_rx e) (e_ry e) (e_angle e) b (c3p c) /\
   0 < 4 / 3 * T /\
   c1 c = vadd (c0 c) (vscale (arc_tangent e a) (4 / 3 * T)) /\
   c2 c = vsub (c3p c) (vscale (arc_tangent e b) (4 / 3 * T)) /\
   ellipse_polar (e_center e) (e_rx e) (e_ry e) (e_angle e) ((a + b) / 2) (cubic_point_at_t c (1 / 2)) /\
   (forall x, exists u v, frame (e_center e) (e_angle e) (cubic_point_at_t c x) (e_rx e * u) (e_ry e * v) /\
      u ^ 2 + v ^ 2 = 1 + bump T x).
Proof.
  intros D T. unfold bezier_arc. cbn zeta. rewrite !radians_rad. set (h := (rad b - rad a) / 2).
  assert (RB : rad (b - a) = rad b - rad a) by (unfold rad; field).
  assert (ET : T = tan (h / 2)) by (unfold T, h; rewrite RB; f_equal; field).
  pose proof PI_RGT_0 as HP.
  assert (H : 0 < h < PI) by (unfold h, rad; split; nra).
  destruct (half_angle h) as [HC HS]; [lra|]. cbv zeta in HC, HS. rewrite <- ET in HC, HS.
  assert (TP : 0 < T) by (rewrite ET; apply tan_gt_0; lra).
  assert (P1 : 1 + T ^ 2 <> 0) by nra.
  assert (SP : 0 < sin h) by (apply sin_gt_0; lra).
  rewrite fdiv_ok by lra. cbn [bind].
  assert (EK : 8 / 3 * sin (h / 2) ^ 2 / sin h = 4 / 3 * T).
  { replace (sin h) with (2 * sin (h / 2) * cos (h / 2)) by (rewrite <- sin_2a; f_equal; field).
    assert (0 < sin (h / 2)) by (apply sin_gt_0; lra). assert (0 < cos (h / 2)) by (apply cos_gt_0; lra). rewrite ET. unfold tan. field. split; lra. }
  rewrite EK, !turn_frame. cbn [vx vy]. set (k := 4 / 3 * T).
  pose proof (ellipse_point_ok e a) as PA. pose proof (ellipse_point_ok e b) as PB.
  set (pa := ellipse_point_at_angle e a) in *. set (pb := ellipse_point_at_angle e b) in *.
  eexists. split; [reflexivity|]. cbn [c0 c1 c2 c3p]. split; [exact PA|]. split; [exact PB|]. split; [unfold k; lra|]. split; [reflexivity|].
  split; [apply vec_eq; unfold arc_tangent, ellipse_tangent; cbn [vadd vsub vscale vx vy]; ring|].
  (* the curve in the frame *)
  destruct PA as [PAx PAy]. destruct PB as [PBx PBy].
  set (m := (rad a + rad b) / 2).
  assert (Ea : rad a = m - h) by (unfold m, h; field). assert (Eb : rad b = m + h) by (unfold m, h; field).
  set (X := fun x => cos h + 3 * k * sin h * (x * (1 - x))).
  set (Y := fun x => sin h * (-1 + 2 * x) * (1 + 2 * x - 2 * x ^ 2) + 3 * k * cos h * (x * (1 - x) * (1 - 2 * x))).
  set (curve := Cub _ _ _ _).
  assert (F : forall x, frame (e_center e) (e_angle e) (cubic_point_at_t curve x)
      (e_rx e * (cos m * X x - sin m * Y x)) (e_ry e * (sin m * X x + cos m * Y x))).
  { intro x. unfold frame, cubic_point_at_t, curve. cbn [c0 c1 c2 c3p]. unfold vadd, vsub, vscale. cbn [vx vy].
    rewrite PAx, PAy, PBx, PBy, Ea, Eb. rewrite !cos_minus, !sin_minus, !cos_plus, !sin_plus. unfold X, Y. split; ring. }
  split.
  - unfold ellipse_polar. replace (rad ((a + b) / 2)) with m by (unfold m, rad; field).
    assert (X2 : X (1 / 2) = 1).
    { unfold X, k. rewrite HC, HS. field. exact P1. }
    assert (Y2 : Y (1 / 2) = 0) by (unfold Y; field).
    specialize (F (1 / 2)). rewrite X2, Y2 in F.
    replace (cos m * 1 - sin m * 0) with (cos m) in F by ring. replace (sin m * 1 + cos m * 0) with (sin m) in F by ring. exact F.
  - intro x. eexists _, _. split; [apply F|]. pose proof (sin2_cos2 m) as Tm. unfold Rsqr in Tm.
    transitivity ((sin m * sin m + cos m * cos m) * (X x ^ 2 + Y x ^ 2)); [ring|]. rewrite Tm, Rmult_1_l.
    unfold X, Y, k, bump. rewrite HC, HS. field. exact P1.
Qed.

Lemma ceil_ok x : x <= IZR (ceil x) < x + 1.
Proof.
  unfold ceil. rewrite opp_IZR. destruct (base_Int_part (- x)). lra.
Qed.

Lemma quarter_bound d : 0 < d <= 90001 / 1000 -> 0 < tan (rad d / 4) /\ tan (rad d / 4) ^ 2 <= 17165 / 100000.
Proof.
  intro D. set (h := rad d / 2). pose proof PI_RGT_0 as HP. pose proof PI_4 as P4.
  assert (HD : h = d * PI / 360) by (unfold h, rad; field).
  assert (H : 0 < h /\ 2 * h <= PI / 2 + PI / 180000).
  { rewrite HD. split; [apply Rmult_lt_0_compat; [nra|lra]|].
    replace (PI / 2 + PI / 180000) with (90001 / 1000 * PI / 180) by field. replace (2 * (d * PI / 360)) with (d * PI / 180) by field.
    unfold Rdiv. apply Rmult_le_compat_r; [lra|]. apply Rmult_le_compat_r; lra. }
  replace (rad d / 4) with (h / 2) by (unfold h; field).
  destruct (half_angle h) as [HC _]; [lra|]. cbv zeta in HC. set (T := tan (h / 2)) in *.
  assert (TP : 0 < T) by (apply tan_gt_0; lra). split; [exact TP|].
  assert (C2 : - (4 / 180000) <= cos (2 * h)).
  { apply Rle_trans with (cos (PI / 2 + PI / 180000)).
    - rewrite cos_plus, cos_PI2, sin_PI2. assert (sin (PI / 180000) < PI / 180000) by (apply sin_lt_x; lra). lra.
    - destruct (Rle_lt_or_eq_dec _ _ (proj2 H)) as [L|L]; [|rewrite L; lra]. apply Rlt_le, cos_decreasing_1; lra. }
  assert (CP : 0 < cos h) by (apply cos_gt_0; lra).
  replace (2 * h) with (h + h) in C2 by ring. rewrite cos_plus in C2. pose proof (sin2_cos2 h) as S2. unfold Rsqr in S2.
  assert (CB : 7070 / 10000 <= cos h) by nra.
  set (y := T ^ 2) in *. assert (Y0 : 0 < y) by (unfold y; apply pow_lt; exact TP).
  assert (E : cos h * (1 + y) = 1 - y) by (rewrite HC; field; lra). nra.
Qed.
Lemma bump_bound T x : 0 <= T ^ 2 <= 17165 / 100000 -> 0 <= x <= 1 -> 0 <= bump T x <= 55 / 100000.
Proof.
  intros B X. unfold bump. set (y := T ^ 2) in *. replace (T ^ 6) with (y ^ 3) by (unfold y; ring).
  set (w := x * (1 - x)). assert (W : 0 <= w <= 1 / 4) by (unfold w; split; [apply Rmult_le_pos; lra|]; pose proof (pow2_ge_0 (1 - 2 * x)); lra).
  replace (x ^ 2 * (1 - x) ^ 2 * (1 - 2 * x) ^ 2) with (w ^ 2 * (1 - 4 * w)) by (unfold w; ring).
  assert (W1 : 0 <= w ^ 2 * (1 - 4 * w) <= 1 / 108).
  { split; [apply Rmult_le_pos; [apply pow2_ge_0|lra]|].
    assert (1 / 108 - w ^ 2 * (1 - 4 * w) = 4 * (w - 1 / 6) ^ 2 * (w + 1 / 12)) by field.
    assert (0 <= 4 * (w - 1 / 6) ^ 2 * (w + 1 / 12)) by (apply Rmult_le_pos; [pose proof (pow2_ge_0 (w - 1/6)); lra|lra]). lra. }
  assert (K : 0 <= 16 * y ^ 3 / (1 + y) ^ 2 <= 594 / 10000).
  { assert (P : 0 < (1 + y) ^ 2) by (apply pow_lt; lra). split.
    - apply Rmult_le_pos; [|apply Rlt_le, Rinv_0_lt_compat; exact P]. assert (0 <= y ^ 3) by (apply pow_le; lra). lra.
    - apply (Rmult_le_reg_r ((1 + y) ^ 2)); [exact P|]. unfold Rdiv at 1. rewrite Rmult_assoc, Rinv_l by lra. rewrite Rmult_1_r.
      assert (y ^ 2 <= (17165 / 100000) * (17165 / 100000)) by (replace (y ^ 2) with (y * y) by ring; apply Rmult_le_compat; lra).
      assert (16 * y ^ 3 <= 16 * ((17165 / 100000) * (17165 / 100000)) * y) by (replace (y ^ 3) with (y ^ 2 * y) by ring; nra).
      nra. }
  set (k := 16 * y ^ 3 / (1 + y) ^ 2) in *. set (z := w ^ 2 * (1 - 4 * w)) in *. split; [apply Rmult_le_pos; lra|].
  apply Rle_trans with (594 / 10000 * (1 / 108)); [apply Rmult_le_compat; lra|lra].
Qed.

Lemma to_bezier_ok e s t : angles e s t -> s < t -> exists l,
  ellipse_to_bezier e = Ok l /\ l <> [] /\ (t - s) / INR (length l) <= 90001 / 1000 /\
  forall i c, nth_error l i = Some c ->
    let at_ a := ellipse_point_at_angle e a in
    let step := (t - s) / INR (length l) in
    let a := s + INR i * step in
    let b := s + INR (i + 1) * step in
    c0 c = at_ a /\ c3p c = at_ b /\ cubic_point_at_t c (1 / 2) = at_ ((a + b) / 2) /\
    (exists k, 0 < k /\ vsub (c1 c) (c0 c) = vscale (arc_tangent e a) k /\
               vsub (c3p c) (c2 c) = vscale (arc_tangent e b) k) /\
    forall x, 0 <= x <= 1 -> near_ellipse e (cubic_point_at_t c x).
Proof.
  intros A L. unfold ellipse_to_bezier. 
  assert (E : match e_domain e with Some d => (d_start d, d_span d) | None => (0, 360) end = (s, t - s)).
  { unfold angles in A. destruct (e_domain e) as [d|]; destruct A as [-> ->]; [|f_equal; ring]. unfold d_span. rewrite Rabs_pos_eq by lra. reflexivity. }
  rewrite E. set (z := ceil (Rabs ((t - s) / (90001 / 1000)))).
  assert (Q0 : 0 < (t - s) / (90001 / 1000)) by (apply Rdiv_lt_0_compat; lra).
  pose proof (ceil_ok (Rabs ((t - s) / (90001 / 1000)))) as Z. fold z in Z. rewrite Rabs_pos_eq in Z by lra.
  assert (Zp : (0 < z)%Z) by (apply lt_IZR; lra).
  set (n := Z.to_nat z). assert (Nz : INR n = IZR z) by (unfold n; rewrite INR_IZR_INZ, Z2Nat.id by lia; reflexivity).
  assert (Np : 0 < INR n) by (rewrite Nz; lra). assert (Nn : (0 < n)%nat) by (unfold n; lia).
  assert (Zlo : (t - s) <= 90001 / 1000 * INR n).
  { rewrite Nz. apply (Rmult_le_reg_r (/ (90001 / 1000))); [apply Rinv_0_lt_compat; lra|]. replace (90001 / 1000 * IZR z * / (90001 / 1000)) with (IZR z) by field. exact (proj1 Z). }
  rewrite fdiv_ok by lra. cbn [bind]. set (step := (t - s) / INR n).
  assert (St : 0 < step <= 90001 / 1000).
  { split; [apply Rdiv_lt_0_compat; lra|]. unfold step. apply (Rmult_le_reg_r (INR n)); [exact Np|]. unfold Rdiv at 1. rewrite Rmult_assoc, Rinv_l by lra. lra. }
  set (f := fun i : nat => _).
  assert (F : forall i, exists c, f i = Ok c).
  { intro i. unfold f. destruct (bezier_arc_ok e (s + INR i * step) (s + INR i * step + step)) as (c & Ec & _); [lra|]. exists c. exact Ec. }
  set (g := fun i => match f i with Ok c => c | Raise _ => Cub (V 0 0) (V 0 0) (V 0 0) (V 0 0) end).
  exists (map g (seq 0 n)).
  assert (Len : length (map g (seq 0 n)) = n) by (rewrite map_length, seq_length; reflexivity).
  split; [|split; [|split]].
  - apply traverse_seq. intros j _. unfold g. destruct (F j) as (c & Ec). rewrite Ec. reflexivity.
  - intro Z0. rewrite Z0 in Len. cbn in Len. lia.
  - rewrite Len. apply St.
  - rewrite Len. intros i c Hi. cbn zeta. fold step.
    assert (Hlt : (i < n)%nat).
    { assert (nth_error (map g (seq 0 n)) i <> None) as Hne by congruence. apply nth_error_Some in Hne. rewrite Len in Hne. exact Hne. }
    assert (Hc : f i = Ok c).
    { rewrite nth_error_map in Hi. rewrite (nth_error_nth' _ 0%nat) in Hi by (rewrite seq_length; exact Hlt). rewrite seq_nth in Hi by exact Hlt. cbn in Hi.
      injection Hi as <-. unfold g. destruct (F i) as (c & Ec). rewrite Ec. reflexivity. }
    destruct (bezier_arc_ok e (s + INR i * step) (s + INR i * step + step)) as (c' & Ec & P0 & P3 & K & C1 & C2 & M & FR); [lra|].
    unfold f in Hc. rewrite Ec in Hc. injection Hc as <-.
    replace (s + INR (i + 1) * step) with (s + INR i * step + step) by (rewrite plus_INR; simpl; ring).
    set (a := s + INR i * step) in *. replace (a + step - a) with step in * by ring.
    split; [apply (frame_point _ _ _ _ _ _ P0 (ellipse_point_ok e a))|].
    split; [apply (frame_point _ _ _ _ _ _ P3 (ellipse_point_ok e (a + step)))|].
    split; [apply (frame_point _ _ _ _ _ _ M (ellipse_point_ok e _))|].
    destruct (quarter_bound step) as [Tp Tb]; [lra|].
    split.
    + exists (4 / 3 * tan (rad step / 4)). split; [exact K|]. rewrite C1, C2. split; apply vec_eq; cbn [vadd vsub vscale vx vy]; ring.
    + intros x Hx. destruct (FR x) as (u & v & Fr & Un). exists u, v. split; [exact Fr|]. rewrite Un.
      pose proof (bump_bound (tan (rad step / 4)) x) as Bb. assert (0 <= tan (rad step / 4) ^ 2) by apply pow2_ge_0. specialize (Bb ltac:(lra) Hx). lra.
Qed.

Lemma to_bezier_chain e s t l : angles e s t -> s < t -> ellipse_to_bezier e = Ok l ->
  (forall c, hd_error l = Some c -> c0 c = ellipse_point_at_angle e s) /\
  (forall i c, nth_error l i = Some c -> i = (length l - 1)%nat -> c3p c = ellipse_point_at_angle e t) /\
  (forall i c c', nth_error l i = Some c -> nth_error l (i + 1) = Some c' -> c3p c = c0 c').
Proof.
  intros A L E. destruct (to_bezier_ok e s t A L) as (l' & E' & N & _ & H). rewrite E in E'. injection E' as <-.
  assert (Np : 0 < INR (length l)) by (apply lt_0_INR; destruct l; [congruence|cbn; lia]).
  split; [|split].
  - intros c Hc. assert (Hn : nth_error l 0 = Some c) by (destruct l; [discriminate|exact Hc]).
    destruct (H 0%nat c Hn) as [-> _]. f_equal. simpl. ring.
  - intros i c Hc Hi. destruct (H i c Hc) as (_ & -> & _). f_equal.
    replace (i + 1)%nat with (length l) by (destruct l; [congruence|cbn in *; lia]). field. lra.
  - intros i c c' Hc Hc'. destruct (H i c Hc) as (_ & -> & _). destruct (H _ c' Hc') as (-> & _). reflexivity.
Qed.

(** A clockwise arc is followed the other way round. *)
Lemma to_bezier_clockwise_refuted : let e := Ell (V 0 0) 1 1 0 (Some (Dom 90 0)) in exists c,
  ellipse_to_bezier e = Ok [c] /\ c0 c = V 0 1 /\ c3p c = V (-1) 0 /\ ellipse_point_at_angle e 0 = V 1 0.
Proof.
  cbn zeta. set (e := Ell _ _ _ _ _). set (e' := Ell (V 0 0) 1 1 0 (Some (Dom 90 180))).
  assert (Same : ellipse_to_bezier e = ellipse_to_bezier e').
  { unfold ellipse_to_bezier, e, e'. cbn [e_domain d_start d_span]. unfold d_span. cbn [d_start d_stop]. 
    replace (Rabs (0 - 90)) with (Rabs (180 - 90)) by (rewrite (Rabs_left (0 - 90)), (Rabs_pos_eq (180 - 90)) by lra; ring). reflexivity. }
  destruct (to_bezier_ok e' 90 180) as (l & El & N & _ & _); [cbn; auto|lra|].
  destruct (to_bezier_chain e' 90 180 l) as (H0 & H1 & _); [cbn; auto|lra|exact El|].
  assert (PT : forall a, ellipse_point_at_angle e' a = V (cos (rad a)) (sin (rad a))).
  { intro a. destruct (ellipse_point_ok e' a) as [X Y]. cbn [e' e_center e_rx e_ry e_angle vx vy] in X, Y. rewrite rad_0, cos_0, sin_0 in X, Y. fold e' in X, Y.
    apply vec_eq; cbn [vx vy]; [rewrite X|rewrite Y]; ring. }
  assert (Len : length l = 1%nat).
  { unfold ellipse_to_bezier in El. cbn [e' e_domain] in El. unfold d_span in El. cbn [d_start d_stop] in El.
    set (z := ceil _) in El. assert (Z : z = 1%Z).
    { unfold z. set (q := Rabs (Rabs (180 - 90) / (90001 / 1000))). assert (Q : q = 90 / (90001 / 1000)) by (unfold q; rewrite (Rabs_pos_eq (180 - 90)) by lra; rewrite Rabs_pos_eq by lra; field).
      pose proof (ceil_ok q) as [A B]. assert (q < 1) by (rewrite Q; lra). assert (0 < q) by (rewrite Q; lra).
      assert (I2 : IZR (ceil q) < 2) by lra. assert (I0 : 0 < IZR (ceil q)) by lra. apply lt_IZR in I2, I0. lia. }
    rewrite Z in El. change (Z.to_nat 1) with 1%nat in El. destruct (fdiv _ _) as [st|]; [|discriminate]. cbn [bind seq traverse] in El.
    destruct (bezier_arc _ _ _) as [c|]; [|discriminate]. cbn [bind] in El. injection El as <-. reflexivity. }
  destruct l as [|c [|]]; try discriminate. exists c. rewrite Same. split; [exact El|]. split; [|split].
  - rewrite (H0 c eq_refl), PT, rad_90, cos_PI2, sin_PI2. reflexivity.
  - rewrite (H1 0%nat c eq_refl eq_refl), PT, rad_180, cos_PI, sin_PI. reflexivity.
  - change (ellipse_point_at_angle e 0) with (ellipse_point_at_angle e' 0). rewrite PT, rad_0, cos_0, sin_0. reflexivity.
Qed.
Lemma to_bezier_null_refuted c rx ry phi a : ellipse_to_bezier (Ell c rx ry phi (Some (Dom a a))) = Raise ZeroDivisionError.
Proof.
  unfold ellipse_to_bezier. cbn [e_domain]. unfold d_span. cbn [d_start d_stop]. rewrite Rminus_diag_eq, Rabs_R0 by reflexivity.
  unfold Rdiv at 1. rewrite Rmult_0_l, Rabs_R0. replace (ceil 0) with 0%Z; [|].
  - cbn [Z.to_nat INR]. unfold fdiv. rewrite Reqb_refl. reflexivity.
  - pose proof (ceil_ok 0) as [A B]. assert (IZR (ceil 0) < 1) by lra. apply lt_IZR in H. apply le_IZR in A. lia.
Qed.

(** ** Arcs given by their end points *)
Lemma rotation2_ok a : rotation2 a = Ok (T2 (M2 (cos (rad a)) (- sin (rad a)) (sin (rad a)) (cos (rad a))) (Some TRotation)).
Proof. unfold rotation2, new2. rewrite radians_rad. reflexivity. Qed.
Lemma trig_turns x k : cos (rad (x - 360 * IZR k)) = cos (rad x) /\ sin (rad (x - 360 * IZR k)) = sin (rad x).
Proof.
  assert (E : rad (x - 360 * IZR k) + 2 * IZR k * PI = rad x) by (unfold rad; field).
  assert (N : forall n y, cos (y + 2 * INR n * PI) = cos y /\ sin (y + 2 * INR n * PI) = sin y) by (intros; split; [apply cos_period|apply sin_period]).
  destruct (Z.le_gt_cases 0 k) as [K|K].
  - destruct (N (Z.to_nat k) (rad (x - 360 * IZR k))) as [A B]. rewrite INR_IZR_INZ, Z2Nat.id, E in A, B by lia. auto.
  - destruct (N (Z.to_nat (- k)) (rad x)) as [A B]. rewrite INR_IZR_INZ, Z2Nat.id, opp_IZR in A, B by lia.
    replace (rad x + 2 * - IZR k * PI) with (rad (x - 360 * IZR k)) in A, B by lra. auto.
Qed.
Lemma turned_back u v t : len u = 1 -> len v = 1 ->
  vx u * len v = len u * (cos (rad t) * vx v - sin (rad t) * vy v) ->
  vy u * len v = len u * (sin (rad t) * vx v + cos (rad t) * vy v) ->
  vx v = cos (rad t) * vx u + sin (rad t) * vy u /\ vy v = cos (rad t) * vy u - sin (rad t) * vx u.
Proof.
  intros -> -> X Y. rewrite Rmult_1_r, Rmult_1_l in X, Y. rewrite X, Y. pose proof (sin2_cos2 (rad t)) as P. unfold Rsqr in P.
  set (s := sin (rad t)) in *. set (c := cos (rad t)) in *. split.
  - transitivity ((s * s + c * c) * vx v); [rewrite P; ring|ring].
  - transitivity ((s * s + c * c) * vy v); [rewrite P; ring|ring].
Qed.

Lemma svg_arc_ok p1 p2 rx ry phi large sweep : rx <> 0 -> ry <> 0 -> p1 <> p2 ->
  (exists c, on_ellipse c rx ry phi p1 /\ on_ellipse c rx ry phi p2) ->
  exists e s t, svg_arc p1 p2 rx ry phi large sweep = Ok (ArcEllipse e) /\
    e_rx e = Rabs rx /\ e_ry e = Rabs ry /\ e_angle e = phi /\ e_domain e = Some (Dom s t) /\
    (sweep = true -> s <= t < s + 360) /\ (sweep = false -> s - 360 < t <= s) /\
    ellipse_polar (e_center e) (e_rx e) (e_ry e) phi (- s) p1 /\
    ellipse_polar (e_center e) (e_rx e) (e_ry e) phi (- t) p2.
Proof.
  intros X0 Y0 N12 (cc & On1 & On2). unfold svg_arc. rewrite !Reqb_false by assumption. cbn [orb]. cbn zeta.
  set (a := Rabs rx). set (b := Rabs ry).
  assert (A : 0 < a) by (apply Rabs_pos_lt; exact X0). assert (B : 0 < b) by (apply Rabs_pos_lt; exact Y0).
  assert (A2 : a ^ 2 = rx ^ 2) by (apply pow2_abs).
  assert (B2 : b ^ 2 = ry ^ 2) by (apply pow2_abs).
  unfold vdiv at 1. rewrite Reqb_false by lra. cbn [bind]. rewrite rotation2_ok. cbn [bind].
  unfold vdiv at 1. rewrite Reqb_false by lra. cbn [bind]. rewrite rad_m, cos_neg, sin_neg.
  set (k := cos (rad phi)). set (s := sin (rad phi)). pose proof (sin2_cos2 (rad phi)) as P. unfold Rsqr in P. fold k s in P.
  unfold apply2. cbn [t2_m a00 a01 a10 a11 vx vy vsub vadd].
  set (dx := vx p1 - vx p2). set (dy := vy p1 - vy p2). set (mx := (vx p1 + vx p2) / 2). set (my := (vy p1 + vy p2) / 2).
  set (x := (k * dx + - - s * dy) / 2). set (y := (- s * dx + k * dy) / 2).
  assert (Ex : x = (k * dx + s * dy) / 2) by (unfold x; field). assert (Ey : y = (k * dy - s * dx) / 2) by (unfold y; field).
  assert (Dx : dx / 2 = k * x - s * y).
  { rewrite Ex, Ey. transitivity ((s * s + k * k) * dx / 2); [rewrite P; field|field]. }
  assert (Dy : dy / 2 = s * x + k * y).
  { rewrite Ex, Ey. transitivity ((s * s + k * k) * dy / 2); [rewrite P; field|field]. }
  rewrite (fdiv_ok (x ^ 2)) by (apply pow_nonzero; lra). rewrite (fdiv_ok (y ^ 2)) by (apply pow_nonzero; lra). cbn [bind].
  set (q := x ^ 2 / a ^ 2 + y ^ 2 / b ^ 2).
  (* the chord is not longer than the diameter *)
  assert (Q1 : q <= 1).
  { destruct On1 as (u1 & v1 & [F1 G1] & H1). destruct On2 as (u2 & v2 & [F2 G2] & H2). fold k s in F1, G1, F2, G2.
    assert (EX : x = (u1 - u2) / 2).
    { rewrite Ex. unfold dx, dy. rewrite F1, F2, G1, G2. transitivity ((s * s + k * k) * (u1 - u2) / 2); [field|rewrite P; field]. }
    assert (EY : y = (v1 - v2) / 2).
    { rewrite Ey. unfold dx, dy. rewrite F1, F2, G1, G2. transitivity ((s * s + k * k) * (v1 - v2) / 2); [field|rewrite P; field]. }
    unfold q. rewrite A2, B2, EX, EY.
    replace (((u1 - u2) / 2) ^ 2 / rx ^ 2 + ((v1 - v2) / 2) ^ 2 / ry ^ 2)
      with ((((u1 / rx) - (u2 / rx)) ^ 2 + ((v1 / ry) - (v2 / ry)) ^ 2) / 4) by (field; split; assumption).
    set (g1 := u1 / rx) in *. set (g2 := u2 / rx) in *. set (h1 := v1 / ry) in *. set (h2 := v2 / ry) in *.
    pose proof (pow2_ge_0 (g1 + g2)). pose proof (pow2_ge_0 (h1 + h2)). lra. }
  assert (XY : x <> 0 \/ y <> 0).
  { destruct (Req_dec x 0) as [Zx|Zx]; [|auto]. destruct (Req_dec y 0) as [Zy|Zy]; [|auto]. exfalso. apply N12.
    rewrite Zx, Zy in Dx, Dy. unfold dx, dy in Dx, Dy. apply vec_eq; lra. }
  assert (Q0 : 0 < q).
  { unfold q. assert (0 <= x ^ 2 / a ^ 2) by (apply Rmult_le_pos; [apply pow2_ge_0|apply Rlt_le, Rinv_0_lt_compat, pow_lt; lra]).
    assert (0 <= y ^ 2 / b ^ 2) by (apply Rmult_le_pos; [apply pow2_ge_0|apply Rlt_le, Rinv_0_lt_compat, pow_lt; lra]).
    destruct XY as [Z|Z].
    - assert (0 < x ^ 2 / a ^ 2); [|lra]. apply Rdiv_lt_0_compat; [|apply pow_lt; lra]. pose proof (Rsqr_pos_lt x Z). unfold Rsqr in *. lra.
    - assert (0 < y ^ 2 / b ^ 2); [|lra]. apply Rdiv_lt_0_compat; [|apply pow_lt; lra]. pose proof (Rsqr_pos_lt y Z). unfold Rsqr in *. lra. }
  rewrite Rltb_false by lra.
  set (den := a ^ 2 * y ^ 2 + b ^ 2 * x ^ 2).
  assert (ED : den = q * (a ^ 2 * b ^ 2)) by (unfold den, q; field; split; lra).
  assert (AB : 0 < a ^ 2 * b ^ 2) by (apply Rmult_lt_0_compat; apply pow_lt; lra).
  assert (D0 : den <> 0) by (rewrite ED; apply Rgt_not_eq, Rmult_lt_0_compat; lra).
  rewrite (fdiv_ok a b) by lra. cbn [bind]. rewrite (fdiv_ok _ den) by exact D0. cbn [bind].
  assert (EQ : (a ^ 2 * b ^ 2 - den) / den = (1 - q) / q) by (rewrite ED; field; repeat split; lra).
  rewrite EQ. assert (QQ : 0 <= (1 - q) / q) by (apply Rmult_le_pos; [lra|apply Rlt_le, Rinv_0_lt_compat; lra]).
  rewrite Rltb_false by lra. cbn [bind].
  rewrite (fdiv_ok 1) by (apply Rgt_not_eq, Rdiv_lt_0_compat; lra). cbn [bind]. rewrite rotation2_ok. cbn [bind]. fold k s.
  set (l := (if Bool.eqb large sweep then -1 else 1) * -1 * sqrt ((1 - q) / q)).
  assert (L2 : l * l = (1 - q) / q).
  { unfold l. transitivity (sqrt ((1 - q) / q) * sqrt ((1 - q) / q)); [destruct (Bool.eqb large sweep); ring|]. apply sqrt_sqrt. exact QQ. }
  set (ct := vscale _ l).
  set (cx := l * (y * (a / b))). set (cy := l * (- x * (1 / (a / b)))).
  assert (Ect : ct = V cx cy) by reflexivity. clearbody ct. subst ct.
  assert (Ecx : cx / a = l * (y / b)) by (unfold cx; field; split; lra).
  assert (Ecy : cy / b = - l * (x / a)) by (unfold cy; field; split; lra).
  unfold vdivide. rewrite !Reqb_false by lra. cbn [orb bind t2_m a00 a01 a10 a11 vx vy vneg vadd vsub].
  set (v1 := V ((x - cx) / a) ((y - cy) / b)). set (v2 := V (- ((x + cx) / a)) (- ((y + cy) / b))).
  change (vneg (V ((x + cx) / a) ((y + cy) / b))) with v2.
  assert (Un : forall sg, sg * sg = 1 -> (sg * (x / a) - cx / a) ^ 2 + (sg * (y / b) - cy / b) ^ 2 = 1).
  { intros sg Sg. rewrite Ecx, Ecy.
    transitivity ((sg * sg + l * l) * ((x / a) ^ 2 + (y / b) ^ 2)); [ring|]. rewrite Sg, L2.
    replace ((x / a) ^ 2 + (y / b) ^ 2) with q by (unfold q; field; split; lra). field. lra. }
  assert (L1 : len v1 = 1).
  { unfold len, v1. cbn [vx vy]. replace ((x - cx) / a * ((x - cx) / a) + (y - cy) / b * ((y - cy) / b)) with 1; [apply sqrt_1|].
    rewrite <- (Un 1 ltac:(ring)). unfold Rdiv. ring. }
  assert (L2' : len v2 = 1).
  { unfold len, v2. cbn [vx vy]. replace (- ((x + cx) / a) * - ((x + cx) / a) + - ((y + cy) / b) * - ((y + cy) / b)) with 1; [apply sqrt_1|].
    rewrite <- (Un (-1) ltac:(ring)). unfold Rdiv. ring. }
  assert (Nn : forall v, len v = 1 -> ~ null v).
  { intros v Lv [Zx Zy]. unfold len in Lv. rewrite Zx, Zy, Rmult_0_l, Rplus_0_l, sqrt_0 in Lv. lra. }
  assert (L0 : len (V 1 0) = 1) by (unfold len; cbn [vx vy]; rewrite Rmult_0_l, Rplus_0_r, Rmult_1_l; apply sqrt_1).
  destruct (angle_with_ok (V 1 0) v1 (Nn _ L0) (Nn _ L1)) as (th & E1 & _ & T1 & T2). rewrite E1. cbn [bind].
  destruct (angle_with_ok v1 v2 (Nn _ L1) (Nn _ L2')) as (dl & E2 & _ & T3 & T4). rewrite E2. cbn [bind].
  destruct (turned_back _ _ _ L0 L1 T1 T2) as [V1x V1y]. destruct (turned_back _ _ _ L1 L2' T3 T4) as [V2x V2y]. cbn [vx vy] in V1x, V1y.
  set (m := mod360 dl).
  assert (M : 0 <= m < 360).
  { unfold m, mod360. destruct (base_Int_part (dl / 360)) as [Ia Ib]. set (i := IZR (Int_part (dl / 360))) in *.
    assert (dl = dl / 360 * 360) by field. lra. }
  set (d := if _ && Rltb 0 m then m - 360 else if _ && _ then m + 360 else m).
  assert (Dd : exists j, d = dl - 360 * IZR j).
  { unfold d, m, mod360. set (i := Int_part (dl / 360)). destruct (negb sweep && _); [exists (i + 1)%Z; rewrite plus_IZR; ring|].
    destruct (sweep && _); [exists (i - 1)%Z; rewrite minus_IZR; ring|exists i; ring]. }
  eexists _, th, (th + d). split; [reflexivity|]. cbn [e_rx e_ry e_angle e_domain e_center].
  split; [reflexivity|]. split; [reflexivity|]. split; [reflexivity|]. split; [reflexivity|].
  assert (Cos : cos (rad (- (th + d))) = vx v2 /\ sin (rad (- (th + d))) = vy v2).
  { rewrite rad_m, cos_neg, sin_neg. destruct Dd as [j ->]. replace (th + (dl - 360 * IZR j)) with (th + dl - 360 * IZR j) by ring.
    destruct (trig_turns (th + dl) j) as [-> ->]. rewrite rad_plus, cos_plus, sin_plus, V2x, V2y, V1x, V1y. split; ring. }
  assert (Cos1 : cos (rad (- th)) = vx v1 /\ sin (rad (- th)) = vy v1).
  { rewrite rad_m, cos_neg, sin_neg, V1x, V1y. split; ring. }
  split; [|split; [|split]].
  - intros ->. unfold d. cbn [negb andb]. rewrite Rltb_false by lra. lra.
  - intros ->. unfold d. cbn [negb andb]. destruct (Rltb_spec 0 m); lra.
  - unfold ellipse_polar, frame. destruct Cos1 as [-> ->]. unfold v1. cbn [vx vy]. fold k s.
    replace (a * ((x - cx) / a)) with (x - cx) by (field; lra). replace (b * ((y - cy) / b)) with (y - cy) by (field; lra).
    assert (vx p1 = mx + dx / 2) by (unfold mx, dx; field). assert (vy p1 = my + dy / 2) by (unfold my, dy; field).
    split; [rewrite H, Dx|rewrite H0, Dy]; cbn [vadd vx vy]; ring.
  - unfold ellipse_polar, frame. destruct Cos as [-> ->]. unfold v2. cbn [vx vy]. fold k s.
    replace (a * - ((x + cx) / a)) with (- (x + cx)) by (field; lra). replace (b * - ((y + cy) / b)) with (- (y + cy)) by (field; lra).
    assert (vx p2 = mx - dx / 2) by (unfold mx, dx; field). assert (vy p2 = my - dy / 2) by (unfold my, dy; field).
    split; [rewrite H, Dx|rewrite H0, Dy]; cbn [vadd vx vy]; ring.
Qed.

Lemma svg_arc_segment p1 p2 ry phi large sweep : svg_arc p1 p2 0 ry phi large sweep = Ok (ArcSeg (Seg p1 p2)).
Proof. unfold svg_arc. rewrite Reqb_refl. reflexivity. Qed.

(** A quarter of the unit circle about (0, 0), turning counterclockwise from (1, 0) to (0, 1): the shape returned is
    about (1, 1) and starts at (1, 2). *)
Lemma svg_arc_refuted : exists e s t, svg_arc (V 1 0) (V 0 1) 1 1 0 false true = Ok (ArcEllipse e) /\
  e_domain e = Some (Dom s t) /\ e_center e = V 1 1 /\ ellipse_point_at_angle e s = V 1 2.
Proof.
  destruct (svg_arc_ok (V 1 0) (V 0 1) 1 1 0 false true) as (e & s & t & E & Hx & Hy & Ha & Hd & _ & _ & P1 & _).
  { lra. } { lra. } { intro H. injection H. lra. }
  { exists (V 0 0). split; [exists 1, 0|exists 0, 1]; (split; [unfold frame; cbn [vx vy]; rewrite rad_0, cos_0, sin_0; split; ring|field]). }
  exists e, s, t. split; [exact E|]. split; [exact Hd|].
  assert (C : e_center e = V 1 1).
  { revert E. unfold svg_arc. rewrite !Reqb_false by lra. cbn [orb]. cbn zeta. rewrite !Rabs_pos_eq by lra.
    unfold vdiv at 1. rewrite Reqb_false by lra. cbn [bind]. rewrite rotation2_ok. cbn [bind]. unfold vdiv at 1. rewrite Reqb_false by lra. cbn [bind].
    rewrite rotation2_ok. replace (rad (-0)) with 0 by (unfold rad; field). rewrite rad_0, cos_0, sin_0.
    unfold apply2. cbn [t2_m a00 a01 a10 a11 vx vy vsub vadd].
    replace ((1 * (1 - 0) + -0 * (0 - 1)) / 2) with (1/2) by field. replace ((0 * (1 - 0) + 1 * (0 - 1)) / 2) with (-1/2) by field.
    rewrite !fdiv_ok by lra. cbn [bind]. rewrite Rltb_false by lra. rewrite !fdiv_ok by lra. cbn [bind].
    set (qq := (1 ^ 2 * 1 ^ 2 - (1 ^ 2 * (-1 / 2) ^ 2 + 1 ^ 2 * (1 / 2) ^ 2)) / (1 ^ 2 * (-1 / 2) ^ 2 + 1 ^ 2 * (1 / 2) ^ 2)).
    assert (Q : qq = 1) by (unfold qq; field). rewrite Q. rewrite Rltb_false by lra. cbn [bind]. rewrite sqrt_1. try rewrite fdiv_ok by lra. cbn [bind].
    cbn [Bool.eqb anti_normal vscale2 vscale vx vy t2_m a00 a01 a10 a11 vadd vsub vneg].
    unfold vdivide. rewrite !Reqb_false by lra. cbn [orb bind].
    destruct (angle_with _ _) as [u|]; [|discriminate]. cbn [bind]. destruct (angle_with _ _) as [u'|]; [|discriminate]. cbn [bind].
    intro H. assert (EC := f_equal (fun r => match r with Ok (ArcEllipse e) => e_center e | _ => V 0 0 end) H). cbv beta iota in EC. cbn [e_center] in EC.
    rewrite <- EC. apply vec_eq; unfold vscale, vscale2, anti_normal, vadd; cbn [vx vy]; field. }
  split; [exact C|]. destruct P1 as [X Y]. rewrite C, Hx, Hy in X, Y. rewrite !Rabs_pos_eq in X, Y by lra. rewrite rad_0, cos_0, sin_0 in X, Y. cbn [vx vy] in X, Y.
  rewrite rad_m, cos_neg, sin_neg in X, Y.
  destruct (ellipse_point_ok e s) as [X' Y']. rewrite C, Ha, Hx, Hy in X', Y'. rewrite !Rabs_pos_eq in X', Y' by lra. rewrite rad_0, cos_0, sin_0 in X', Y'. cbn [vx vy] in X', Y'.
  apply vec_eq; cbn [vx vy]; lra.
Qed.
(** Radii too small for the two points, which are scaled up by the standard: an exception. *)
Lemma svg_arc_small_refuted large sweep : svg_arc (V 0 0) (V 4 0) 1 1 0 large sweep = Raise NameError.
Proof.
  unfold svg_arc. rewrite !Reqb_false by lra. cbn [orb]. cbn zeta. rewrite !Rabs_pos_eq by lra.
  unfold vdiv at 1. rewrite Reqb_false by lra. cbn [bind]. rewrite rotation2_ok. cbn [bind]. unfold vdiv at 1. rewrite Reqb_false by lra. cbn [bind].
  replace (rad (-0)) with 0 by (unfold rad; field). rewrite cos_0, sin_0. unfold apply2. cbn [t2_m a00 a01 a10 a11 vx vy vsub vadd].
  rewrite !fdiv_ok by lra. cbn [bind]. rewrite Rltb_true by lra. reflexivity.
Qed.

(** ** Transformations of an ellipse *)
Lemma translate_ellipse_ok v e : exists e', transform_ellipse (translation v) e = Ok e' /\
  e_domain e' = e_domain e /\
  forall a, ellipse_point_at_angle e' a = apply (translation v) (ellipse_point_at_angle e a).
Proof.
  unfold transform_ellipse, scalar. cbn [translation t_type t_m m00 bind]. rewrite Rabs_pos_eq by lra. eexists. split; [reflexivity|]. split; [reflexivity|].
  intro a. set (e' := Ell _ _ _ _ _). pose proof (ellipse_point_ok e' a) as [X Y]. pose proof (ellipse_point_ok e a) as [X' Y'].
  cbn [e' e_center e_rx e_ry e_angle] in X, Y. fold e' in X, Y. unfold apply, translation in *. cbn [t_m m00 m01 m02 m10 m11 m12 vx vy] in *.
  apply vec_eq; cbn [vx vy]; [rewrite X, X'|rewrite Y, Y']; ring.
Qed.
Lemma scale_ellipse_ok k e : 0 < k -> exists e', transform_ellipse (scale k k) e = Ok e' /\
  e_domain e' = e_domain e /\
  forall a, ellipse_point_at_angle e' a = apply (scale k k) (ellipse_point_at_angle e a).
Proof.
  intro K.
  assert (Sc : forall r, scalar (scale k k) r = Ok (k * r)).
  { intro r. unfold scalar. cbn [scale t_type t_m m00]. unfold type_for_scale. rewrite Reqb_refl. destruct (Reqb_spec k 1) as [-> |]; [f_equal; ring|].
    rewrite Reqb_false by lra. rewrite Rabs_pos_eq by lra. reflexivity. }
  unfold transform_ellipse. rewrite !Sc. cbn [bind]. eexists. split; [reflexivity|]. split; [reflexivity|].
  intro a. set (e' := Ell _ _ _ _ _). pose proof (ellipse_point_ok e' a) as [X Y]. pose proof (ellipse_point_ok e a) as [X' Y'].
  cbn [e' e_center e_rx e_ry e_angle] in X, Y. fold e' in X, Y. unfold apply, scale in *. cbn [t_m m00 m01 m02 m10 m11 m12 vx vy] in *.
  apply vec_eq; cbn [vx vy]; [rewrite X, X'|rewrite Y, Y']; ring.
Qed.
(** Turning an ellipse by a right angle leaves its axes where they were. *)
Lemma rotate_ellipse_refuted : let e := Ell (V 0 0) 2 1 0 None in
  transform_ellipse (rotation 90) e = Ok e /\ on_ellipse (V 0 0) 2 1 0 (V 2 0) /\
  apply (rotation 90) (V 2 0) = V 0 2 /\ ~ on_ellipse (V 0 0) 2 1 0 (V 0 2).
Proof.
  cbn zeta. assert (Ap : forall x y, apply (rotation 90) (V x y) = V (- y) x).
  { intros x y. unfold apply, rotation. cbn [t_m m00 m01 m02 m10 m11 m12 vx vy]. rewrite radians_rad, rad_90, cos_PI2, sin_PI2. apply vec_eq; cbn [vx vy]; ring. }
  assert (On : forall x y, on_ellipse (V 0 0) 2 1 0 (V x y) <-> (x / 2) ^ 2 + (y / 1) ^ 2 = 1).
  { intros x y. split.
    - intros (u & v & [A B] & H). cbn [vx vy] in A, B. rewrite rad_0, cos_0, sin_0 in A, B. rewrite A, B. transitivity ((u / 2) ^ 2 + (v / 1) ^ 2); [field|exact H].
    - intro H. exists x, y. split; [|exact H]. unfold frame. cbn [vx vy]. rewrite rad_0, cos_0, sin_0. split; ring. }
  split; [|split; [apply On; lra|split; [rewrite Ap; apply vec_eq; cbn; ring|rewrite On; lra]]].
  unfold transform_ellipse, scalar. cbn [rotation t_type bind e_rx e_ry e_center e_angle e_domain].
  change (T _ _) with (rotation 90). rewrite Ap. do 2 f_equal. apply vec_eq; cbn; ring.
Qed.
(** So does a circle arc: its angles are not turned. *)
Lemma rotate_arc_refuted : let c := Circ (V 0 0) 1 (Some (Dom 0 90)) in
  transform_circle (rotation 90) c = Ok c /\ circle_start_point c = Some (V 1 0) /\ apply (rotation 90) (V 1 0) = V 0 1.
Proof.
  cbn zeta. assert (Ap : forall x y, apply (rotation 90) (V x y) = V (- y) x).
  { intros x y. unfold apply, rotation. cbn [t_m m00 m01 m02 m10 m11 m12 vx vy]. rewrite radians_rad, rad_90, cos_PI2, sin_PI2. apply vec_eq; cbn [vx vy]; ring. }
  split; [|split].
  - unfold transform_circle, scalar. cbn [rotation t_type bind c_radius c_center c_domain]. change (T _ _) with (rotation 90). rewrite Ap. do 2 f_equal. apply vec_eq; cbn; ring.
  - unfold circle_start_point. cbn [c_domain option_map d_start]. f_equal. destruct (circle_point_ok (Circ (V 0 0) 1 (Some (Dom 0 90))) 0) as [X Y].
    cbn [c_center c_radius vx vy] in X, Y. rewrite rad_0, cos_0 in X; rewrite rad_0, sin_0 in Y. apply vec_eq; cbn [vx vy]; [rewrite X|rewrite Y]; ring.
  - rewrite Ap. apply vec_eq; cbn; ring.
Qed.

(** ** Other refuted queries *)
Lemma major_vector_refuted e : 0 <= e_angle e -> len (major_vector e) = e_angle e.
Proof.
  intro A. destruct (from_polar_ok (e_angle e) (e_rx e)) as [X Y]. unfold major_vector, len. rewrite X, Y.
  pose proof (sin2_cos2 (rad (e_rx e))) as T. unfold Rsqr in T.
  replace (e_angle e * cos (rad (e_rx e)) * (e_angle e * cos (rad (e_rx e))) + e_angle e * sin (rad (e_rx e)) * (e_angle e * sin (rad (e_rx e))))
    with (e_angle e * e_angle e * (sin (rad (e_rx e)) * sin (rad (e_rx e)) + cos (rad (e_rx e)) * cos (rad (e_rx e)))) by ring.
  rewrite T, Rmult_1_r. apply sqrt_square. exact A.
Qed.
Lemma matrix_refuted : let e := Ell (V 0 0) 2 1 0 None in
  ellipse_point_at_angle e 90 = V 0 1 /\ conic_value (ellipse_matrix e) (V 0 1) = -4.
Proof.
  cbn zeta. split.
  - destruct (ellipse_point_ok (Ell (V 0 0) 2 1 0 None) 90) as [X Y]. cbn [e_center e_rx e_ry e_angle vx vy] in X, Y. rewrite rad_0, cos_0, sin_0, rad_90, cos_PI2, sin_PI2 in X, Y.
    apply vec_eq; cbn [vx vy]; [rewrite X|rewrite Y]; ring.
  - unfold ellipse_matrix, conic_value. cbn zeta. cbn [m00 m01 m02 m11 m12 m22 e_angle e_rx e_ry e_center vx vy]. rewrite radians_rad, rad_0, cos_0, sin_0. field.
Qed.
Lemma ellipse_box_ok e : e_angle e = 0 -> 0 < e_rx e -> 0 < e_ry e -> exists b, ellipse_bounding_box e = Some b /\
  (forall q, on_ellipse (e_center e) (e_rx e) (e_ry e) 0 q -> in_box b q) /\
  ellipse_point_at_angle e 0 = V (sup (bx b)) (vy (e_center e)) /\ ellipse_point_at_angle e 180 = V (inf (bx b)) (vy (e_center e)) /\
  ellipse_point_at_angle e 90 = V (vx (e_center e)) (sup (by_ b)) /\ ellipse_point_at_angle e (-90) = V (vx (e_center e)) (inf (by_ b)).
Proof.
  intros Z X Y. unfold ellipse_bounding_box. rewrite Z, Reqb_refl. cbn zeta. eexists. split; [reflexivity|]. cbn [bx by_ enlarge vbox inf sup].
  split.
  - intros q (u & v & [A B] & H). rewrite rad_0, cos_0, sin_0 in A, B. unfold in_box. cbn [bx by_ enlarge vbox inf sup].
    assert (Bd : forall w r, 0 < r -> (w / r) ^ 2 <= 1 -> - r <= w <= r).
    { intros w r R0 W. assert (E : w = w / r * r) by (field; lra). set (h := w / r) in *. assert (-1 <= h <= 1) by nra. nra. }
    pose proof (Bd u (e_rx e) X ltac:(pose proof (pow2_ge_0 (v / e_ry e)); lra)). pose proof (Bd v (e_ry e) Y ltac:(pose proof (pow2_ge_0 (u / e_rx e)); lra)). lra.
  - assert (PT : forall a, ellipse_point_at_angle e a = V (vx (e_center e) + e_rx e * cos (rad a)) (vy (e_center e) + e_ry e * sin (rad a))).
    { intro a. destruct (ellipse_point_ok e a) as [A B]. rewrite Z, rad_0, cos_0, sin_0 in A, B. apply vec_eq; cbn [vx vy]; [rewrite A|rewrite B]; ring. }
    rewrite !PT. replace (rad (-90)) with (- (PI / 2)) by (unfold rad; field). rewrite rad_0, rad_90, rad_180, cos_neg, sin_neg, cos_0, sin_0, cos_PI2, sin_PI2, cos_PI, sin_PI.
    split; [|split; [|split]]; apply vec_eq; cbn [vx vy]; ring.
Qed.
Lemma ellipse_box_refuted : let e := Ell (V 0 0) 180 90 1 None in exists b, ellipse_bounding_box e = Some b /\
  0 < vx (ellipse_point_at_angle e 0) /\ ~ in_box b (ellipse_point_at_angle e 0).
Proof.
  cbn zeta. set (e := Ell _ _ _ _ _).
  assert (FP : forall r a, from_polar r a = V (r * cos (rad a)) (r * sin (rad a))) by (intros r a; destruct (from_polar_ok r a); apply vec_eq; assumption).
  assert (Px : 0 < vx (ellipse_point_at_angle e 0)).
  { destruct (ellipse_point_ok e 0) as [A _]. cbn [e e_center e_rx e_ry e_angle vx] in A. fold e in A. rewrite A, rad_0, cos_0, sin_0.
    assert (0 < cos (rad 1)); [|lra]. apply cos_gt_0; unfold rad; pose proof PI_RGT_0; lra. }
  unfold ellipse_bounding_box. cbn [e e_angle]. rewrite Reqb_false by lra. fold e. cbn zeta.
  rewrite !FP. cbn [e e_rx e_ry e_center map]. fold e.
  rewrite !rad_m, rad_180, rad_90, !cos_neg, !sin_neg, cos_PI, sin_PI, cos_PI2, sin_PI2. unfold vadd. cbn [vx vy].
  destruct (ellipse_point_at_angle e 0) as [px py]. cbn [vx] in Px.
  eexists. split; [reflexivity|]. split; [exact Px|]. intro H. unfold in_box in H. cbn [bx by_ bunion vbox iunion inf sup vx vy] in H.
  destruct H as [[_ H] _]. rewrite !Rmax_left in H by (unfold Rmax; repeat destruct (Rle_dec _ _); lra).
  revert H. unfold Rmax. repeat destruct (Rle_dec _ _); intro; lra.
Qed.
