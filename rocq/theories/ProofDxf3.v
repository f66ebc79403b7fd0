(** Lemmas on the quantities of a vertex, on its neighbours and on ellipses. *)
From Coq Require Import Reals List Bool Arith Lra Lia Psatz.
From Verif Require Import Base ModelVector ModelLine ModelConic ModelDxf SpecVector SpecConic SpecDxf GlueDxf
  ProofVector ProofConic ProofConic3 ProofArc ProofDxf ProofDxf2.
Import ListNotations.
Local Open Scope R_scope.

Lemma dist_scaled a b c d k : 0 <= dist c d ->
  dist a b * dist a b = dist c d * dist c d * (k * k) -> dist a b = Rabs (dist c d * k).
Proof.
  intros D E. apply sq_eq_nonneg; [apply dist_nonneg|apply Rabs_pos|].
  rewrite E, <- Rabs_mult, Rabs_pos_eq; [ring|]. apply Rle_0_sqr.
Qed.
Definition midpoint (P Q : vec) : vec := V ((vx P + vx Q) / 2) ((vy P + vy Q) / 2).
Lemma quantities_ok p i v w : getitem p i = Ok v -> next p i = Ok (Some w) -> v_bulge v <> 0 ->
  let P := v_point v in let Q := v_point w in let b := v_bulge v in
  exists l sag dual radius,
    demi_chord p i = Ok l /\ sagitta p i = Ok sag /\ sagitta_dual p i = Ok dual /\ bulge_radius p i = Ok radius /\
    l = dist P (midpoint P Q) /\ sag = b * l /\ radius = sag + dual /\
    (forall C M, bulge_center P Q b C -> arc_middle P Q b M ->
      Rabs sag = dist (midpoint P Q) M /\ Rabs dual = dist C (midpoint P Q) /\
      Rabs radius = dist C P /\ Rabs radius = dist C Q /\ Rabs radius = dist C M) /\
    (0 < radius <-> 0 < b /\ P <> Q).
Proof.
  intros V W B P Q b. destruct (chord_ok p i v w V W) as [_ L]. destruct (radius_ok p i v w V W B) as [R0 S0].
  pose proof (dist_nonneg P Q) as D0. pose proof (dist_sq P Q) as DS.
  exists (dist P Q / 2), (b * (dist P Q / 2)), (dist P Q * kb b), (dist P Q / 4 * (b + 1 / b)).
  split; [exact L|]. split; [unfold sagitta; rewrite V; cbn [bind]; rewrite L; reflexivity|]. split; [exact S0|]. split; [exact R0|].
  split.
  { symmetry. apply sq_eq_nonneg; [apply dist_nonneg|lra|]. rewrite dist_sq. unfold midpoint. cbn [vx vy].
    transitivity (dist P Q * dist P Q / 4); [rewrite DS|]; field. }
  split; [reflexivity|]. split; [unfold kb; field; exact B|]. split.
  - intros C M HC HM. apply center_unique in HC; [|exact B]. apply middle_unique in HM; [|exact B]. subst C M.
    assert (A : forall a c k, dist a c * dist a c = dist P Q * dist P Q * (k * k) -> forall x, x = dist P Q * k -> Rabs x = dist a c).
    { intros a c k E x ->. symmetry. apply dist_scaled; assumption. }
    split.
    { apply (A _ _ (b / 2)); [|field]. rewrite dist_sq, DS. unfold midpoint, middle_of, center_of. cbn [vx vy]. field. }
    split.
    { apply (A _ _ (kb b)); [|ring]. rewrite dist_sq, DS. unfold midpoint, center_of. cbn [vx vy]. field. }
    split.
    { apply (A _ _ ((b + 1 / b) / 4)); [|field; exact B]. rewrite dist_sq, DS. unfold center_of, kb. cbn [vx vy]. field. exact B. }
    split.
    { apply (A _ _ ((b + 1 / b) / 4)); [|field; exact B]. rewrite dist_sq, DS. unfold center_of, kb. cbn [vx vy]. field. exact B. }
    { apply (A _ _ ((b + 1 / b) / 4)); [|field; exact B]. rewrite dist_sq, DS. unfold middle_of, center_of, kb. cbn [vx vy]. field. exact B. }
  - assert (X : b + 1 / b = (b * b + 1) * / b) by (field; exact B). rewrite X. split.
    + intro H. split.
      * destruct (Rlt_le_dec 0 b) as [G|G]; [exact G|]. assert (G' : b < 0) by (unfold b in *; lra). pose proof (Rinv_lt_0_compat b G'). exfalso.
        assert ((b * b + 1) * / b < 0) by nra. nra.
      * intro E. rewrite E, dist_0 in H. lra.
    + intros [G E]. pose proof (dist_pos P Q E). pose proof (Rinv_0_lt_compat b G).
      apply Rmult_lt_0_compat; [lra|]. apply Rmult_lt_0_compat; nra.
Qed.
(** The side: the middle of the arc is on the right of the chord when the bulge is positive. *)
Lemma side_ok P Q b M : b <> 0 -> arc_middle P Q b M -> cross (vsub Q P) (vsub M P) = - (b / 2) * (dist P Q * dist P Q).
Proof.
  intros B HM. apply middle_unique in HM; [|exact B]. subst M. rewrite dist_sq. unfold cross, vsub, middle_of, center_of. cbn [vx vy]. field.
Qed.

(** [angle] is not the included angle. *)
Lemma angle_ok p i v w : getitem p i = Ok v -> next p i = Ok (Some w) -> 0 < v_bulge v -> v_point v <> v_point w ->
  angle p i = Ok (180 - degrees (4 * atan (v_bulge v))).
Proof.
  intros V W B N. destruct (chord_ok p i v w V W) as [_ L]. destruct (radius_ok p i v w V W) as [R0 _]; [lra|].
  set (b := v_bulge v) in *. pose proof (dist_pos _ _ N) as D.
  unfold angle. rewrite V. cbn [bind]. fold b. rewrite Reqb_false by lra. rewrite R0. cbn [bind]. rewrite L. cbn [bind].
  rewrite fdiv_ok by lra. cbn [bind]. f_equal.
  set (x := _ - b).
  assert (Ex : x = (1 - b * b) / (2 * b)) by (unfold x; field; lra).
  destruct (cs2 b) as [C2 S2]. pose proof (atan_pos b B) as T0. destruct (atan_bound b) as [_ T1].
  assert (T : atan x = PI / 2 - 2 * atan b).
  { assert (E : x = tan (PI / 2 - 2 * atan b)).
    { unfold tan. rewrite sin_shift, cos_shift, C2, S2, Ex. field. split; [nra|lra]. }
    rewrite E. apply atan_tan. lra. }
  rewrite T. unfold degrees. pose proof PI_RGT_0. field. lra.
Qed.
Lemma angle_right p i v w : getitem p i = Ok v -> next p i = Ok (Some w) -> 0 < v_bulge v -> v_point v <> v_point w ->
  (angle p i = Ok (degrees (4 * atan (v_bulge v))) <-> 4 * atan (v_bulge v) = PI / 2).
Proof.
  intros V W B N. rewrite (angle_ok p i v w V W B N). pose proof PI_RGT_0 as Pi. split.
  - intro E. assert (E' : 180 - degrees (4 * atan (v_bulge v)) = degrees (4 * atan (v_bulge v))) by congruence.
    apply (f_equal rad) in E'. unfold rad in E'. unfold degrees in E'.
    apply (f_equal (fun x => x * 1)) in E'. field_simplify in E'; lra.
  - intro E. f_equal. rewrite E. unfold degrees. field. lra.
Qed.

(** ** Neighbours *)
Definition cyclic_next (n i : nat) : nat := if Nat.eqb (S i) n then 0%nat else S i.
Lemma getitem_lt p i : (i < length (pl_vertices p))%nat -> exists v, getitem p i = Ok v /\ nth_error (pl_vertices p) i = Some v.
Proof.
  intro H. unfold getitem. destruct (nth_error (pl_vertices p) i) as [v|] eqn:E; [exists v; auto|].
  apply nth_error_None in E. lia.
Qed.
Lemma next_closed p i : pl_closed p = true -> (i < length (pl_vertices p))%nat ->
  exists w, next p i = Ok (Some w) /\ nth_error (pl_vertices p) (S i mod length (pl_vertices p)) = Some w.
Proof.
  intros C H. unfold next, is_last_index. rewrite C. destruct (Nat.eqb_spec (S i) (length (pl_vertices p))) as [E|E].
  - destruct (getitem_lt p 0) as (w & G & X); [lia|]. rewrite G. exists w. split; [reflexivity|]. rewrite <- E.
    rewrite Nat.mod_same by lia. exact X.
  - destruct (getitem_lt p (S i)) as (w & G & X); [lia|]. rewrite G. exists w. split; [reflexivity|].
    rewrite Nat.mod_small by lia. exact X.
Qed.
Lemma prev_closed p i : pl_closed p = true -> (i < length (pl_vertices p))%nat ->
  exists w, prev p i = Ok (Some w) /\ nth_error (pl_vertices p) ((i + (length (pl_vertices p) - 1)) mod length (pl_vertices p)) = Some w.
Proof.
  intros C H. unfold prev. rewrite C. destruct i as [|i].
  - destruct (getitem_lt p (length (pl_vertices p) - 1)) as (w & G & X); [lia|]. rewrite G. exists w. split; [reflexivity|].
    rewrite Nat.add_0_l, Nat.mod_small by lia. exact X.
  - destruct (getitem_lt p i) as (w & G & X); [lia|]. rewrite G. exists w. split; [reflexivity|].
    replace (S i + (length (pl_vertices p) - 1))%nat with (i + 1 * length (pl_vertices p))%nat by lia.
    rewrite Nat.mod_add, Nat.mod_small by lia. exact X.
Qed.
Lemma next_open p i : pl_closed p = false -> (i < length (pl_vertices p))%nat ->
  next p i = Ok (nth_error (pl_vertices p) (S i)).
Proof.
  intros C H. unfold next, is_last_index. rewrite C. destruct (Nat.eqb_spec (S i) (length (pl_vertices p))) as [E|E].
  - rewrite (proj2 (nth_error_None _ _)) by lia. reflexivity.
  - destruct (getitem_lt p (S i)) as (w & G & X); [lia|]. rewrite G, X. reflexivity.
Qed.
Lemma prev_open p i : pl_closed p = false -> (i < length (pl_vertices p))%nat ->
  prev p i = Ok (match i with O => None | S i => nth_error (pl_vertices p) i end).
Proof.
  intros C H. unfold prev. rewrite C. destruct i as [|i]; [reflexivity|].
  destruct (getitem_lt p i) as (w & G & X); [lia|]. rewrite G, X. reflexivity.
Qed.

(** ** Ellipses *)
Lemma magnitude_scale a k : magnitude (vscale a k) = Rabs k * len a.
Proof.
  rewrite magnitude_len. apply sq_eq_nonneg; [apply len_nonneg|apply Rmult_le_pos; [apply Rabs_pos|apply len_nonneg]|].
  rewrite len_sq. unfold vscale. cbn [vx vy]. transitivity (Rabs k * Rabs k * (len a * len a)); [|ring].
  rewrite len_sq, <- Rabs_mult, Rabs_pos_eq by apply Rle_0_sqr. ring.
Qed.
Lemma ellipse_point_ok e a : vx (ellipse_point_at_angle e a) = vx (e_center e) + e_rx e * cos (rad a) * cos (rad (e_angle e)) - e_ry e * sin (rad a) * sin (rad (e_angle e)) /\
  vy (ellipse_point_at_angle e a) = vy (e_center e) + e_rx e * cos (rad a) * sin (rad (e_angle e)) + e_ry e * sin (rad a) * cos (rad (e_angle e)).
Proof.
  unfold ellipse_point_at_angle, from_ellipse, vadd. rewrite radians_rad. destruct (Reqb_spec (e_angle e) 0) as [Z|Z].
  - rewrite Z. replace (rad 0) with 0 by (unfold rad; field). rewrite cos_0, sin_0. cbn [vx vy]. split; ring.
  - unfold rotate. rewrite radians_rad. cbn [negb vx vy]. split; ring.
Qed.
Lemma dxf_ellipse_ok center major ratio t0 t1 : ~ null major -> 0 <= ratio -> ~ (vx major = 0 /\ 0 < vy major) ->
  exists e, on_ellipse_item center major ratio t0 t1 = Ok e /\ e_domain e = Some (Dom (degrees t0) (degrees t1)) /\
  forall t, dxf_ellipse_point center major ratio t (ellipse_point_at_angle e (degrees t)).
Proof.
  intros N K V. destruct (orientation_ok major N) as (o & E & B & X & Y). unfold on_ellipse_item. rewrite E. cbn [bind].
  pose proof (len_pos major N) as L.
  assert (O : o <> 90).
  { intros ->. apply V. replace (rad 90) with (PI / 2) in X, Y by (unfold rad; field).
    rewrite cos_PI2 in X. rewrite sin_PI2 in Y. lra. }
  rewrite Reqb_false by exact O. eexists. split; [reflexivity|]. split; [reflexivity|]. intro t.
  destruct (ellipse_point_ok (Ell center (magnitude major) (magnitude (vscale major ratio)) o (Some (domain_from_radians t0 t1))) (degrees t)) as [A1 A2].
  cbn [e_center e_rx e_ry e_angle e_domain] in *. unfold dxf_ellipse_point. rewrite A1, A2, rad_degrees, magnitude_scale, magnitude_len, Rabs_pos_eq by exact K.
  split.
  - transitivity (vx center + cos t * (len major * cos (rad o)) - sin t * (ratio * (len major * sin (rad o)))); [ring|]. rewrite <- X, <- Y. ring.
  - transitivity (vy center + cos t * (len major * sin (rad o)) + sin t * (ratio * (len major * cos (rad o)))); [ring|]. rewrite <- X, <- Y. ring.
Qed.
(** A vertical major axis: the same ellipse, but the angle of a parameter is a quarter of turn off. *)
Lemma dxf_ellipse_vertical center h ratio t0 t1 : 0 < h -> 0 <= ratio ->
  exists e, on_ellipse_item center (V 0 h) ratio t0 t1 = Ok e /\ e_domain e = Some (Dom (degrees t0) (degrees t1)) /\
  forall t, dxf_ellipse_point center (V 0 h) ratio (t - PI / 2) (ellipse_point_at_angle e (degrees t)).
Proof.
  intros H K. unfold on_ellipse_item, orientation. cbn [vbool negb Nat.eqb vx vy]. rewrite Reqb_refl, Rltb_false by lra. cbn [bind].
  rewrite Reqb_refl. eexists. split; [reflexivity|]. split; [reflexivity|]. intro t.
  match goal with |- context [ellipse_point_at_angle ?e _] => destruct (ellipse_point_ok e (degrees t)) as [A1 A2] end.
  cbn [e_center e_rx e_ry e_angle e_domain] in *. unfold dxf_ellipse_point. rewrite A1, A2. rewrite (rad_degrees t), (magnitude_scale (V 0 h) ratio), (magnitude_len (V 0 h)).
  rewrite (Rabs_pos_eq ratio) by exact K.
  replace (rad 0) with 0 by (unfold rad; field). rewrite cos_0, sin_0, cos_minus, sin_minus, cos_PI2, sin_PI2. cbn [vx vy].
  assert (L : len (V 0 h) = h) by (unfold len; cbn [vx vy]; replace (0 * 0 + h * h) with (h * h) by ring; apply sqrt_square; lra).
  rewrite L. split; ring.
Qed.
Lemma dxf_ellipse_vertical_refuted center h ratio t0 t1 e : 0 < h -> 0 < ratio ->
  on_ellipse_item center (V 0 h) ratio t0 t1 = Ok e ->
  ~ dxf_ellipse_point center (V 0 h) ratio 0 (ellipse_point_at_angle e (degrees 0)).
Proof.
  intros H K E P. destruct (dxf_ellipse_vertical center h ratio t0 t1 H ltac:(lra)) as (e' & E' & _ & G).
  rewrite E in E'. injection E' as <-. specialize (G 0). destruct P as [P1 _], G as [G1 _]. cbn [vx vy] in *.
  rewrite P1 in G1. rewrite cos_0, sin_0 in G1. replace (0 - PI / 2) with (- (PI / 2)) in G1 by ring.
  rewrite cos_neg, sin_neg, cos_PI2, sin_PI2 in G1. nra.
Qed.
