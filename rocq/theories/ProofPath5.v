(** Paths: the claims on rounded corners, transformations and copies. *)
From Coq Require Import Reals List ZArith Bool Lia Lra.
From Verif Require Import Base ModelVector ModelTransformation ModelLine ModelBezier ModelConic ModelPath
  SpecVector SpecTransformation SpecConic SpecPath GluePath ProofVector ProofTransformation ProofConic ProofConic3
  ProofPath ProofPath2 ProofPath3 ProofPath4.
Import ListNotations.
Local Open Scope R_scope.

Lemma heading_unit a b d : heading a b d -> unitv d.
Proof.
  intros (N & X & Y). unfold unitv.
  assert (L : dist a b * dist a b = (vx b - vx a) * (vx b - vx a) + (vy b - vy a) * (vy b - vy a)).
  { rewrite dist_sq. ring. }
  assert (Z : dist a b <> 0).
  { intros E. rewrite E in X, Y. apply N. apply vec_eq; lra. }
  apply (Rmult_eq_reg_l (dist a b * dist a b)); [|nra]. rewrite X, Y in L. lra.
Qed.
Lemma heading_normalise a b d : heading a b d -> normalise (vsub b a) = Ok d.
Proof.
  intros H. pose proof H as (N & X & Y).
  assert (Z : dist a b <> 0).
  { intros E. rewrite E in X, Y. apply N. apply vec_eq; lra. }
  assert (L : magnitude (vsub b a) = dist a b).
  { rewrite magnitude_len. unfold len, dist. cbn. f_equal. ring. }
  unfold normalise. rewrite L, vdiv_ok by exact Z. f_equal. apply vec_eq; cbn; [rewrite X|rewrite Y]; field; exact Z.
Qed.

Lemma prev_of_rounded p i r : sane p -> rounded p i r -> pradius p i = Ok r /\ pprev p i = Ok (before p i) /\
  (exists s c, nth_error (parts p) (before p i) = Some (Linear s c)) /\ start_point p i = stop_point p (before p i).
Proof.
  intros Hs (s & c & H & R). split; [unfold pradius, pcorner; rewrite H; cbn; rewrite R; reflexivity|].
  destruct i as [|i].
  - assert (B : start_bulge c = true) by (apply (sane_first p Hs s c H); congruence).
    destruct (sane_closed p Hs (sane_open p Hs s c H B)) as (a & Ha). assert (Ha' := Ha). apply ends_nth in Ha'. destruct Ha' as (k & Hk).
    split; [unfold pprev, pcorner; rewrite H; cbn; rewrite B; reflexivity|]. split; [eexists; eexists; exact Hk|].
    rewrite (start0 p _ H), B. cbn [before]. unfold stop_point. rewrite Hk. destruct Ha as (k' & ->). reflexivity.
  - split; [unfold pprev, pcorner; rewrite H; cbn; rewrite (sane_bulge p Hs i s c H); reflexivity|].
    assert (K : radius c <> None) by congruence. pose proof (sane_prev p Hs i s c H K) as P. cbn [before].
    destruct (nth_error (parts p) i) as [[s' c'| | | |]|] eqn:E; try discriminate. split; [eauto|].
    rewrite start_succ. unfold stop_of, stop_point. rewrite E. reflexivity.
Qed.

Lemma direction_of p i s c a b d : nth_error (parts p) i = Some (Linear s c) -> start_point p i = Ok a -> stop_point p i = Ok b ->
  heading a b d -> pdirection p i = Ok d.
Proof.
  intros H Ha Hb Hd. unfold pdirection, pcorner. rewrite H, Ha, Hb. cbn [bind]. apply heading_normalise, Hd.
Qed.

Lemma corner_from_points p i r A P B d1 d2 : sane p -> rounded p i r -> start_point p (before p i) = Ok A ->
  start_point p i = Ok P -> stop_point p i = Ok B -> heading A P d1 -> heading P B d2 -> corner_data p i r P d1 d2.
Proof.
  intros Hs Hr HA HP HB H1 H2. destruct (prev_of_rounded p i r Hs Hr) as (R & Pv & (s & c & Hj) & E).
  rewrite HP in E. destruct Hr as (s' & c' & Hi & Hc).
  constructor.
  - exact R.
  - apply (direction_of p i s' c' P B d2 Hi HP HB H2).
  - exists (before p i). split; [exact Pv|]. apply (direction_of p _ s c A P d1 Hj HA (eq_sym E) H1).
  - exact HP.
Qed.

Lemma drawn_coherent a l p : Forall drawing l -> history (new_path a) l = Ok p -> sane p /\ coherent p.
Proof.
  intros Hd E. destruct (drawing_coherent l (new_path a) p Hd (new_sane a) (new_anchored a) (new_coherent a) E) as (S & _ & C). auto.
Qed.

Lemma read_value A (m : reader A) f p : reads m f -> coherent p -> fst (m p) = f p.
Proof. intros [_ H] Hp. destruct (H p Hp) as (p' & E & _). rewrite E. reflexivity. Qed.

Lemma rounded_corner a l p i r A P B d1 d2 : Forall drawing l -> history (new_path a) l = Ok p -> rounded p i r -> 0 < r ->
  start_point p (before p i) = Ok A -> start_point p i = Ok P -> stop_point p i = Ok B ->
  heading A P d1 -> heading P B d2 -> vx d1 * vy d2 - vy d1 * vx d2 <> 0 ->
  exists c s e, fst (bulge_center i p) = Ok c /\ fst (bulge_start_point i p) = Ok s /\ fst (bulge_stop_point i p) = Ok e /\
    fillet P d1 d2 r c s e.
Proof.
  intros Hd E Hr R0 HA HP HB H1 H2 N. destruct (drawn_coherent a l p Hd E) as [Hs Hc].
  pose proof (corner_from_points p i r A P B d1 d2 Hs Hr HA HP HB H1 H2) as D.
  destruct (corner_values p i r P d1 d2 D N) as (V1 & V2 & V3 & _).
  exists (arc_center P d1 d2 r), (arc_start P d1 d2 r), (arc_stop P d1 d2 r).
  rewrite (read_value _ _ _ p (reads_center i) Hc), (read_value _ _ _ p (reads_start i) Hc), (read_value _ _ _ p (reads_stop i) Hc).
  split; [exact V1|]. split; [exact V2|]. split; [exact V3|].
  apply fillet_ok; [apply (heading_unit _ _ _ H1)|apply (heading_unit _ _ _ H2)|exact N|exact R0].
Qed.

(** ** The arc of the corner *)
Lemma sin_pos_turn u v : 0 <= u < 360 -> 0 <= v < 360 -> 0 < sin (rad (v - u)) -> short_turn u v.
Proof.
  intros Hu Hv Hs. pose proof PI_RGT_0 as HPI. unfold short_turn.
  destruct (Rle_lt_dec 180 (v - u)) as [L|L].
  { exfalso. assert (sin (rad (v - u)) <= 0); [|lra]. apply sin_le_0; unfold rad.
    - assert (1 <= (v - u) / 180) by lra. nra.
    - assert ((v - u) / 180 <= 2) by lra. nra. }
  destruct (Rlt_le_dec 0 (v - u)) as [L2|L2]; [left; lra|].
  destruct (Rle_lt_dec (-180) (v - u)) as [L3|L3].
  { exfalso. assert (0 <= sin (rad (u - v))) as K.
    { apply sin_ge_0; unfold rad.
      - assert (0 <= (u - v) / 180) by lra. nra.
      - assert ((u - v) / 180 <= 1) by lra. nra. }
    replace (rad (v - u)) with (- rad (u - v)) in Hs by (unfold rad; field). rewrite sin_neg in Hs. lra. }
  right. lra.
Qed.

Lemma polar_eq c r a q : polar c r a q -> q = circle_point_at_angle (Circ c r None) a.
Proof.
  intros [X Y]. unfold circle_point_at_angle. cbn [c_radius c_center]. rewrite from_polar_eq.
  apply vec_eq; cbn; rewrite ?X, ?Y; ring.
Qed.

Lemma two_angles c r s e : dist c s = r -> dist c e = r -> 0 < r -> 0 < crossv (vsub s c) (vsub e c) -> exists u v,
  angle_for_point (Circ c r None) s = Ok u /\ angle_for_point (Circ c r None) e = Ok v /\ short_turn u v /\ polar c r u s /\ polar c r v e.
Proof.
  intros Ds De R0 Cr.
  assert (Hs : s <> c) by (intros ->; pose proof (dist_sq c c) as Q; rewrite Ds in Q; nra).
  assert (He : e <> c) by (intros ->; pose proof (dist_sq c c) as Q; rewrite De in Q; nra).
  destruct (angle_for_point_ok (Circ c r None) s Hs) as (u & Eu & Bu & Pu). destruct (angle_for_point_ok (Circ c r None) e He) as (v & Ev & Bv & Pv).
  cbn [c_center] in *. rewrite Ds in Pu. rewrite De in Pv. exists u, v.
  split; [exact Eu|]. split; [exact Ev|]. split; [|auto]. apply sin_pos_turn; try assumption.
  replace (rad (v - u)) with (rad v - rad u) by (unfold rad; field). rewrite sin_minus.
  destruct Pu as [X1 Y1]. destruct Pv as [X2 Y2]. unfold crossv in Cr. cbn in Cr. rewrite X1, Y1, X2, Y2 in Cr.
  apply (Rmult_lt_reg_l (r * r)); [nra|]. nra.
Qed.

Lemma arc_turn P d1 d2 r : unitv d1 -> unitv d2 -> crossv d1 d2 <> 0 ->
  crossv (vsub (arc_start P d1 d2 r) (arc_center P d1 d2 r)) (vsub (arc_stop P d1 d2 r) (arc_center P d1 d2 r)) = r * r * crossv d1 d2.
Proof.
  intros U1 U2 N. assert (Kpos : 0 < Rabs (crossv d1 d2)) by (apply Rabs_pos_lt; exact N).
  assert (Ha : Rabs (crossv d1 d2) * Rabs (crossv d1 d2) = crossv d1 d2 * crossv d1 d2).
  { rewrite <- Rabs_mult. apply Rabs_pos_eq. nra. }
  set (o := arc_ratio d1 d2 r). assert (Ho : o * o * (crossv d1 d2 * crossv d1 d2) = r * r).
  { rewrite <- Ha. unfold o, arc_ratio. field. lra. }
  assert (G : crossv (vsub (arc_start P d1 d2 r) (arc_center P d1 d2 r)) (vsub (arc_stop P d1 d2 r) (arc_center P d1 d2 r)) =
    o * o * (1 - dotv d1 d2 * dotv d1 d2) * crossv d1 d2).
  { unfold crossv at 1. cbn. fold o. unfold crossv. ring. }
  rewrite G. pose proof (dot_cross d1 d2 U1 U2) as DC. rewrite <- Ho.
  replace (1 - dotv d1 d2 * dotv d1 d2) with (crossv d1 d2 * crossv d1 d2) by lra. ring.
Qed.

Lemma corner_arc a l p i r A P B d1 d2 : Forall drawing l -> history (new_path a) l = Ok p -> rounded p i r -> 0 < r ->
  start_point p (before p i) = Ok A -> start_point p i = Ok P -> stop_point p i = Ok B ->
  heading A P d1 -> heading P B d2 -> vx d1 * vy d2 - vy d1 * vx d2 <> 0 ->
  exists c s e u v, fst (bulge_geometry i p) = Ok (Circ c r (Some (Dom u v))) /\ fillet P d1 d2 r c s e /\ short_turn u v /\
    (0 < vx d1 * vy d2 - vy d1 * vx d2 -> polar c r u s /\ polar c r v e) /\
    (vx d1 * vy d2 - vy d1 * vx d2 < 0 -> polar c r u e /\ polar c r v s).
Proof.
  intros Hd E Hr R0 HA HP HB H1 H2 N. destruct (drawn_coherent a l p Hd E) as [Hs Hc].
  pose proof (corner_from_points p i r A P B d1 d2 Hs Hr HA HP HB H1 H2) as D.
  destruct (corner_values p i r P d1 d2 D N) as (V1 & V2 & V3 & h & V4 & Hh & Sh).
  pose proof (heading_unit _ _ _ H1) as U1. pose proof (heading_unit _ _ _ H2) as U2.
  pose proof (fillet_ok P d1 d2 r U1 U2 N R0) as F. destruct F as (k & Fk).
  assert (Ds : dist (arc_center P d1 d2 r) (arc_start P d1 d2 r) = r) by apply Fk.
  assert (De : dist (arc_center P d1 d2 r) (arc_stop P d1 d2 r) = r) by apply Fk.
  pose proof (arc_turn P d1 d2 r U1 U2 N) as T.
  rewrite (read_value _ _ _ p (reads_bulge i) Hc). unfold pbulge. rewrite V1, (cd_radius _ _ _ _ _ _ D), V2, V3, V4. cbn [bind].
  set (c := arc_center P d1 d2 r) in *. set (s := arc_start P d1 d2 r) in *. set (e := arc_stop P d1 d2 r) in *.
  exists c, s, e. change (vx d1 * vy d2 - vy d1 * vx d2) with (crossv d1 d2).
  assert (Hdeg : Rltb (degrees h) 0 = negb (Rltb 0 (crossv d1 d2))).
  { pose proof PI_RGT_0. assert (Q : (degrees h < 0 <-> h < 0)).
    { assert (Ed : h = degrees h * (PI / 180)) by (unfold degrees; field; lra). assert (0 < PI / 180) by lra.
      split; intros Q; [rewrite Ed; nra|]. destruct (Rlt_le_dec (degrees h) 0) as [|L]; [assumption|].
      exfalso. assert (0 <= degrees h * (PI / 180)) by (apply Rmult_le_pos; lra). lra. }
    assert (h <> 0) by (intros ->; rewrite Rabs_R0 in Hh; lra).
    destruct (Rltb_spec (degrees h) 0) as [L|L], (Rltb_spec 0 (crossv d1 d2)) as [L2|L2]; cbn; try reflexivity; exfalso.
    - apply Q in L. apply Sh in L2. lra.
    - assert (~ h < 0) by (intros K; apply Q in K; lra). assert (0 < h) as K by lra. apply Sh in K. lra. }
  rewrite Hdeg. destruct (Rltb_spec 0 (crossv d1 d2)) as [L|L].
  - destruct (two_angles c r s e Ds De R0) as (u & v & Eu & Ev & S & Pu & Pv); [rewrite T; apply Rmult_lt_0_compat; nra|].
    rewrite Eu, Ev. cbn [bind negb]. exists u, v. split; [reflexivity|]. split; [exists k; exact Fk|]. split; [exact S|]. split; [auto|lra].
  - destruct (two_angles c r e s De Ds R0) as (u & v & Eu & Ev & S & Pu & Pv).
    { assert (crossv (vsub e c) (vsub s c) = - (r * r * crossv d1 d2)) as ->; [rewrite <- T; unfold crossv; ring|].
      assert (crossv d1 d2 < 0) by (change (crossv d1 d2 <> 0) in N; lra). assert (0 < r * r) by nra. nra. }
    rewrite Eu, Ev. cbn [bind negb]. exists u, v. split; [reflexivity|]. split; [exists k; exact Fk|]. split; [exact S|]. split; [lra|auto].
Qed.
