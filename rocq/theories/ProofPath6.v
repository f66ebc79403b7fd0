(** Paths: transformations of rounded corners, ready made paths, copies, conversions. *)
From Coq Require Import Reals List ZArith Bool Lia Lra Psatz.
From Verif Require Import Base ModelVector ModelTransformation ModelLine ModelBezier ModelConic ModelPath
  SpecVector SpecTransformation SpecConic SpecPath GluePath ProofVector ProofTransformation ProofConic ProofConic3
  ProofPath ProofPath2 ProofPath3 ProofPath4 ProofPath5.
Import ListNotations.
Local Open Scope R_scope.

(** ** Images of the points *)
Lemma history_points a l p t p' : history (new_path a) l = Ok p -> transform_path t p = Ok p' ->
  p0 p' = apply t (p0 p) /\ closed p' = closed p /\ length (parts p') = length (parts p) /\
  forall i, (i < length (parts p))%nat -> exists s e,
    start_point p i = Ok s /\ start_point p' i = Ok (apply t s) /\ stop_point p i = Ok e /\ stop_point p' i = Ok (apply t e).
Proof.
  intros E T. pose proof (history_sane l _ p (new_sane a) E) as Hs.
  destruct (transform_parts t p p' Hs T) as (H1 & H2 & H3 & _). split; [exact H1|]. split; [exact H2|]. split; [exact H3|].
  intros i Hi. destruct (transform_start t p p' Hs T i) as (s & S1 & S2); [lia|].
  destruct (transform_stop t p p' Hs T i Hi) as (e & E1 & E2). exists s, e. auto.
Qed.

(** ** Paths without rounding *)
Lemma sharp_points p i s c : sharp p -> nth_error (parts p) i = Some (Linear s c) ->
  fst (linear_points i p) = (a <- start_point p i ;; b <- stop_point p i ;; Ok (a, b))%result.
Proof.
  intros Hp H. unfold linear_points, andthen, corner_at, here. rewrite H.
  assert (R : radius c = None). { destruct (radius c) as [r|] eqn:E; [|reflexivity]. exfalso. apply (Hp i r). exists s, c. auto. }
  rewrite R. cbn [ret]. unfold ret. destruct (start_point p i) as [a|]; [|reflexivity]. cbn [bind].
  destruct (nth_error (parts p) (next_index i c)) as [[s' c'| | | |]|] eqn:E; try (destruct (stop_point p i); reflexivity).
  assert (R' : radius c' = None).
  { destruct (radius c') as [r|] eqn:E'; [|reflexivity]. exfalso. apply (Hp (next_index i c) r). exists s', c'. auto. }
  rewrite R'. destruct (stop_point p i); reflexivity.
Qed.

Lemma sharp_geometry p i s c : sharp p -> nth_error (parts p) i = Some (Linear s c) ->
  fst (geometry i p) = (a <- start_point p i ;; b <- stop_point p i ;; Ok (GSegment (Seg a b)))%result.
Proof.
  intros Hp H. unfold geometry, andthen at 1, here. rewrite H. destruct s; try reflexivity.
  unfold andthen. pose proof (sharp_points p i _ c Hp H) as E.
  destruct (linear_points i p) as [[[a b]|e] p1]; cbn [fst] in E; destruct (start_point p i); try discriminate; cbn [bind] in *;
    destruct (stop_point p i); try discriminate; cbn [bind] in *; injection E; intros; subst; reflexivity.
Qed.

Lemma to_absolute_image t p p' i f a b : sane p -> transform_path t p = Ok p' -> to_absolute_point p i f a = Ok b ->
  to_absolute_point p' i true (apply t b) = Ok (apply t b).
Proof. reflexivity. Qed.

Lemma transform_sharp t p p' : sane p -> transform_path t p = Ok p' -> sharp p -> sharp p'.
Proof.
  intros Hs T Hp i r (s & c & H & R). destruct (transform_back t p p' i _ Hs T H) as (q & Hq & G).
  destruct (part_image_linear t p i q s c G) as (s0 & c0 & a & -> & _ & _ & C).
  destruct C as (_ & _ & C & _). destruct (radius c0) as [r0|] eqn:E; [|congruence]. apply (Hp i r0). exists s0, c0. auto.
Qed.

Lemma sharp_image a l p t p' i g : history (new_path a) l = Ok p -> sharp p -> transform_path t p = Ok p' ->
  fst (geometry i p) = Ok g -> (forall x, g <> GArc x) -> exists g', fst (geometry i p') = Ok g' /\ piece_image (apply t) g g'.
Proof.
  intros E Hp T G NA. pose proof (history_sane l _ p (new_sane a) E) as Hs.
  destruct (nth_error (parts p) i) as [q|] eqn:Hq.
  2: { exfalso. unfold geometry, andthen, here in G. rewrite Hq in G. discriminate. }
  assert (Hi : (i < length (parts p))%nat) by (apply nth_error_Some; congruence).
  destruct (transform_start t p p' Hs T i) as (s & S1 & S2); [lia|]. destruct (transform_stop t p p' Hs T i Hi) as (e & E1 & E2).
  destruct (transform_parts t p p' Hs T) as (_ & _ & _ & N). destruct (N i q Hq) as (q' & Hq' & I').
  destruct q as [sh c|x y f|x y z f|f|x rx ry an la sw f].
  - rewrite (sharp_geometry p i sh c Hp Hq), S1, E1 in G. cbn [bind] in G. injection G as <-.
    destruct I' as (b & c' & -> & _). rewrite (sharp_geometry p' i _ _ (transform_sharp t p p' Hs T Hp) Hq'), S2, E2.
    eexists. split; reflexivity.
  - destruct I' as (x' & y' & -> & X & Y). unfold geometry, andthen, here in *. rewrite Hq in G. rewrite Hq'. cbn in G |- *.
    rewrite S1, X, Y in G. cbn [bind] in G. injection G as <-. rewrite S2. cbn [bind]. eexists. split; reflexivity.
  - destruct I' as (x' & y' & z' & -> & X & Y & Z). unfold geometry, andthen, here in *. rewrite Hq in G. rewrite Hq'. cbn in G |- *.
    rewrite S1, X, Y, Z in G. cbn [bind] in G. injection G as <-. rewrite S2. cbn [bind]. eexists. split; reflexivity.
  - destruct I'.
  - exfalso. unfold geometry, andthen, here in G. rewrite Hq in G. cbn in G. destruct (start_point p i); [|discriminate]. cbn [bind] in G.
    destruct (stop_point p i); [|discriminate]. cbn [bind] in G. destruct (svg_arc _ _ _ _ _ _ _) as [h|]; [|discriminate].
    cbn [bind] in G. injection G as <-. apply (NA h). reflexivity.
Qed.

(** ** Similarities *)
Definition lin (t : transformation) (k : R) (d : vec) : vec :=
  V ((m00 (t_m t) * vx d + m01 (t_m t) * vy d) / k) ((m10 (t_m t) * vx d + m11 (t_m t) * vy d) / k).

Lemma similarity_matrix t k : similarity (apply t) k ->
  m00 (t_m t) * m00 (t_m t) + m10 (t_m t) * m10 (t_m t) = k * k /\
  m01 (t_m t) * m01 (t_m t) + m11 (t_m t) * m11 (t_m t) = k * k /\
  m00 (t_m t) * m01 (t_m t) + m10 (t_m t) * m11 (t_m t) = 0.
Proof.
  intros [_ H].
  assert (Q : forall u v, let a := m00 (t_m t) * u + m01 (t_m t) * v in let b := m10 (t_m t) * u + m11 (t_m t) * v in
    a * a + b * b = k * k * (u * u + v * v)).
  { intros u v a b. pose proof (H (V 0 0) (V u v)) as E.
    assert (E2 : dist (apply t (V 0 0)) (apply t (V u v)) * dist (apply t (V 0 0)) (apply t (V u v)) =
      (k * dist (V 0 0) (V u v)) * (k * dist (V 0 0) (V u v))) by (rewrite E; reflexivity).
    rewrite dist_sq in E2. replace (k * dist (V 0 0) (V u v) * (k * dist (V 0 0) (V u v)))
      with (k * k * (dist (V 0 0) (V u v) * dist (V 0 0) (V u v))) in E2 by ring. rewrite dist_sq in E2. cbn in E2.
    unfold a, b. lra. }
  pose proof (Q 1 0) as Q1. pose proof (Q 0 1) as Q2. pose proof (Q 1 1) as Q3. cbv zeta in Q1, Q2, Q3.
  split; [lra|]. split; [lra|]. lra.
Qed.

Lemma heading_image t k a b d : similarity (apply t) k -> 0 < k -> heading a b d -> heading (apply t a) (apply t b) (lin t k d).
Proof.
  intros Hk K0 (N & X & Y). pose proof Hk as [_ D]. 
  assert (Z : dist a b <> 0).
  { intros E. rewrite E in X, Y. apply N. apply vec_eq; lra. }
  split.
  - intros E. pose proof (D a b) as Dab. rewrite <- E in Dab. pose proof (dist_sq (apply t a) (apply t a)) as Q. rewrite Dab in Q.
    assert (k * dist a b = 0) as W by nra. apply Rmult_integral in W. destruct W; [lra|contradiction].
  - rewrite D. unfold lin, apply. cbn [vx vy]. split.
    + transitivity (m00 (t_m t) * (vx b - vx a) + m01 (t_m t) * (vy b - vy a)); [ring|]. rewrite X, Y. field. lra.
    + transitivity (m10 (t_m t) * (vx b - vx a) + m11 (t_m t) * (vy b - vy a)); [ring|]. rewrite X, Y. field. lra.
Qed.

Lemma lin_dot t k d e : similarity (apply t) k -> 0 < k -> dotv (lin t k d) (lin t k e) = dotv d e.
Proof.
  intros Hk K0. destruct (similarity_matrix t k Hk) as (A & B & C). unfold dotv, lin. cbn [vx vy].
  transitivity (((m00 (t_m t) * m00 (t_m t) + m10 (t_m t) * m10 (t_m t)) * (vx d * vx e) +
    (m01 (t_m t) * m01 (t_m t) + m11 (t_m t) * m11 (t_m t)) * (vy d * vy e) +
    (m00 (t_m t) * m01 (t_m t) + m10 (t_m t) * m11 (t_m t)) * (vx d * vy e + vy d * vx e)) / (k * k)); [field; lra|].
  rewrite A, B, C. field. lra.
Qed.

Lemma lin_cross t k d e : similarity (apply t) k -> 0 < k -> Rabs (crossv (lin t k d) (lin t k e)) = Rabs (crossv d e).
Proof.
  intros Hk K0. destruct (similarity_matrix t k Hk) as (A & B & C).
  set (det := (m00 (t_m t) * m11 (t_m t) - m01 (t_m t) * m10 (t_m t)) / (k * k)).
  assert (E : crossv (lin t k d) (lin t k e) = det * crossv d e).
  { unfold crossv, lin, det. cbn [vx vy]. field. lra. }
  assert (D2 : det * det = 1).
  { unfold det. transitivity (((m00 (t_m t) * m00 (t_m t) + m10 (t_m t) * m10 (t_m t)) *
      (m01 (t_m t) * m01 (t_m t) + m11 (t_m t) * m11 (t_m t)) - (m00 (t_m t) * m01 (t_m t) + m10 (t_m t) * m11 (t_m t)) *
      (m00 (t_m t) * m01 (t_m t) + m10 (t_m t) * m11 (t_m t))) / (k * k * (k * k))); [field; lra|]. rewrite A, B, C. field. lra. }
  rewrite E, Rabs_mult. replace (Rabs det) with 1; [ring|].
  assert (0 <= Rabs det) by apply Rabs_pos. assert (Rabs det * Rabs det = 1) by (rewrite <- Rabs_mult, D2; apply Rabs_R1). nra.
Qed.

Lemma arc_image t k P d1 d2 r : similarity (apply t) k -> 0 < k -> crossv d1 d2 <> 0 ->
  arc_center (apply t P) (lin t k d1) (lin t k d2) (k * r) = apply t (arc_center P d1 d2 r) /\
  arc_start (apply t P) (lin t k d1) (lin t k d2) (k * r) = apply t (arc_start P d1 d2 r) /\
  arc_stop (apply t P) (lin t k d1) (lin t k d2) (k * r) = apply t (arc_stop P d1 d2 r).
Proof.
  intros Hk K0 N. assert (0 < Rabs (crossv d1 d2)) by (apply Rabs_pos_lt; exact N).
  unfold arc_center, arc_start, arc_stop, arc_ratio. rewrite (lin_cross t k _ _ Hk K0), (lin_dot t k _ _ Hk K0).
  set (o := dotv d1 d2). set (x := Rabs (crossv d1 d2)) in *.
  split; [|split]; apply vec_eq; unfold apply, lin; cbn [vx vy]; field; split; lra.
Qed.

Lemma unread_image t p p' : sane p -> transform_path t p = Ok p' -> unread p -> coherent p'.
Proof.
  intros Hs T U i s c H. destruct (transform_back t p p' i _ Hs T H) as (q & Hq & G).
  destruct (part_image_linear t p i q s c G) as (s0 & c0 & a & -> & _ & _ & C).
  destruct C as (_ & _ & _ & -> & -> & -> & -> & D & B). destruct (U i s0 c0 Hq) as [D0 B0]. rewrite D0 in D. rewrite B0 in B.
  replace (k_direction c) with (@None vec) by (destruct D; congruence). replace (k_bissector c) with (@None vec) by (destruct B; congruence).
  cbn. auto 10.
Qed.

Lemma rounded_image t p p' i r r' : sane p -> transform_path t p = Ok p' -> rounded p i r -> scalar t r = Ok r' -> rounded p' i r'.
Proof.
  intros Hs T (s & c & H & R) E. destruct (transform_parts t p p' Hs T) as (_ & _ & _ & N). destruct (N i _ H) as (q' & Hq' & G).
  destruct G as (a & c' & -> & _ & C). destruct C as (_ & _ & C & _). rewrite R in C. destruct C as (r2 & R2 & E2).
  exists (PLine (apply t a) true), c'. split; [exact Hq'|]. congruence.
Qed.

Lemma before_length p p' i : length (parts p') = length (parts p) -> before p' i = before p i.
Proof. intros E. unfold before. rewrite E. reflexivity. Qed.

Lemma corner_data_image t k p p' i r A P B d1 d2 : similarity (apply t) k -> 0 < k -> scalar t r = Ok (k * r) ->
  sane p -> transform_path t p = Ok p' -> rounded p i r -> start_point p (before p i) = Ok A -> start_point p i = Ok P ->
  stop_point p i = Ok B -> heading A P d1 -> heading P B d2 ->
  corner_data p' i (k * r) (apply t P) (lin t k d1) (lin t k d2).
Proof.
  intros Hk K0 Sc Hs T Hr HA HP HB H1 H2. destruct (transform_parts t p p' Hs T) as (_ & _ & L & _).
  assert (Hi : (i < length (parts p))%nat). { destruct Hr as (s & c & H & _). apply nth_error_Some. congruence. }
  destruct (transform_start t p p' Hs T i) as (P' & E1 & E2); [lia|]. rewrite HP in E1. injection E1 as <-.
  destruct (transform_stop t p p' Hs T i Hi) as (B' & E3 & E4). rewrite HB in E3. injection E3 as <-.
  assert (Hb : (before p i <= length (parts p))%nat) by (destruct i; cbn; lia).
  destruct (transform_start t p p' Hs T _ Hb) as (A' & E5 & E6). rewrite HA in E5. injection E5 as <-.
  apply (corner_from_points p' i (k * r) (apply t A) (apply t P) (apply t B)); try assumption.
  - apply (transform_sane t p p' Hs T).
  - apply (rounded_image t p p' i r _ Hs T Hr Sc).
  - rewrite (before_length p p' i L). exact E6.
  - apply heading_image; assumption.
  - apply heading_image; assumption.
Qed.

(** Rounded corners, when no direction was read before. *)
Lemma rounded_corner_image e k a l p p' i r A P B d1 d2 : similarity (apply (build e)) k -> 0 < k ->
  scalar (build e) r = Ok (k * r) -> Forall drawing l -> history (new_path a) l = Ok p -> unread p ->
  transform_path (build e) p = Ok p' -> rounded p i r ->
  start_point p (before p i) = Ok A -> start_point p i = Ok P -> stop_point p i = Ok B ->
  heading A P d1 -> heading P B d2 -> vx d1 * vy d2 - vy d1 * vx d2 <> 0 ->
  rounded p' i (k * r) /\ exists c s f,
    fst (bulge_center i p) = Ok c /\ fst (bulge_start_point i p) = Ok s /\ fst (bulge_stop_point i p) = Ok f /\
    fst (bulge_center i p') = Ok (apply (build e) c) /\ fst (bulge_start_point i p') = Ok (apply (build e) s) /\
    fst (bulge_stop_point i p') = Ok (apply (build e) f).
Proof.
  intros Hk K0 Sc Hd E U T Hr HA HP HB H1 H2 N. destruct (drawn_coherent a l p Hd E) as [Hs Hc].
  split; [apply (rounded_image _ p p' i r _ Hs T Hr Sc)|].
  pose proof (corner_from_points p i r A P B d1 d2 Hs Hr HA HP HB H1 H2) as D.
  destruct (corner_values p i r P d1 d2 D N) as (V1 & V2 & V3 & _).
  pose proof (corner_data_image _ k p p' i r A P B d1 d2 Hk K0 Sc Hs T Hr HA HP HB H1 H2) as D'.
  pose proof (unread_image _ p p' Hs T U) as Hc'.
  assert (N' : crossv (lin (build e) k d1) (lin (build e) k d2) <> 0).
  { intros Z. pose proof (lin_cross _ k d1 d2 Hk K0) as W. rewrite Z, Rabs_R0 in W. symmetry in W.
    change (crossv d1 d2 <> 0) in N. apply Rabs_pos_lt in N. lra. }
  destruct (corner_values p' i _ _ _ _ D' N') as (W1 & W2 & W3 & _).
  destruct (arc_image (build e) k P d1 d2 r Hk K0 N) as (I1 & I2 & I3). rewrite I1 in W1. rewrite I2 in W2. rewrite I3 in W3.
  exists (arc_center P d1 d2 r), (arc_start P d1 d2 r), (arc_stop P d1 d2 r).
  rewrite (read_value _ _ _ p (reads_center i) Hc), (read_value _ _ _ p (reads_start i) Hc), (read_value _ _ _ p (reads_stop i) Hc).
  rewrite (read_value _ _ _ p' (reads_center i) Hc'), (read_value _ _ _ p' (reads_start i) Hc'), (read_value _ _ _ p' (reads_stop i) Hc').
  auto 10.
Qed.

(** ** When a path can be transformed *)
Lemma start_defined p : sane p -> ~ has_stringed p -> forall i, (i <= length (parts p))%nat -> is_ok (start_point p i).
Proof.
  intros Hs Hn. induction i as [|i IH]; intros Hi.
  - destruct (nth_error (parts p) 0) as [q|] eqn:E.
    + rewrite (start0 p q E). destruct q as [s c| | | |]; try (eexists; reflexivity). destruct (start_bulge c) eqn:Bc; [|eexists; reflexivity].
      destruct (sane_closed p Hs (sane_open p Hs s c E Bc)) as (a & k & ->). eexists; reflexivity.
    + cbn [start_point]. rewrite E. eexists; reflexivity.
  - destruct IH as [s Es]; [lia|]. rewrite start_succ. unfold stop_of. rewrite Es.
    destruct (nth_error (parts p) i) as [q|] eqn:E; [|eexists; reflexivity].
    destruct q as [[x f| | |] c|x y f|x y z f|f|x rx ry an la sw f]; try destruct f; try (eexists; reflexivity).
    all: exfalso; apply Hn; eexists; eexists; exact E.
Qed.
Lemma stop_defined p i : sane p -> ~ has_stringed p -> (i < length (parts p))%nat -> is_ok (stop_point p i).
Proof.
  intros Hs Hn Hi. destruct (start_defined p Hs Hn (S i)) as [s E]; [lia|]. rewrite start_succ in E. unfold stop_of in E.
  unfold stop_point. destruct (nth_error (parts p) i) eqn:Ei; [exists s; exact E|]. apply nth_error_None in Ei. lia.
Qed.
Lemma to_absolute_defined p i f a : sane p -> ~ has_stringed p -> (i < length (parts p))%nat -> is_ok (to_absolute_point p i f a).
Proof.
  intros Hs Hn Hi. unfold to_absolute_point. destruct f; [eexists; reflexivity|].
  destruct (start_defined p Hs Hn i) as [s ->]; [lia|]. eexists; reflexivity.
Qed.

Lemma path_segment_defined p i s c v f : sane p -> nth_error (parts p) i = Some (Linear s c) -> is_ok (path_segment p i v f c).
Proof.
  intros Hs H. unfold path_segment. destruct i as [|j]; destruct (radius c) eqn:R; try (eexists; reflexivity).
  rewrite (sane_prev p Hs j s c H) by congruence. eexists; reflexivity.
Qed.

Lemma absolute_part_defined p i : sane p -> ~ has_stringed p -> (i < length (parts p))%nat -> is_ok (absolute_part p i).
Proof.
  intros Hs Hn Hi. unfold absolute_part. destruct (nth_error (parts p) i) as [q|] eqn:E; [|apply nth_error_None in E; lia].
  destruct q as [[v f|g n|x|y] c|x y f|x y z f|f|x rx ry an la sw f].
  - destruct f; [eexists; reflexivity|]. destruct (stop_defined p i Hs Hn Hi) as [s ->]. eexists; reflexivity.
  - destruct (path_segment_defined p i _ c (from_polar n g) false Hs E) as [q Eq]. rewrite Eq. cbn [bind].
    destruct (path_segment_eq p i _ (from_polar n g) c q Hs E) as (f & c' & -> & _ & _ & _ & _); [intros; discriminate|auto|].
    assert (F : f = false). { unfold path_segment in Eq. destruct i, (radius c); try (injection Eq; congruence).
      destruct (is_linear _); [injection Eq; congruence|discriminate]. } subst f.
    assert (A : abs_of p i (Linear (PDir g n) c) (Linear (PLine (from_polar n g) false) c') \/ True) by auto. clear A.
    unfold stop_point. cbn [parts set_parts]. rewrite (nth_error_update_eq _ _ _ _ _ E). cbn [part_stop].
    assert (K : is_ok (start_point (set_parts p (update i (Linear (PLine (from_polar n g) false) c') (parts p))) i)).
    { destruct (path_segment_eq p i _ (from_polar n g) c _ Hs E ltac:(intros; discriminate) (or_introl Eq))
        as (f2 & c2 & E2 & B2 & _). injection E2 as <- <-.
      assert (X : forall j, (j <= i)%nat -> start_point (set_parts p (update i (Linear (PLine (from_polar n g) false) c') (parts p))) j = start_point p j).
      { induction j as [|j IH]; intros Hj.
        - destruct (nth_error (parts p) 0) as [q0|] eqn:E0; [|apply nth_error_None in E0; lia].
          destruct i as [|i'].
          + assert (q0 = Linear (PDir g n) c) by congruence. subst q0.
            rewrite (start0 p _ E0).
            rewrite (start0 (set_parts p (update 0 (Linear (PLine (from_polar n g) false) c') (parts p))) (Linear (PLine (from_polar n g) false) c'))
              by (cbn [parts set_parts]; apply (nth_error_update_eq _ _ _ _ _ E0)).
            rewrite B2. destruct (start_bulge c) eqn:Bc; [|reflexivity].
            destruct (sane_closed p Hs (sane_open p Hs _ c E Bc)) as (a & Ha). pose proof Ha as Ha'. apply ends_nth in Ha'. destruct Ha' as (k & Hk).
            cbn [parts set_parts]. assert (length (parts p) - 1 <> 0)%nat as Nz.
            { intros Z. rewrite Z in Hk. congruence. }
            rewrite (last_nth _ (update 0 (Linear (PLine (from_polar n g) false) c') (parts p)) _ (Linear (PLine a true) k)).
            * destruct Ha as (k' & ->). reflexivity.
            * rewrite update_length, nth_error_update_neq by lia. exact Hk.
          + rewrite (start0 p _ E0).
            rewrite (start0 (set_parts p (update (S i') (Linear (PLine (from_polar n g) false) c') (parts p))) q0)
              by (cbn [parts set_parts]; rewrite nth_error_update_neq by lia; exact E0).
            destruct q0 as [s0 c0| | | |]; try reflexivity. destruct (start_bulge c0) eqn:Bc; [|reflexivity].
            destruct (sane_closed p Hs (sane_open p Hs _ c0 E0 Bc)) as (a & Ha). pose proof Ha as Ha'. apply ends_nth in Ha'. destruct Ha' as (k & Hk).
            cbn [parts set_parts]. assert (length (parts p) - 1 <> S i')%nat as Nz.
            { intros Z. rewrite Z in Hk. congruence. }
            rewrite (last_nth _ (update (S i') (Linear (PLine (from_polar n g) false) c') (parts p)) _ (Linear (PLine a true) k)).
            * destruct Ha as (k' & ->). reflexivity.
            * rewrite update_length, nth_error_update_neq by lia. exact Hk.
        - rewrite !start_succ, IH by lia. unfold stop_of. cbn [parts set_parts]. rewrite nth_error_update_neq by lia.
          destruct (nth_error (parts p) j); reflexivity. }
      rewrite X by lia. apply (start_defined p Hs Hn). lia. }
    destruct K as [s ->]. eexists; reflexivity.
  - destruct (stop_defined p i Hs Hn Hi) as [s ->]. apply (path_segment_defined p i _ c s true Hs E).
  - destruct (stop_defined p i Hs Hn Hi) as [s ->]. apply (path_segment_defined p i _ c s true Hs E).
  - destruct (to_absolute_defined p i f x Hs Hn Hi) as [a ->], (to_absolute_defined p i f y Hs Hn Hi) as [b ->]. eexists; reflexivity.
  - destruct (to_absolute_defined p i f x Hs Hn Hi) as [a ->], (to_absolute_defined p i f y Hs Hn Hi) as [b ->],
      (to_absolute_defined p i f z Hs Hn Hi) as [d ->]. eexists; reflexivity.
  - exfalso; apply Hn; eexists; eexists; exact E.
  - destruct (to_absolute_defined p i f x Hs Hn Hi) as [a ->]. eexists; reflexivity.
Qed.

Lemma abs_of_stringed p i q q' b : abs_of p i q q' -> q' = PStringed b -> exists b', q = PStringed b'.
Proof.
  intros G ->. destruct q as [s c|x y f|x y z f|f|x rx ry an la sw f]; [| | |eauto|].
  all: unfold abs_of in G; decompose [ex and] G; discriminate.
Qed.

Lemma absolute_parts_defined n : forall k p, sane p -> ~ has_stringed p -> (k + n = length (parts p))%nat -> is_ok (absolute_parts p (seq k n)).
Proof.
  induction n as [|n IH]; intros k p Hs Hn L; [eexists; reflexivity|]. cbn [seq absolute_parts].
  assert (Hk : (k < length (parts p))%nat) by lia. destruct (absolute_part_defined p k Hs Hn Hk) as [q Eq]. rewrite Eq. cbn [bind].
  destruct (nth_error (parts p) k) as [q0|] eqn:E0; [|apply nth_error_None in E0; lia].
  pose proof (absolute_part_ok p k q0 q Hs E0 Eq) as G.
  apply IH.
  - apply (replace_sane p k q0 q Hs E0 G).
  - intros (j & b & H). cbn [parts set_parts] in H. apply nth_update in H. destruct H as [(-> & H & _)|(_ & H)].
    + destruct (abs_of_stringed p j q0 q b G (eq_sym H)) as (b' & ->). apply Hn. eexists; eexists; exact E0.
    + apply Hn. eexists; eexists; exact H.
  - cbn [parts set_parts]. rewrite update_length. lia.
Qed.

Lemma traverse_defined {A B} (f : A -> result B) l : (forall i x, nth_error l i = Some x -> is_ok (f x)) -> is_ok (traverse f l).
Proof.
  induction l as [|x l IH]; intros H; [eexists; reflexivity|]. cbn.
  destruct (H 0%nat x eq_refl) as [y ->]. cbn. destruct IH as [m ->]; [intros i z Hz; apply (H (S i) z Hz)|]. eexists; reflexivity.
Qed.

Lemma transform_defined a l p t : history (new_path a) l = Ok p -> ~ has_stringed p ->
  (forall i r, rounded p i r -> is_ok (scalar t r)) -> is_ok (transform_path t p).
Proof.
  intros E Hn Hr. pose proof (history_sane l _ p (new_sane a) E) as Hs. unfold transform_path.
  destruct (absolute_parts_defined (length (parts p)) 0 p Hs Hn eq_refl) as [p1 E1]. rewrite E1. cbn [bind].
  destruct (absolute_parts_ok (length (parts p)) 0 p p1 Hs eq_refl E1) as (_ & _ & _ & L & _ & _ & _ & N).
  assert (K : is_ok (traverse (transform_part t) (parts p1))).
  { apply traverse_defined. intros i q' Hq'.
    assert (Hi : (i < length (parts p))%nat) by (rewrite <- L; apply nth_error_Some; congruence).
    destruct (nth_error (parts p) i) as [q|] eqn:Hq; [|apply nth_error_None in Hq; lia].
    destruct (N i q (Nat.le_0_l i) Hq) as (q2 & E2 & G). assert (q2 = q') by congruence. subst q2.
    destruct q as [s c|x y f|x y z f|f|x rx ry an la sw f].
    - destruct G as (v & c' & -> & _ & _ & _ & R & _). cbn [transform_part]. destruct (radius c') as [r|] eqn:Er; [|eexists; reflexivity].
      destruct (Hr i r) as [r' ->]; [exists s, c; split; congruence|]. eexists; reflexivity.
    - destruct G as (? & ? & -> & _). eexists; reflexivity.
    - destruct G as (? & ? & ? & -> & _). eexists; reflexivity.
    - exfalso. apply Hn. eexists; eexists; exact Hq.
    - destruct G as (? & -> & _). eexists; reflexivity. }
  destruct K as [m ->]. eexists; reflexivity.
Qed.
