(** Paths: what fails. *)
From Coq Require Import Reals List ZArith Bool Lia Lra Psatz.
From Verif Require Import Base ModelVector ModelTransformation ModelLine ModelBezier ModelConic ModelPath
  SpecVector SpecTransformation SpecConic SpecPath GluePath ProofVector ProofTransformation ProofConic ProofConic3
  ProofPath ProofPath2 ProofPath3 ProofPath4 ProofPath5 ProofPath6 ProofPath7.
Import ListNotations.
Local Open Scope R_scope.

(** ** A direction read before a rotation *)
Definition quarter := build (ERotation 90).
Lemma quarter_apply v : apply quarter v = V (- vy v) (vx v).
Proof.
  unfold quarter. rewrite build_apply. cbn [meaning]. rewrite rad_90, cos_PI2, sin_PI2. apply vec_eq; cbn; ring.
Qed.

Definition stale_commands : list event :=
  [Command (LineTo (V 10 0) None true); Command (LineTo (V 10 10) (Some 1) true); Read (RDirection 1)].
Definition stale (k : option vec) : path :=
  Path (V 0 0) [Linear (PLine (V 10 0) true) (plain None false);
                Linear (PLine (V 10 10) true) (Corner (Some (Rabs 1)) false false k None None None None None)] false.
Lemma stale_reading : direction 1 (stale None) = (Ok (V 0 1), stale (Some (V 0 1))).
Proof.
  unfold direction, andthen at 1, corner_at. cbn [stale parts nth_error k_direction]. unfold store, andthen, here, ret, assign.
  replace (b <- stop_point (stale None) 1;; a <- start_point (stale None) 1;; normalise (vsub b a))%result with (Ok (V 0 1)); [reflexivity|].
  change (Ok (V 0 1) = normalise (vsub (V 10 10) (V 10 0))). symmetry. apply heading_normalise. apply (heading_y _ _ 10); cbn; lra.
Qed.
Lemma stale_history : history (new_path (V 0 0)) stale_commands = Ok (stale (Some (V 0 1))).
Proof.
  transitivity (Ok (snd (direction 1 (stale None)))); [reflexivity|]. rewrite stale_reading. reflexivity.
Qed.
Definition stale_image : path :=
  Path (apply quarter (V 0 0)) [Linear (PLine (apply quarter (V 10 0)) true) (plain None false);
    Linear (PLine (apply quarter (V 10 10)) true) (Corner (Some (Rabs 1)) false false (Some (V 0 1)) None None None None None)] false.
Lemma stale_transform : transform_path quarter (stale (Some (V 0 1))) = Ok stale_image.
Proof. reflexivity. Qed.
Lemma then_ok {X Y} (m : reader X) (k : X -> reader Y) p p' x : m p = (Ok x, p') -> andthen m k p = k x p'.
Proof. intros E. unfold andthen. rewrite E. reflexivity. Qed.
Lemma then_raise {X Y} (m : reader X) (k : X -> reader Y) p p' e : m p = (Raise e, p') -> andthen m k p = (Raise e, p').
Proof. intros E. unfold andthen. rewrite E. reflexivity. Qed.
Lemma stale_center : fst (bulge_center 1 stale_image) = Raise NotANumber.
Proof.
  assert (D1 : direction 1 stale_image = (Ok (V 0 1), stale_image)) by reflexivity.
  assert (N0 : (b <- stop_point stale_image 0;; a <- start_point stale_image 0;; normalise (vsub b a))%result = Ok (V 0 1)).
  { change (normalise (vsub (apply quarter (V 10 0)) (apply quarter (V 0 0))) = Ok (V 0 1)). rewrite !quarter_apply.
    apply heading_normalise. apply (heading_y _ _ 10); cbn; lra. }
  assert (C0 : corner_at 0 stale_image = (Ok (plain None false), stale_image)) by reflexivity.
  assert (D0 : exists p, direction 0 stale_image = (Ok (V 0 1), p)).
  { unfold direction. rewrite (then_ok _ _ _ _ _ C0). cbn [plain k_direction].
    exists (snd (assign 0 (set_direction (Some (V 0 1))) stale_image)).
    unfold store. rewrite (then_ok _ _ stale_image stale_image (V 0 1)); [reflexivity|].
    rewrite (then_ok here _ stale_image stale_image stale_image eq_refl). unfold ret. rewrite N0. reflexivity. }
  destruct D0 as (p1 & D0).
  assert (R1 : radius_of 1 stale_image = (Ok (Rabs 1), stale_image)) by reflexivity.
  assert (C1 : corner_at 1 stale_image = (Ok (Corner (Some (Rabs 1)) false false (Some (V 0 1)) None None None None None), stale_image)) by reflexivity.
  assert (P1 : prev_index 1 stale_image = (Ok 0%nat, stale_image)) by reflexivity.
  assert (Bis : bissector 1 stale_image = (Raise NotANumber, p1)).
  { unfold bissector. rewrite (then_ok _ _ _ _ _ R1), (then_ok _ _ _ _ _ C1). cbn [k_bissector]. unfold store.
    apply then_raise. rewrite (then_ok _ _ _ _ _ D1), (then_ok _ _ _ _ _ P1), (then_ok _ _ _ _ _ D0). unfold ret, normalise, vdiv. rewrite magnitude_len.
    replace (len (vsub (V 0 1) (V 0 1))) with 0.
    - rewrite Reqb_refl. reflexivity.
    - unfold len. cbn. replace ((0 - 0) * (0 - 0) + (1 - 1) * (1 - 1)) with 0 by ring. symmetry. apply sqrt_0. }
  unfold bulge_center. rewrite (then_ok _ _ _ _ _ R1), (then_ok _ _ _ _ _ C1). cbn [k_center]. unfold store.
  rewrite (then_raise _ _ _ p1 NotANumber); [reflexivity|]. apply then_raise. exact Bis.
Qed.

Lemma stale_refuted : ~ (forall e k a l p p' i r A P B d1 d2, similarity (apply (build e)) k -> 0 < k ->
  scalar (build e) r = Ok (k * r) -> Forall drawing l -> history (new_path a) l = Ok p ->
  transform_path (build e) p = Ok p' -> rounded p i r ->
  start_point p (before p i) = Ok A -> start_point p i = Ok P -> stop_point p i = Ok B ->
  heading A P d1 -> heading P B d2 -> vx d1 * vy d2 - vy d1 * vx d2 <> 0 ->
  exists c, fst (bulge_center i p) = Ok c /\ fst (bulge_center i p') = Ok (apply (build e) c)).
Proof.
  intros H. destruct (H (ERotation 90) 1 (V 0 0) stale_commands (stale (Some (V 0 1))) stale_image 1%nat 1 (V 0 0) (V 10 0) (V 10 10) (V 1 0) (V 0 1)
    (rigid_similarity _ (rotation_rigid 90)) ltac:(lra)) as (c & _ & C).
  - cbn. f_equal. ring.
  - repeat constructor.
  - exact stale_history.
  - exact stale_transform.
  - eexists; eexists. split; [reflexivity|]. cbn. f_equal. apply Rabs_R1.
  - reflexivity.
  - reflexivity.
  - reflexivity.
  - apply (heading_x _ _ 10); cbn; lra.
  - apply (heading_y _ _ 10); cbn; lra.
  - cbn. lra.
  - fold quarter in C. rewrite stale_center in C. discriminate.
Qed.

(** ** The geometry of the sides of a rounded rectangle *)
Lemma rectangle_side : fst (geometry 0 (rectangle_path (V 0 0) 4 4 1)) = Ok (GSegment (Seg (V 0 0) (V (0 + 4) 0))).
Proof.
  destruct (rectangle_follows (V 0 0) 4 4 1 0 (V 0 0) (V (0 + 4) 0) eq_refl eq_refl) as [E1 E2].
  unfold geometry, andthen, here. cbn [rectangle_path parts nth_error]. fold (rectangle_path (V 0 0) 4 4 1).
  unfold ret. cbn [fst]. rewrite E1, E2. reflexivity.
Qed.

Lemma side_refuted : ~ (forall e k a l p p' i s, similarity (apply (build e)) k -> 0 < k -> Forall drawing l ->
  history (new_path a) l = Ok p -> unread p -> transform_path (build e) p = Ok p' -> fst (geometry i p) = Ok (GSegment s) ->
  fst (geometry i p') = Ok (GSegment (Seg (apply (build e) (s_p0 s)) (apply (build e) (s_p1 s))))).
Proof.
  intros H. set (p := rectangle_path (V 0 0) 4 4 1).
  set (l := map Command [HorizontalTo 4 None false; VerticalTo 4 (Some 1) false; HorizontalTo (-4) (Some 1) false; Close (Some 1) (Some 1)]).
  assert (Hl : history (new_path (V 0 0)) l = Ok p) by (unfold l; rewrite draw_history; apply rectangle_path_eq).
  assert (Hu : unread p).
  { intros i s c Hi. destruct i as [|[|[|[|i]]]]; cbn in Hi; [| | | |destruct i; discriminate]; injection Hi as <- <-; cbn; auto. }
  assert (Hn : ~ has_stringed p).
  { intros (i & b & Hi). destruct i as [|[|[|[|i]]]]; cbn in Hi; try discriminate; destruct i; discriminate. }
  pose proof (translation_rigid (V 1 0)) as Rg. set (t := build (ETranslation (V 1 0))).
  assert (Sc : forall x, scalar t x = Ok (1 * x)) by (intros x; cbn; rewrite Rabs_R1; reflexivity).
  destruct (transform_defined (V 0 0) l p t Hl Hn) as [p' T]. { intros i r _. rewrite Sc. eexists; reflexivity. }
  pose proof (H (ETranslation (V 1 0)) 1 (V 0 0) l p p' 0%nat _ (rigid_similarity _ Rg) ltac:(lra) (drawing_commands _) Hl Hu T rectangle_side) as G.
  destruct (rectangle_follows (V 0 0) 4 4 1 0 (V 0 0) (V (0 + 4) 0) eq_refl eq_refl) as [E1 E2].
  destruct (rectangle_follows (V 0 0) 4 4 1 3 (V 0 (0 + 4)) (V 0 0) eq_refl eq_refl) as [E3 E4].
  destruct (rounded_corner_image (ETranslation (V 1 0)) 1 (V 0 0) l p p' 0 1 (V 0 (0 + 4)) (V 0 0) (V (0 + 4) 0) (V 0 (-1)) (V 1 0))
    as (_ & c & s & f & _ & _ & F3 & _ & _ & F6); try assumption.
  - apply rigid_similarity, Rg.
  - lra.
  - apply Sc.
  - apply drawing_commands.
  - apply rectangle_rounded; [lra|lia].
  - apply (heading_my _ _ 4); cbn; lra.
  - apply (heading_x _ _ 4); cbn; lra.
  - cbn. lra.
  - pose proof (history_sane l _ p (new_sane _) Hl) as Hs. pose proof (unread_image t p p' Hs T Hu) as Hc'.
    pose proof (proj2 (rectangle_sound (V 0 0) 4 4 1)) as Hc. fold p in Hc.
    rewrite (read_value _ _ _ p (reads_stop 0) Hc) in F3. rewrite (read_value _ _ _ p' (reads_stop 0) Hc') in F6.
    destruct (rectangle_values (V 0 0) 4 4 1 0 _ _ _ ltac:(lra) ltac:(lra) ltac:(lra) eq_refl) as (_ & _ & V3). fold p in V3.
    rewrite V3 in F3. injection F3 as <-.
    assert (Q : exists c', nth_error (parts p') 0 = Some (Linear (PLine (apply t (V (0 + 4) 0)) true) c') /\ radius c' <> None).
    { destruct (transform_parts t p p' Hs T) as (_ & _ & _ & N). destruct (N 0%nat _ eq_refl) as (q' & Hq' & I').
      destruct I' as (b & c' & -> & Eb & CI). fold p in E2. rewrite E2 in Eb. injection Eb as <-. exists c'. split; [exact Hq'|].
      destruct CI as (_ & _ & CI & _). cbn in CI. destruct CI as (r' & -> & _). discriminate. }
    destruct Q as (c' & Hq & Rq). cbn [s_p0 s_p1] in G.
    unfold geometry, andthen at 1, here in G. rewrite Hq in G. unfold andthen in G.
    pose proof (read_value _ _ _ p' (reads_points 0) Hc') as RV.
    destruct (linear_points 0 p') as [[[x y]|ex] p2]; cbn [fst ret] in G, RV; [|discriminate]. injection G as G1 G2.
    unfold ppoints, pcorner in RV. rewrite Hq in RV. cbn [bind radius bare] in RV. destruct (radius c') as [rr|]; [|congruence].
    rewrite F6 in RV. cbn [bind] in RV.
    destruct (match pradius p' _ with Ok _ => _ | Raise _ => _ end) as [z|]; [|discriminate]. cbn [bind] in RV. injection RV as X1 X2.
    assert (K : apply t (V (vx (V 0 0) + 1) (vy (V 0 0) + 0)) = apply t (V 0 0)) by (transitivity x; [symmetry; exact X1|exact G1]).
    unfold t in K. rewrite !build_apply in K. cbn in K. injection K as K. lra.
Qed.

(** ** Arcs *)
Lemma scale_similarity k : 0 < k -> similarity (apply (build (EScale k k))) k.
Proof.
  intros K0. split; [lra|]. intros p q. rewrite !build_apply. cbn [meaning]. unfold dist. cbn [vx vy].
  transitivity (sqrt (k * k * ((vx p - vx q) * (vx p - vx q) + (vy p - vy q) * (vy p - vy q)))).
  - f_equal. ring.
  - rewrite sqrt_mult_alt by nra. rewrite sqrt_square by lra. reflexivity.
Qed.
Lemma arc_refuted : ~ (forall e k a l p p' i q rx ry angle large sweep f, similarity (apply (build e)) k -> 0 < k ->
  history (new_path a) l = Ok p -> transform_path (build e) p = Ok p' ->
  nth_error (parts p) i = Some (PArc q rx ry angle large sweep f) ->
  exists q' angle' large' sweep' f', nth_error (parts p') i = Some (PArc q' (k * rx) (k * ry) angle' large' sweep' f')).
Proof.
  intros H. destruct (H (EScale 3 3) 3 (V 0 0) [Command (ArcTo (V 2 0) 1 1 0 false false true)]
    (Path (V 0 0) [PArc (V 2 0) 1 1 0 false false true] false) _ 0%nat (V 2 0) 1 1 0 false false true (scale_similarity 3 ltac:(lra)) ltac:(lra)
    eq_refl eq_refl eq_refl) as (q' & an & la & sw & f' & E).
  cbn in E. injection E as _ E _ _ _ _ _. lra.
Qed.

(** ** Transformations which are refused *)
Lemma sheared_refuted : ~ (forall a l p e, history (new_path a) l = Ok p -> ~ has_stringed p ->
  rigid (apply (build e)) -> is_ok (transform_path (build e) p)).
Proof.
  intros H. destruct (H (V 0 0) (map Command [LineTo (V 10 0) None true; LineTo (V 10 10) (Some 1) true])
    (Path (V 0 0) [Linear (PLine (V 10 0) true) (plain None false); Linear (PLine (V 10 10) true) (plain (Some (Rabs 1)) false)] false)
    (EScreen 10) eq_refl) as [x E].
  - intros (i & b & Hi). destruct i as [|[|i]]; cbn in Hi; try discriminate; destruct i; discriminate.
  - intros p q. rewrite !build_apply. cbn [meaning]. unfold dist. cbn [vx vy]. f_equal. ring.
  - discriminate E.
Qed.

(** ** Closed paths *)
Lemma closed_refuted : ~ (forall a l p c p', draw (new_path a) l = Ok p -> closed p = true -> do_command p c = Ok p' -> p' = p).
Proof.
  intros H. pose proof (H (V 0 0) [LineTo (V 1 0) None true; LineTo (V 1 1) None true; Close None None] _ (Close None (Some 1)) _ eq_refl eq_refl eq_refl) as E.
  cbn in E. discriminate.
Qed.
Lemma move_refuted : ~ (forall a l p q, draw (new_path a) l = Ok p -> Forall drawable l -> follows (move_to p q) (trace q q (map pen l))).
Proof.
  intros H. destruct (H (V 0 0) [LineTo (V 1 0) None false; Close None None] _ (V 5 5) eq_refl) as [_ G]; [repeat constructor|].
  destruct (G 1%nat (V (5 + 1) (5 + 0)) (V 5 5) eq_refl) as [_ E]. unfold stop_point in E. cbn in E. injection E as E _. lra.
Qed.

(** ** Copies and conversions *)
Lemma clone_refuted : ~ (forall a l p, draw (new_path a) l = Ok p -> is_ok (clone_path p)).
Proof.
  intros H. destruct (H (V 0 0) [LineTo (V 1 0) None true] _ eq_refl) as [x E]. discriminate.
Qed.
Lemma polyline_refuted : ~ (forall a l p, polyline_to_path (a :: l) = Ok p -> follows p (trace a a (map To l))).
Proof.
  intros H. destruct (H (V 1 1) [V 2 1; V 2 2] _ eq_refl) as [_ G].
  destruct (G 0%nat (V 1 1) (V 2 1) eq_refl) as [_ E]. unfold stop_point in E. cbn in E. injection E as E _. lra.
Qed.
