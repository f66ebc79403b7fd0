(** Paths which leave their bounding box. *)
From Coq Require Import Reals List Lra Lia Bool.
From Verif Require Import Base ModelVector ModelTransformation ModelLine ModelBezier ModelConic ModelPath ModelPathBox
  SpecVector SpecLine SpecBezier SpecConic SpecPath SpecPathBox GluePath ProofVector ProofSegment ProofConic ProofArc ProofPath ProofPath2 ProofPath3 ProofPath4
  ProofPath5 ProofPath6 ProofPathBox ProofPathBox2.
Import ListNotations.
Local Open Scope R_scope.
Local Open Scope result_scope.

Lemma rad_minus a b : rad (a - b) = rad a - rad b. Proof. unfold rad. field. Qed.
(** ** A rounded corner *)
Definition tent : list event := map Command [LineTo (V 3 4) None true; LineTo (V 6 0) (Some 1) true].
Definition tent_path : path := Path (V 0 0) [Linear (PLine (V 3 4) true) (plain None false); Linear (PLine (V 6 0) true) (plain (Some 1) false)] false.
Lemma tent_drawn : history (new_path (V 0 0)) tent = Ok tent_path.
Proof. unfold tent_path. cbn. rewrite Rabs_R1. reflexivity. Qed.
Lemma dist_5 a b : (vx b - vx a) ^ 2 + (vy b - vy a) ^ 2 = 25 -> dist a b = 5.
Proof.
  intros H. apply Rsqr_inj; [apply dist_nonneg|lra|]. unfold Rsqr. rewrite dist_sq. nra.
Qed.
Lemma tent_fillet c s e : fillet (V 3 4) (V (3/5) (4/5)) (V (3/5) (-4/5)) 1 c s e ->
  c = V 3 (7/3) /\ s = V (11/5) (44/15) /\ e = V (19/5) (44/15).
Proof.
  intros (k & K & S1 & S2 & E1 & E2 & D1 & D2 & T1 & T2). cbn [vx vy] in *.
  assert (Q1 : (vx s - vx c) * (vx s - vx c) + (vy s - vy c) * (vy s - vy c) = 1).
  { pose proof (dist_sq c s) as Q. rewrite D1 in Q. lra. }
  assert (X : vx c = 3) by nra.
  assert (Y : vy c = 4 - k * 5 / 4) by nra.
  assert (K2 : k = 4 / 3) by nra.
  subst k. destruct c as [cx cy], s as [sx sy], e as [ex ey]. cbn [vx vy] in *.
  repeat split; apply vec_eq; cbn [vx vy]; lra.
Qed.
Lemma tent_leaves : exists b q u v m, fst (path_bounding_box tent_path) = Ok (Some b) /\
  fst (bulge_geometry 1 tent_path) = Ok (Circ (V 3 (7/3)) 1 (Some (Dom u v))) /\ SpecConic.swept u v m /\ polar (V 3 (7/3)) 1 m q /\ ~ in_box b q.
Proof.
  assert (F : Forall drawing tent) by (repeat constructor).
  assert (H1 : heading (V 0 0) (V 3 4) (V (3/5) (4/5))).
  { unfold heading. rewrite dist_5 by (cbn; lra). cbn. split; [intros E; injection E; lra|split; lra]. }
  assert (H2 : heading (V 3 4) (V 6 0) (V (3/5) (-4/5))).
  { unfold heading. rewrite dist_5 by (cbn; lra). cbn. split; [intros E; injection E; lra|split; lra]. }
  assert (R : rounded tent_path 1 1) by (eexists; eexists; split; reflexivity).
  assert (X : vx (V (3/5) (4/5)) * vy (V (3/5) (-4/5)) - vy (V (3/5) (4/5)) * vx (V (3/5) (-4/5)) <> 0) by (cbn; lra).
  destruct (rounded_corner (V 0 0) tent tent_path 1 1 (V 0 0) (V 3 4) (V 6 0) _ _ F tent_drawn R Rlt_0_1 eq_refl eq_refl eq_refl H1 H2 X)
    as (c & s & e & _ & S & E & K).
  apply tent_fillet in K. destruct K as (_ & -> & ->).
  destruct (corner_arc (V 0 0) tent tent_path 1 1 (V 0 0) (V 3 4) (V 6 0) _ _ F tent_drawn R Rlt_0_1 eq_refl eq_refl eq_refl H1 H2 X)
    as (c1 & s1 & e1 & u & v & G & K1 & T & _ & N).
  apply tent_fillet in K1. destruct K1 as (-> & -> & ->). cbn [vx vy] in N. destruct N as [N1 N2]; [lra|].
  pose proof (history_coherent _ _ _ F tent_drawn) as C.
  assert (PS : pstart tent_path 1 = Ok (V (11/5) (44/15))).
  { destruct (reads_start 1) as [_ Hr]. destruct (Hr _ C) as (p' & E' & _). rewrite E' in S. exact S. }
  assert (PE : pstop tent_path 1 = Ok (V (19/5) (44/15))).
  { destruct (reads_stop 1) as [_ Hr]. destruct (Hr _ C) as (p' & E' & _). rewrite E' in E. exact E. }
  assert (G0 : fst (geometry 0 tent_path) = Ok (GSegment (Seg (V 0 0) (V (11/5) (44/15))))).
  { rewrite (fst_geometry _ _ C). unfold pgeometry, ppoints. cbn [nth_error tent_path parts pcorner bind radius plain bare next_index closing Nat.add pradius].
    rewrite PS. reflexivity. }
  assert (G1 : fst (geometry 1 tent_path) = Ok (GSegment (Seg (V (19/5) (44/15)) (V 6 0)))).
  { rewrite (fst_geometry _ _ C). unfold pgeometry, ppoints. cbn [nth_error tent_path parts pcorner bind radius plain bare next_index closing Nat.add pradius].
    rewrite PE. reflexivity. }
  assert (Only : forall i g, (i < length (parts tent_path))%nat -> fst (geometry i tent_path) = Ok g ->
    (i = 0%nat /\ g = GSegment (Seg (V 0 0) (V (11/5) (44/15)))) \/ (i = 1%nat /\ g = GSegment (Seg (V (19/5) (44/15)) (V 6 0)))).
  { intros i g I Hg. cbn in I. destruct i as [|[|i]]; [left|right|lia]; split; congruence. }
  destruct (box_defined (V 0 0) tent tent_path F tent_drawn) as [[N _]|(_ & b & B)].
  { intros i I. cbn in I. destruct i as [|[|i]]; [eexists; exact G0|eexists; exact G1|lia]. }
  { discriminate. }
  assert (Cv : covers (Box (Itv 0 6) (Itv 0 (44/15))) b).
  { apply (box_least (V 0 0) tent tent_path F tent_drawn b B).
    - intros i g I Hg. destruct (Only i g I Hg) as [[_ -> ] | [_ -> ] ]; exact (fun x => x).
    - intros i g x I Hg. destruct (Only i g I Hg) as [[_ -> ] | [_ -> ] ]; cbn; intros [-> | ->]; unfold in_box; cbn; lra. }
  assert (Q : exists m, SpecConic.swept u v m /\ polar (V 3 (7/3)) 1 m (V 3 (10/3))).
  { destruct N1 as [N1x N1y], N2 as [N2x N2y]. cbn [vx vy] in *.
    assert (Mid : forall h, 0 < h < 90 -> forall m, cos (rad u) = cos (rad (m - h)) -> sin (rad u) = sin (rad (m - h)) ->
      cos (rad v) = cos (rad (m + h)) -> sin (rad v) = sin (rad (m + h)) -> polar (V 3 (7/3)) 1 m (V 3 (10/3))).
    { intros h Hh m A1 A2 A3 A4. rewrite rad_minus, cos_minus in A1. rewrite rad_minus, sin_minus in A2.
      rewrite rad_plus, cos_plus in A3. rewrite rad_plus, sin_plus in A4.
      assert (P : 0 < cos (rad h)). { apply cos_gt_0; unfold rad; pose proof PI_RGT_0; nra. }
      pose proof (sin2_cos2 (rad m)) as Q. unfold Rsqr in Q.
      assert (Z : cos (rad m) = 0) by nra.
      assert (W : sin (rad m) = 1) by (rewrite Z in *; nra).
      split; cbn [vx vy]; rewrite ?Z, ?W; lra. }
    destruct T as [T|T].
    - exists ((u + v) / 2). split; [left; split; [lra|]; exists 0%Z; lra|].
      apply (Mid ((v - u) / 2)); [lra| | | |]; repeat f_equal; lra.
    - exists ((u + v) / 2 + 180). split; [right; split; [lra|]; exists 0%Z; lra|].
      apply (Mid ((v - u) / 2 + 180)); [lra| | | |].
      1,2: repeat f_equal; lra.
      all: replace ((u + v) / 2 + 180 + ((v - u) / 2 + 180)) with (v + 360) by lra; rewrite rad_plus, rad_360, ?cos_plus, ?sin_plus, cos_2PI, sin_2PI; ring. }
  destruct Q as (m & Q1 & Q2). exists b, (V 3 (10/3)), u, v, m. repeat split; auto; try apply Q2.
  intros I. apply (covers_in _ _ _ Cv) in I. unfold in_box in I. cbn in I. lra.
Qed.

(** ** A turned ellipse *)
Definition bow : list event := map Command [ArcTo (V 200 0) 180 180 1 false true true].
Definition bow_path : path := Path (V 0 0) [PArc (V 200 0) 180 180 1 false true true] false.
Lemma bow_drawn : history (new_path (V 0 0)) bow = Ok bow_path.
Proof. reflexivity. Qed.
Lemma round_frame c r phi q : r <> 0 -> (vx q - vx c) ^ 2 + (vy q - vy c) ^ 2 = r ^ 2 -> on_ellipse c r r phi q.
Proof.
  intros N H. exists ((vx q - vx c) * cos (rad phi) + (vy q - vy c) * sin (rad phi)), (- (vx q - vx c) * sin (rad phi) + (vy q - vy c) * cos (rad phi)).
  pose proof (sin2_cos2 (rad phi)) as T. unfold Rsqr in T. split; [split|].
  - replace (vx q) with (vx c + (vx q - vx c) * (sin (rad phi) * sin (rad phi) + cos (rad phi) * cos (rad phi))) at 1 by (rewrite T; ring). ring.
  - replace (vy q) with (vy c + (vy q - vy c) * (sin (rad phi) * sin (rad phi) + cos (rad phi) * cos (rad phi))) at 1 by (rewrite T; ring). ring.
  - unfold Rdiv. rewrite !Rpow_mult_distr, <- Rmult_plus_distr_r.
    replace (((vx q - vx c) * cos (rad phi) + (vy q - vy c) * sin (rad phi)) ^ 2 + (- (vx q - vx c) * sin (rad phi) + (vy q - vy c) * cos (rad phi)) ^ 2)
      with (((vx q - vx c) ^ 2 + (vy q - vy c) ^ 2) * (sin (rad phi) * sin (rad phi) + cos (rad phi) * cos (rad phi))) by ring.
    rewrite T, H. field. exact N.
Qed.
Lemma polar_small r a : Rabs (vx (from_polar r a)) <= Rabs r.
Proof.
  rewrite from_polar_eq. cbn. rewrite Rabs_mult. pose proof (Rabs_pos r). assert (Rabs (cos (rad a)) <= 1).
  { apply Rabs_le. pose proof (COS_bound (rad a)). lra. } nra.
Qed.
Lemma bow_leaves : exists b g, fst (path_bounding_box bow_path) = Ok (Some b) /\ fst (geometry 0 bow_path) = Ok g /\
  on_piece g (V 0 0) /\ on_piece g (V 200 0) /\ ~ (in_box b (V 0 0) /\ in_box b (V 200 0)).
Proof.
  assert (F : Forall drawing bow) by (repeat constructor).
  pose proof (history_coherent _ _ _ F bow_drawn) as C.
  set (h := sqrt 22400).
  assert (Hh : h * h = 22400) by (apply sqrt_sqrt; lra).
  destruct (svg_arc_ok (V 0 0) (V 200 0) 180 180 1 false true) as (e & s & t & E & Rx & Ry & A & _ & _ & _ & P1 & P2).
  { lra. } { lra. } { intros K; injection K; lra. }
  { exists (V 100 h). split; apply round_frame; cbn [vx vy]; nra. }
  assert (G : fst (geometry 0 bow_path) = Ok (GArc (ArcEllipse e))).
  { rewrite (fst_geometry _ _ C). unfold pgeometry. cbn [nth_error bow_path parts start_point stop_point bind part_stop]. unfold start_point, stop_point. cbn. rewrite E. reflexivity. }
  destruct (ellipse_bounding_box e) as [b|] eqn:B.
  2: { unfold ellipse_bounding_box in B. destruct (Reqb (e_angle e) 0); discriminate B. }
  exists b, (GArc (ArcEllipse e)). split; [|split; [exact G|]].
  - rewrite (reads_path_box _ C). cbn [bow_path parts length seq pboxes]. rewrite <- (fst_geometry _ _ C), G. cbn [bind piece_box grow]. rewrite B. reflexivity.
  - assert (On : forall a q, ellipse_polar (e_center e) (e_rx e) (e_ry e) 1 a q -> on_piece (GArc (ArcEllipse e)) q).
    { intros a q K. cbn. rewrite A. eexists. eexists. split; [exact K|]. rewrite Rx, Ry. rewrite Rabs_right by lra.
      pose proof (sin2_cos2 (rad a)) as T. unfold Rsqr in T. replace (180 * cos (rad a) / 180) with (cos (rad a)) by field.
      replace (180 * sin (rad a) / 180) with (sin (rad a)) by field. nra. }
    split; [apply (On _ _ P1)|]. split; [apply (On _ _ P2)|].
    assert (W : sup (bx b) - inf (bx b) <= 182).
    { unfold ellipse_bounding_box in B. rewrite A in B. rewrite Reqb_false in B by lra.
      assert (Hx : forall r a, Rabs r <= 91 -> - 91 <= vx (from_polar r a) <= 91).
      { intros r a Hr. pose proof (polar_small r a) as K. revert K. unfold Rabs at 1. destruct (Rcase_abs (vx (from_polar r a))); lra. }
      set (x0 := vx (e_center e)) in *.
      destruct (bounding_box_ok (map (vadd (e_center e)) [from_polar 1 (e_rx e); from_polar 1 (- e_rx e); from_polar (1 + 90) (e_ry e); from_polar (1 + 90) (- e_ry e)]))
        as (b' & B' & M & L); [discriminate|].
      assert (b' = b) by congruence. subst b'.
      destruct (L (Box (Itv (x0 - 91) (x0 + 91)) (by_ b))) as (L1 & L2 & _); [|cbn in L1, L2; lra].
      intros q Q. split; [|apply (M q Q)]. cbn [bx inf sup]. cbn [map] in Q.
      assert (R1 : Rabs 1 <= 91) by (rewrite Rabs_right; lra). assert (R2 : Rabs (1 + 90) <= 91) by (rewrite Rabs_right; lra).
      destruct Q as [<- | [<- | [<- | [<- | []]]]]; cbn [vx vadd]; fold x0.
      - pose proof (Hx 1 (e_rx e) R1). lra.
      - pose proof (Hx 1 (- e_rx e) R1). lra.
      - pose proof (Hx (1 + 90) (e_ry e) R2). lra.
      - pose proof (Hx (1 + 90) (- e_ry e) R2). lra. }
    intros [I1 I2]. unfold in_box in I1, I2. cbn in I1, I2. lra.
Qed.
