From Coq Require Import Reals List ZArith Lra Lia Bool.
From Verif Require Import Base ModelVector ModelTransformation ModelLine ModelBezier ModelConic ModelPath ModelSpline.
From Verif Require Import SpecVector ProofVector ProofConic ProofConic3 ProofDxf2 ProofSvgTransform GluePath.
From Verif Require ModelScene SpecConic.
Import ModelScene(position, PVector, PName, PNumber, coordinates, cast_position).
From Verif Require Import ModelPainter ModelDrawing SpecPath SpecPainter SpecDrawing.
Import ListNotations.
Local Open Scope R_scope.

Lemma dc a : degrees_cos a = cos (rad a).
Proof. unfold degrees_cos, rad. f_equal; field. Qed.
Lemma ds a : degrees_sin a = sin (rad a).
Proof. unfold degrees_sin, rad. f_equal; field. Qed.

Lemma polar_of c r x : 0 < r -> dist c x = r -> exists a, 0 <= a < 360 /\ SpecConic.polar c r a x.
Proof.
  intros R0 D. assert (N : x <> c) by (intros ->; pose proof (dist_sq c c) as Q; rewrite D in Q; nra).
  destruct (angle_for_point_ok (Circ c r None) x N) as (a & _ & B & P). cbn [c_center] in P. rewrite D in P. exists a. auto.
Qed.
Lemma polar_item c r a x : SpecConic.polar c r a x <-> x = V (vx c + r * degrees_cos a) (vy c + r * degrees_sin a).
Proof.
  rewrite dc, ds. unfold SpecConic.polar. split; [intros [X Y]; apply vec_eq; cbn; assumption|intros ->; cbn; auto].
Qed.
Lemma all_turns x k : cos (rad (x + 360 * IZR k)) = cos (rad x) /\ sin (rad (x + 360 * IZR k)) = sin (rad x).
Proof.
  destruct (ProofArc.trig_turns x (- k)) as [A B]. rewrite opp_IZR in A, B.
  replace (x - 360 * - IZR k) with (x + 360 * IZR k) in A, B by ring. auto.
Qed.
Lemma polar_turns c r a k x : SpecConic.polar c r (a + 360 * IZR k) x <-> SpecConic.polar c r a x.
Proof. unfold SpecConic.polar. destruct (all_turns a k) as [-> ->]. reflexivity. Qed.

Lemma item_of_circle c r s e x : 0 < r ->
  (exists a, swept s e a /\ SpecConic.polar c r a x) <-> on_circular_arc c r s e x.
Proof.
  intros R0. unfold on_circular_arc, swept. destruct (Rle_dec 360 (Rabs (e - s))) as [F|F].
  - split; [intros (a & _ & P); apply (polar_on_circle c r a x); [lra|exact P]|].
    intros D. destruct (polar_of c r x R0 D) as (a & _ & P). exists a. auto.
  - assert (F' : - 360 < e - s < 360) by (destruct (Rabs_def2 (e - s) 360); [lra|lra]).
    split.
    + intros (a & [H|[H|[L H]]] & P); [contradiction| |].
      * exists (e - s), a. repeat split; try lra; [exists 0%Z; lra|apply P|apply P].
      * exists (e - s + 360), a. repeat split; try lra; [exists (-1)%Z; lra|apply P|apply P].
    + intros (w & a & W & (k & K) & A & P). exists a. split; [|exact P]. right.
      assert (k = 0 \/ k = -1)%Z as [-> | ->].
      { assert (-2 < k < 1)%Z; [|lia]. split; apply lt_IZR; lra. }
      * left. lra.
      * right. lra.
Qed.

Lemma ratio u w : 0 <= u <= w -> w <> 0 -> 0 <= u / w <= 1.
Proof.
  intros U W. assert (W0 : 0 < w) by lra. pose proof (Rinv_0_lt_compat w W0) as I. unfold Rdiv. split; [nra|].
  replace 1 with (w * / w) by (field; exact W). nra.
Qed.
Lemma between_segment a b x : between a b x <-> exists t, 0 <= t <= 1 /\ x = (1 - t) * a + t * b.
Proof.
  unfold between. split.
  - intros H. destruct (Req_dec a b) as [->|N]; [exists 0; lra|].
    exists ((x - a) / (b - a)). assert (b - a <> 0) by lra. split; [|field; assumption].
    destruct H as [H|H].
    + apply ratio; lra.
    + replace ((x - a) / (b - a)) with ((a - x) / (a - b)) by (field; lra). apply ratio; lra.
  - intros (t & T & ->). destruct (Rle_lt_dec a b); [left|right]; nra.
Qed.
Lemma vertical x a b v : on_segment (V x a) (V x b) v <-> vx v = x /\ between a b (vy v).
Proof.
  unfold on_segment. cbn [vx vy]. split.
  - intros (t & T & ->). cbn. split; [ring|]. apply between_segment. exists t. auto.
  - intros [E B]. apply between_segment in B. destruct B as (t & T & E2). exists t. split; [exact T|]. apply vec_eq; cbn; [rewrite E; ring|exact E2].
Qed.
Lemma horizontal y a b v : on_segment (V a y) (V b y) v <-> vy v = y /\ between a b (vx v).
Proof.
  unfold on_segment. cbn [vx vy]. split.
  - intros (t & T & ->). cbn. split; [ring|]. apply between_segment. exists t. auto.
  - intros [E B]. apply between_segment in B. destruct B as (t & T & E2). exists t. split; [exact T|]. apply vec_eq; cbn; [exact E2|rewrite E; ring].
Qed.
Lemma between_sym a b x : between a b x -> between b a x. Proof. unfold between. tauto. Qed.

Lemma chain2 (a : vec) b l x : on_chain (a :: b :: l) x <-> on_segment a b x \/ on_chain (b :: l) x.
Proof.
  unfold on_chain. split.
  - intros ([|i] & p & q & H1 & H2 & H); [cbn in H1, H2; injection H1 as <-; injection H2 as <-; auto|].
    right. exists i, p, q. auto.
  - intros [H|(i & p & q & H1 & H2 & H)]; [exists 0%nat, a, b; auto|exists (S i), p, q; auto].
Qed.
Lemma chain1 (a : vec) x : ~ on_chain [a] x.
Proof. intros (i & p & q & _ & H & _). destruct i; discriminate. Qed.
Lemma chain0 x : ~ on_chain [] x.
Proof. intros (i & p & q & H & _). destruct i; discriminate. Qed.
Lemma chain_app l (a b : vec) x : on_chain (l ++ [a; b]) x <-> on_chain (l ++ [a]) x \/ on_segment a b x.
Proof.
  induction l as [|c l IH]; cbn [app].
  - rewrite chain2. pose proof (chain1 a x). pose proof (chain1 b x). tauto.
  - destruct l as [|d l]; cbn [app] in *; rewrite !chain2; [|rewrite IH; tauto].
    pose proof (chain1 a x). pose proof (chain1 b x). tauto.
Qed.
Lemma loop_chain l x : on_loop l x <-> on_chain (l ++ firstn 1 l) x.
Proof.
  unfold on_loop. destruct l as [|a l]; [cbn; split; [intros [H|(p & H & _)]; [exact H|discriminate]|auto]|].
  change (firstn 1 (a :: l)) with [a].
  assert (N : a :: l <> []) by discriminate. destruct (exists_last N) as (m & z & E). rewrite E.
  rewrite <- app_assoc. cbn [app]. rewrite chain_app.
  assert (H0 : nth_error (m ++ [z]) 0 = Some a) by (rewrite <- E; reflexivity). rewrite H0.
  split; intros [H|H]; auto.
  - destruct H as (p & [= <-] & H). rewrite last_last in H. auto.
  - right. exists a. rewrite last_last. auto.
Qed.
Lemma rectangle_border p q x : on_loop [p; V (vx q) (vy p); q; V (vx p) (vy q)] x <-> on_border p q x.
Proof.
  rewrite loop_chain. destruct p as [a b], q as [c d]. cbn [firstn app vx vy]. rewrite !chain2.
  rewrite !horizontal, !vertical. pose proof (chain1 (V a b) x). unfold on_border. cbn [vx vy].
  pose proof (between_sym b d (vy x)). pose proof (between_sym d b (vy x)). pose proof (between_sym a c (vx x)). pose proof (between_sym c a (vx x)).
  tauto.
Qed.

Lemma cast_vector c v : cast_position identity c (PVector v) = Ok v.
Proof. cbn. rewrite identity_apply. reflexivity. Qed.
Lemma cast_vectors c l : traverse (cast_position identity c) (map PVector l) = Ok l.
Proof. induction l as [|a l IH]; [reflexivity|]. cbn [map traverse]. rewrite cast_vector. cbn [bind]. rewrite IH. reflexivity. Qed.
Lemma ex_ok {A} (a : A) (P : A -> Prop) : (exists v, Ok a = Ok v /\ P v) <-> P a.
Proof. split; [intros (v & E & H); injection E as <-; exact H|eauto]. Qed.

(** ** The item covers the primitive *)
Lemma geometry_covers t c sh g x : get_geometry t c sh = Ok g ->
  match sh with
  | SText _ _ | SPath _ _ _ | SImage _ _ => False
  | SCircle _ r _ _ => 0 < r
  | SEllipse _ rx ry _ s e => 0 < rx /\ 0 < ry /\ 360 <= Rabs (e - s)
  | _ => True
  end -> covers (cast_position t c) sh x <-> points_of g x.
Proof.
  intros E H. destruct sh; try contradiction; cbn [get_geometry] in E; unfold covers.
  - destruct (cast_position t c p) as [v|]; [|discriminate]. cbn [bind] in E. injection E as <-. cbn [points_of c_domain c_center c_radius d_start d_stop].
    rewrite <- item_of_circle by exact H. setoid_rewrite polar_item.
    split; [intros (w & a & [= <-] & K); eauto|intros (a & K); exists v, a; tauto].
  - destruct (cast_position t c p) as [v|]; [|discriminate]. cbn [bind] in E. injection E as <-. cbn [points_of e_center e_rx e_ry e_angle].
    destruct H as (H1 & H2 & H3). split.
    + intros (w & a & [= <-] & _ & ->). apply (ellipse_polar_on v _ _ _ a); [lra|lra|]. unfold SpecConic.ellipse_polar, SpecConic.frame. rewrite <- !dc, <- !ds. cbn. auto.
    + intros K. apply on_ellipse_polar in K; [|lra|lra]. destruct K as (a & _ & K). exists v, a. split; [reflexivity|]. split; [left; exact H3|].
      destruct K as [K1 K2]. rewrite <- !dc, <- !ds in *. apply vec_eq; cbn; assumption.
  - destruct (cast_position t c p) as [v|]; [|discriminate]. destruct (cast_position t c q) as [w|]; [|discriminate]. cbn [bind] in E. injection E as <-.
    cbn. split; [intros (v' & w' & [= <-] & [= <-] & K); exact K|intros K; exists v, w; auto].
  - destruct (cast_position t c p) as [v|]; [|discriminate]. destruct (cast_position t c q) as [w|]; [|discriminate]. cbn [bind] in E. injection E as <-.
    cbn [points_of]. rewrite <- rectangle_border. split; [intros (v' & w' & [= <-] & [= <-] & K); exact K|intros K; exists v, w; auto].
  - destruct (traverse (cast_position t c) l) as [m|]; [|discriminate]. cbn [bind] in E. destruct (Nat.ltb _ _); [discriminate|]. injection E as <-.
    cbn [points_of]. split; [intros (m' & [= <-] & K); exact K|intros K; exists m; auto].
  - destruct (traverse (cast_position t c) l) as [m|]; [|discriminate]. cbn [bind] in E. destruct (Nat.ltb _ _); [discriminate|]. injection E as <-.
    cbn [points_of]. fold (on_chain (m ++ firstn 1 m) x). rewrite <- loop_chain. split; [intros (m' & [= <-] & K); exact K|intros K; exists m; auto].
  - destruct (cast_position t c p) as [v|]; [|discriminate]. destruct (cast_position t c q) as [w|]; [|discriminate].
    cbn [bind] in E. destruct (cast_position t c r) as [y|]; [|discriminate]. cbn [bind] in E. destruct (cast_position t c s) as [z|]; [|discriminate]. cbn [bind] in E. injection E as <-.
    cbn [points_of c0 c1 c2 c3p]. split; [intros (a1 & a2 & a3 & a4 & [= <-] & [= <-] & [= <-] & [= <-] & K); exact K|intros K; exists v, w, y, z; auto 6].
  - destruct (cast_position t c p) as [v|]; [|discriminate]. destruct (cast_position t c q) as [w|]; [|discriminate].
    cbn [bind] in E. destruct (cast_position t c r) as [y|]; [|discriminate]. cbn [bind] in E. injection E as <-.
    cbn [points_of q0 q1 q2]. split; [intros (a1 & a2 & a3 & [= <-] & [= <-] & [= <-] & K); exact K|intros K; exists v, w, y; auto 6].
Qed.

Lemma plain_item g c : plain_primitive g -> exists sh g', add_geometry g = ([sh], None) /\
  get_geometry identity c sh = Ok g' /\ (forall x, points_of g' x <-> points_of g x) /\
  match sh with
  | SText _ _ | SPath _ _ _ | SImage _ _ => False
  | SCircle _ r _ _ => 0 < r
  | SEllipse _ rx ry _ s e => 0 < rx /\ 0 < ry /\ 360 <= Rabs (e - s)
  | _ => True
  end /\
  match g with
  | Circle k => g' = Circle (Circ (c_center k) (c_radius k) (Some (match c_domain k with Some d => d | None => Dom 0 360 end)))
  | Triangle p q r => g' = Polygon [p; q; r]
  | _ => g' = g
  end.
Proof.
  assert (F : 360 <= Rabs (360 - 0)) by (rewrite Rabs_pos_eq; lra).
  destruct g as [k|k|k|k|k|k|l|l|p q|k|k|p q r|]; intros H; try contradiction; cbn [add_geometry one]; unfold one.
  - exists (SQuadratic (PVector (q0 k)) (PVector (q1 k)) (PVector (q2 k))), (Quadratic k). cbn [get_geometry]. rewrite !cast_vector. cbn [bind].
    destruct k; repeat split; auto.
  - exists (SCubic (PVector (c0 k)) (PVector (c1 k)) (PVector (c2 k)) (PVector (c3p k))), (Cubic k). cbn [get_geometry]. rewrite !cast_vector. cbn [bind].
    destruct k; repeat split; auto.
  - destruct k as [o r [[s e]|]]; cbn [c_domain c_center c_radius d_start d_stop] in *; eexists; eexists; (split; [reflexivity|]); cbn [get_geometry]; rewrite !cast_vector; cbn [bind];
      (split; [reflexivity|]); (split; [|split; [exact H|reflexivity]]).
    + intros x. reflexivity.
    + intros x. cbn [points_of c_domain c_center c_radius d_start d_stop]. unfold on_circular_arc. destruct (Rle_dec 360 (Rabs (360 - 0))); [reflexivity|contradiction].
  - destruct H as (H1 & H2 & H3). exists (SEllipse (PVector (e_center k)) (e_rx k) (e_ry k) (e_angle k) 0 360), (Ellipse k). cbn [get_geometry]. rewrite !cast_vector. cbn [bind].
    destruct k; cbn in H3; subst; repeat split; auto.
  - eexists; eexists; (split; [reflexivity|]); cbn [get_geometry]; rewrite !cast_vectors; cbn [bind].
    rewrite (proj2 (Nat.ltb_ge _ _)) by exact H. repeat split; auto.
  - eexists; eexists; (split; [reflexivity|]); cbn [get_geometry]; rewrite !cast_vectors; cbn [bind].
    rewrite (proj2 (Nat.ltb_ge _ _)) by exact H. repeat split; auto.
  - eexists; eexists; (split; [reflexivity|]); cbn [get_geometry]; rewrite !cast_vector; cbn [bind]. repeat split; auto.
  - exists (SSegment (PVector (s_p0 k)) (PVector (s_p1 k))), (Segment k). cbn [get_geometry]. rewrite !cast_vector. cbn [bind]. destruct k; repeat split; auto.
  - eexists; eexists; (split; [reflexivity|]). unfold get_geometry. rewrite !cast_vectors. cbn [bind length]. 
    split; [reflexivity|]. split; [|auto]. intros x. cbn [points_of firstn app]. fold (on_chain [p; q; r; p] x). rewrite !chain2. pose proof (chain1 p x). tauto.
Qed.
Lemma plain_covers g c : plain_primitive g -> exists sh, add_geometry g = ([sh], None) /\
  forall x, covers (cast_position identity c) sh x <-> points_of g x.
Proof.
  intros H. destruct (plain_item g c H) as (sh & g' & E & G & P & K & _). exists sh. split; [exact E|].
  intros x. rewrite <- P. apply geometry_covers; assumption.
Qed.
