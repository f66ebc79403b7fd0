(** Proofs about the viewport. *)
From Coq Require Import Reals List ZArith Bool Lra Lia.
From Verif Require Import Base ModelVector ModelLine.
From Verif Require Import ModelViewport SpecViewport.
Import ListNotations.
Local Open Scope R_scope.

Lemma Reqb_true a b : Reqb a b = true -> a = b.
Proof. unfold Reqb. destruct (Req_EM_T a b); auto; discriminate. Qed.
Lemma Reqb_false a b : Reqb a b = false -> a <> b.
Proof. unfold Reqb. destruct (Req_EM_T a b); auto; discriminate. Qed.
Lemma Reqb_neq a b : a <> b -> Reqb a b = false.
Proof. unfold Reqb. destruct (Req_EM_T a b); auto; contradiction. Qed.

Definition translation_for (s c : vec) (k : R) : vec :=
  V (- (vx c - vx s / 2 * (1 / k))) (- (vy c + vy s / 2 * (1 / k))).
Definition area_for (s c : vec) (k : R) : box :=
  Box (Itv (vx c - vx s / 2 * (1 / k)) (vx c + vx s / 2 * (1 / k)))
      (Itv (vy c - vy s / 2 * (1 / k)) (vy c + vy s / 2 * (1 / k))).

(** The invariant. *)
Record ok (v : viewport) : Prop := {
  ok_scale : 0 < v_scale v;
  ok_size : forall s, v_size v = Some s -> 0 < vx s /\ 0 < vy s;
  ok_box : forall s b, v_scene v = Some s -> sc_box s = Some b -> inf (bx b) <= sup (bx b) /\ inf (by_ b) <= sup (by_ b);
  ok_shown : v_translation v <> None -> exists s c, v_size v = Some s /\ v_center v = Some c /\
    v_translation v = Some (translation_for s c (v_scale v)) /\ v_area v = Some (area_for s c (v_scale v));
  ok_area : v_area v <> None -> v_translation v <> None }.

(** The same without what depends on the translation. *)
Record pre (v : viewport) : Prop := {
  pre_scale : 0 < v_scale v;
  pre_size : forall s, v_size v = Some s -> 0 < vx s /\ 0 < vy s;
  pre_box : forall s b, v_scene v = Some s -> sc_box s = Some b -> inf (bx b) <= sup (bx b) /\ inf (by_ b) <= sup (by_ b);
  pre_shown : v_translation v <> None -> (exists s, v_size v = Some s) /\ (exists c, v_center v = Some c);
  pre_area : v_area v <> None -> v_translation v <> None }.

Lemma update_ok v : pre v -> ok (fst (update_viewport_area v)) /\
  (forall s c, v_size v = Some s -> v_center v = Some c ->
     snd (update_viewport_area v) = Ok tt /\
     fst (update_viewport_area v) = Viewport (v_scene v) (Some s) (v_scale v) (Some c)
       (Some (area_for s c (v_scale v))) (Some (translation_for s c (v_scale v)))).
Proof.
  intros [Hk Hs Hb Ht Ha]. unfold update_viewport_area.
  destruct (v_size v) as [s|] eqn:Es.
  2:{ split; [|congruence]. constructor; auto; simpl; try congruence.
      intros T. destruct (Ht T) as [[s ?] _]. congruence. }
  rewrite Reqb_neq by lra. destruct (v_center v) as [c|] eqn:Ec.
  2:{ split; [|congruence]. constructor; simpl; try rewrite Es; auto.
      intros T. destruct (Ht T) as [_ [c ?]]. congruence. }
  split.
  - constructor; cbn [v_scale v_size v_scene v_translation v_center v_area fst]; auto.
    + intros _. exists s, c. repeat split; auto.
    + discriminate.
  - intros s' c' [= <-] [= <-]. split; [reflexivity|]. cbn [fst]. reflexivity.
Qed.

Lemma ok_pre v : ok v -> pre v.
Proof.
  intros [H1 H2 H3 H4 H5]. constructor; auto. intros T. destruct (H4 T) as (s&c&?&?&_). split; eauto.
Qed.

Lemma zoom_ok c k v : ok v -> 0 < k -> ok (fst (zoom_at c k v)).
Proof.
  intros O K. apply ok_pre in O as [H1 H2 H3 H4 H5]. unfold zoom_at. apply update_ok.
  constructor; simpl; auto. intros T. destruct (H4 T) as [[s ?] _]. split; eauto.
Qed.

Lemma axis_scale_pos w s r : 0 < w -> 0 <= s -> axis_scale w s = Ok r ->
  (r = None /\ s = 0) \/ (exists k, r = Some k /\ 0 < k /\ k * (s * (1 + 2 / 100)) = w /\ 0 < s).
Proof.
  intros W S. unfold axis_scale. destruct (Reqb (s * (1 + 2 / 100)) 0) eqn:E.
  - apply Reqb_true in E. destruct (Rltb 0 w); [|discriminate]. intros [= <-]. left. split; auto. lra.
  - apply Reqb_false in E. intros [= <-]. right. assert (0 < s) by lra.
    exists (w / (s * (1 + 2 / 100))). repeat split; auto.
    + apply Rdiv_lt_0_compat; lra.
    + field. lra.
Qed.

Lemma fit_scale_spec s b k : 0 < vx s -> 0 < vy s -> inf (bx b) <= sup (bx b) -> inf (by_ b) <= sup (by_ b) ->
  compute_scale_to_fit_scene (Some s) b = Ok k ->
  0 < k /\ k * ((sup (bx b) - inf (bx b)) * (1 + 2 / 100)) <= vx s /\
  k * ((sup (by_ b) - inf (by_ b)) * (1 + 2 / 100)) <= vy s /\
  (k * ((sup (bx b) - inf (bx b)) * (1 + 2 / 100)) = vx s \/ k * ((sup (by_ b) - inf (by_ b)) * (1 + 2 / 100)) = vy s).
Proof.
  intros Wx Wy Bx By. unfold compute_scale_to_fit_scene, bind, box_size. cbn [vx vy].
  destruct (axis_scale (vx s) _) as [x|] eqn:Ex; [|discriminate].
  destruct (axis_scale (vy s) _) as [y|] eqn:Ey; [|discriminate].
  apply axis_scale_pos in Ex; [|auto|lra]. apply axis_scale_pos in Ey; [|auto|lra].
  set (u := sup (bx b) - inf (bx b)) in *. set (w := sup (by_ b) - inf (by_ b)) in *.
  destruct Ex as [[-> Ux]|(kx&->&Px&Qx&Ux)], Ey as [[-> Uy]|(ky&->&Py&Qy&Uy)]; simpl.
  - discriminate.
  - destruct (Reqb ky 0); [discriminate|]. intros [= <-]. rewrite Ux. repeat split; auto; try lra. 
  - destruct (Reqb kx 0); [discriminate|]. intros [= <-]. rewrite Uy. repeat split; auto; try lra.
  - unfold Rltb. destruct (Rlt_dec ky kx).
    + destruct (Reqb ky 0); [discriminate|]. intros [= <-]. repeat split; auto; try lra. rewrite <- Qx.
      apply Rmult_le_compat_r; lra.
    + destruct (Reqb kx 0); [discriminate|]. intros [= <-]. repeat split; auto; try lra. rewrite <- Qy.
      apply Rmult_le_compat_r; lra.
Qed.

Lemma fit_ok v : ok v -> ok (fst (fit_scene v)).
Proof.
  intros O. unfold fit_scene. destruct (v_scene v) as [s|] eqn:Es; auto.
  destruct (sc_box s) as [b|] eqn:Eb; auto.
  destruct (compute_scale_to_fit_scene (v_size v) b) as [k|] eqn:Ek; auto.
  apply zoom_ok; auto. destruct (v_size v) as [z|] eqn:Ez; [|discriminate].
  destruct (ok_size v O z Ez), (ok_box v O s b Es Eb). eapply fit_scale_spec; eauto.
Qed.

Lemma if_scene_ok v k : ok v -> ok (fst k) -> ok (fst (if_scene v k)).
Proof. intros. unfold if_scene. destruct (v_scene v) as [s|]; auto. destruct (sc_empty s); auto. Qed.

Lemma set_scene_ok s v : ok v -> (forall b, sc_box s = Some b -> inf (bx b) <= sup (bx b) /\ inf (by_ b) <= sup (by_ b)) ->
  ok (fst (set_scene s v)).
Proof. intros [H1 H2 H3 H4 H5] S. constructor; simpl; auto. intros t b [= <-]. auto. Qed.

Lemma set_scene_fst s v : ModelViewport.set_scene s v = (fst (set_scene s v), Ok tt).
Proof. reflexivity. Qed.

Lemma update_scene v : v_scene (fst (update_viewport_area v)) = v_scene v.
Proof.
  unfold update_viewport_area. destruct (v_size v); auto. destruct (Reqb (v_scale v) 0); auto. now destruct (v_center v).
Qed.
Lemma fit_scene_scene v : v_scene (fst (fit_scene v)) = v_scene v.
Proof.
  unfold fit_scene. destruct (v_scene v) as [s|] eqn:E; auto. destruct (sc_box s); auto.
  destruct (compute_scale_to_fit_scene (v_size v) b); auto. unfold zoom_at. now rewrite update_scene.
Qed.

Lemma step_scene v e : (v_scene v = None -> v_translation v = None) -> sane v e ->
  v_scene (step v e) = None -> v_translation (step v e) = None.
Proof.
  intros T S. destruct (v_scene v) as [s0|] eqn:E.
  - intros N. exfalso. revert N. destruct e as [w h|s|s|c k|k|q k| |d]; unfold step;
    unfold item_zoom_at_center, item_zoom_at, item_fit_scene, item_pan, if_scene, set_viewport_size; cbn [v_scene]; rewrite ?E.
    + rewrite update_scene. simpl. congruence.
    + intros N; discriminate N.
    + unfold item_set_scene. rewrite set_scene_fst, fit_scene_scene. discriminate.
    + unfold zoom_at. rewrite update_scene. simpl. congruence.
    + destruct (sc_empty s0); [cbn; congruence|]. destruct (v_center v); unfold zoom_at; rewrite update_scene; simpl; congruence.
    + destruct (sc_empty s0); [cbn; congruence|].
      destruct (viewport_to_scene v q); [unfold zoom_at; rewrite update_scene|]; simpl; congruence.
    + destruct (sc_empty s0); [cbn; congruence|]. rewrite fit_scene_scene. congruence.
    + destruct (sc_empty s0); [cbn; congruence|]. destruct (pan_delta_to_scene v d); [|simpl; congruence].
      destruct (v_center v); [unfold zoom_at; rewrite update_scene|]; simpl; congruence.
  - specialize (T eq_refl). destruct e as [w h|s|s|c k|k|q k| |d]; unfold step;
    unfold item_zoom_at_center, item_zoom_at, item_fit_scene, item_pan, if_scene, set_viewport_size; cbn [v_scene]; rewrite ?E; auto.
    + unfold item_set_scene. rewrite set_scene_fst, fit_scene_scene. discriminate.
    + cbn in S. tauto.
Qed.

Lemma step_ok v e : ok v -> (v_scene v = None -> v_translation v = None) -> sane v e ->
  ok (step v e) /\ (v_scene (step v e) = None -> v_translation (step v e) = None).
Proof.
  intros O T S. split; [|now apply step_scene]. destruct e as [w h|s|s|c k|k|q k| |d]; unfold step; cbn in S.
  - unfold set_viewport_size. cbn [v_scene].
    assert (P : pre (Viewport (v_scene v) (Some (V w h)) (v_scale v) (v_center v) (v_area v) (v_translation v))).
    { apply ok_pre in O as [H1 H2 H3 H4 H5]. constructor; simpl; auto.
      - intros s [= <-]. simpl. lra.
      - intros N. destruct (H4 N) as [_ ?]. split; eauto. }
    destruct (v_scene v) as [s|] eqn:Es.
    + rewrite <- Es in *. now apply update_ok.
    + cbn [fst]. destruct P as [P1 P2 P3 P4 P5]. constructor; auto.
      simpl. intros N. exfalso. apply N. eauto.
  - now apply set_scene_ok.
  - unfold item_set_scene. rewrite set_scene_fst. apply fit_ok. now apply set_scene_ok.
  - apply zoom_ok; tauto.
  - unfold item_zoom_at_center. apply if_scene_ok; auto. destruct (v_center v) as [c|] eqn:Ec; [apply zoom_ok; auto|].
    apply update_ok. apply ok_pre in O as [H1 H2 H3 H4 H5]. constructor; simpl; auto.
    intros N. destruct (H4 N) as [? [c ?]]. congruence.
  - unfold item_zoom_at. apply if_scene_ok; auto. destruct (viewport_to_scene v q); auto. apply zoom_ok; auto.
  - unfold item_fit_scene. apply if_scene_ok; auto. now apply fit_ok.
  - unfold item_pan. apply if_scene_ok; auto. destruct (pan_delta_to_scene v d); auto.
    destruct (v_center v); auto. apply zoom_ok; auto. apply (ok_scale v O).
Qed.

Lemma sane_ok l : forall v, ok v -> (v_scene v = None -> v_translation v = None) -> sane_from v l ->
  ok (fold_left step l v).
Proof.
  induction l as [|e l IH]; simpl; auto. intros v O T [S Ss].
  destruct (step_ok v e O T S). apply IH; auto.
Qed.

Lemma new_ok : ok new_viewport.
Proof. constructor; simpl; try discriminate; try tauto; try lra. Qed.

Lemma history_ok l : sane_from new_viewport l -> ok (history l).
Proof. intros S. apply sane_ok; auto. apply new_ok. Qed.

(** ** Coordinates *)

Lemma shown_translation v w h k c : ok v -> shown v w h k c ->
  0 < w /\ 0 < h /\ 0 < k /\ v_translation v = Some (translation_for (V w h) c k) /\ v_area v = Some (area_for (V w h) c k).
Proof.
  intros O (Hs&Hk&Hc&Ht). destruct (ok_shown v O Ht) as (s&c'&Es&Ec&Et&Ea).
  rewrite Hs in Es. injection Es as <-. rewrite Hc in Ec. injection Ec as <-.
  destruct (ok_size v O _ Hs). pose proof (ok_scale v O). simpl in *. subst k. auto 10.
Qed.

Lemma to_viewport v w h k c p : ok v -> shown v w h k c ->
  scene_to_viewport v p = Ok (V (w / 2 + k * (vx p - vx c)) (h / 2 - k * (vy p - vy c))).
Proof.
  intros O H. destruct (shown_translation v w h k c O H) as (W&Hh&K&T&_). destruct H as (_&Hk&_).
  unfold scene_to_viewport. rewrite T, Hk. f_equal. unfold vscale, vadd, translation_for; cbn [vx vy].
  f_equal; field; lra.
Qed.

Lemma to_scene v w h k c q : ok v -> shown v w h k c ->
  viewport_to_scene v q = Ok (V (vx c + (vx q - w / 2) / k) (vy c - (vy q - h / 2) / k)).
Proof.
  intros O H. destruct (shown_translation v w h k c O H) as (W&Hh&K&T&_). destruct H as (_&Hk&_).
  unfold viewport_to_scene. rewrite T, Hk, Reqb_neq by lra. f_equal. unfold vsub, translation_for; cbn [vx vy].
  f_equal; field; lra.
Qed.

Theorem inverse : forall l p q, sane_from new_viewport l ->
  (scene_to_viewport (history l) p = Ok q <-> viewport_to_scene (history l) q = Ok p).
Proof.
  intros l p q S. pose proof (history_ok l S) as O. set (v := history l) in *.
  destruct (v_translation v) as [t|] eqn:T.
  - destruct (ok_shown v O) as (s&c&Es&Ec&_); [congruence|]. destruct s as [w h].
    assert (H : shown v w h (v_scale v) c) by (repeat split; auto; congruence).
    pose proof (ok_scale v O) as K.
    rewrite (to_viewport v w h (v_scale v) c p O H), (to_scene v w h (v_scale v) c q O H).
    destruct p as [p1 p2], q as [q1 q2]; cbn [vx vy]. split; intros [= E1 E2]; f_equal; f_equal; subst; field; lra.
  - unfold scene_to_viewport, viewport_to_scene. rewrite T. split; [discriminate|].
    destruct (Reqb (v_scale v) 0); discriminate.
Qed.

Theorem defined : forall l, sane_from new_viewport l -> v_translation (history l) <> None ->
  exists w h k c, shown (history l) w h k c /\ 0 < w /\ 0 < h /\ 0 < k.
Proof.
  intros l S T. pose proof (history_ok l S) as O. destruct (ok_shown _ O T) as ([w h]&c&Es&Ec&_).
  exists w, h, (v_scale (history l)), c. destruct (ok_size _ O _ Es). pose proof (ok_scale _ O). repeat split; auto.
Qed.

Theorem similar : forall l w h k c p p' q q', sane_from new_viewport l -> shown (history l) w h k c ->
  scene_to_viewport (history l) p = Ok q -> scene_to_viewport (history l) p' = Ok q' ->
  distance q q' = length_scene_to_viewport (history l) (distance p p') /\
  vx q' - vx q = k * (vx p' - vx p) /\ vy q' - vy q = - k * (vy p' - vy p).
Proof.
  intros l w h k c p p' q q' S H. pose proof (history_ok l S) as O.
  destruct (shown_translation _ w h k c O H) as (_&_&K&_).
  rewrite !(to_viewport _ w h k c) by auto. intros [= <-] [= <-]. cbn [vx vy]. split; [|split; ring].
  unfold distance, length_scene_to_viewport. cbn [vx vy]. destruct H as (_&->&_).
  replace (_ ^ 2 + _ ^ 2) with (k * k * ((vx p' - vx p) ^ 2 + (vy p' - vy p) ^ 2)) by ring.
  rewrite sqrt_mult_alt by nra. rewrite sqrt_square by lra. ring.
Qed.

Theorem lengths : forall l x, sane_from new_viewport l -> forall y,
  length_viewport_to_scene (history l) y = Ok x <-> length_scene_to_viewport (history l) x = y.
Proof.
  intros l x S y. pose proof (ok_scale _ (history_ok l S)). unfold length_viewport_to_scene, length_scene_to_viewport, fdiv.
  rewrite Reqb_neq by lra. split; [intros [= <-] | intros <-; f_equal]; field; lra.
Qed.

(** ** What is shown *)

Theorem window : forall l w h k c, sane_from new_viewport l -> shown (history l) w h k c ->
  scene_to_viewport (history l) c = Ok (V (w / 2) (h / 2)) /\
  exists b, v_area (history l) = Some b /\ forall p q, scene_to_viewport (history l) p = Ok q ->
    (in_box b p <-> in_window w h q) /\ (in_window w h q <-> visible w h k c p).
Proof.
  intros l w h k c S H. pose proof (history_ok l S) as O.
  destruct (shown_translation _ w h k c O H) as (W&Hh&K&T&A).
  split. { rewrite (to_viewport _ w h k c) by auto. f_equal. f_equal; ring. }
  eexists. split; [exact A|]. intros p q. rewrite (to_viewport _ w h k c) by auto. intros [= <-].
  unfold in_box, in_window, visible, area_for. cbn [bx by_ inf sup vx vy].
  assert (D : forall x, x / 2 * (1 / k) * k = x / 2) by (intros; field; lra).
  set (wx := w / 2 * (1 / k)) in *. set (hy := h / 2 * (1 / k)) in *.
  pose proof (D w) as Dw. pose proof (D h) as Dh. fold wx in Dw. fold hy in Dh.
  set (x := vx p - vx c). set (y := vy p - vy c).
  assert (X : vx p = vx c + x) by (unfold x; ring). assert (Y : vy p = vy c + y) by (unfold y; ring). rewrite X, Y.
  assert (LX : forall a b, a <= b <-> k * a <= k * b).
  { intros a b. split; intros Q; [apply Rmult_le_compat_l; lra | apply Rmult_le_reg_l with k; lra]. }
  split.
  - rewrite (LX (vx c - wx)), (LX (vx c + x)), (LX (vy c - hy)), (LX (vy c + y)). lra.
  - assert (AB : forall z m, Rabs z * k <= m <-> - m <= k * z <= m).
    { intros z m. rewrite <- (Rabs_pos_eq k) at 1 by lra. rewrite <- Rabs_mult.
      replace (z * k) with (k * z) by ring. split.
      - intros Q. pose proof (Rle_abs (k * z)). pose proof (Rle_abs (- (k * z))). rewrite Rabs_Ropp in *. lra.
      - intros Q. apply Rabs_le. lra. }
    rewrite !AB. lra.
Qed.

Theorem resize : forall l w h k c w' h', sane_from new_viewport l -> shown (history l) w h k c -> 0 < w' -> 0 < h' ->
  shown (step (history l) (Resize w' h')) w' h' k c.
Proof.
  intros l w h k c w' h' S H W Hh. pose proof (history_ok l S) as O.
  assert (T : v_scene (history l) <> None).
  { intros N. destruct H as (_&_&_&Ht). apply Ht. revert N. clear - S. unfold history.
    assert (G : forall l v, (v_scene v = None -> v_translation v = None) -> sane_from v l ->
      v_scene (fold_left step l v) = None -> v_translation (fold_left step l v) = None).
    { clear. induction l as [|e l IH]; simpl; auto. intros v T [S1 Ss]. apply IH; auto. now apply step_scene. }
    apply G; auto. }
  destruct H as (Hs&Hk&Hc&_). unfold step, set_viewport_size. cbn [v_scene].
  destruct (v_scene (history l)) as [sc|] eqn:E; [|congruence]. rewrite <- E.
  set (v := Viewport (v_scene (history l)) _ _ _ _ _).
  assert (P : pre v).
  { apply ok_pre in O as [H1 H2 H3 H4 H5]. constructor; simpl; auto.
    - intros s [= <-]. simpl. lra.
    - intros N. destruct (H4 N) as [_ ?]. split; eauto. }
  destruct (update_ok v P) as [_ U]. destruct (U (V w' h') c eq_refl Hc) as [_ ->].
  repeat split; auto. discriminate.
Qed.

(** ** Fit *)

Lemma zoom_shown v c k w h : ok v -> 0 < k -> v_size v = Some (V w h) ->
  snd (zoom_at c k v) = Ok tt /\ shown (fst (zoom_at c k v)) w h k c.
Proof.
  intros O K Hs. unfold zoom_at. set (v' := Viewport _ _ _ _ _ _).
  assert (P : pre v').
  { apply ok_pre in O as [H1 H2 H3 H4 H5]. constructor; simpl; auto.
    intros T. destruct (H4 T) as [[s ?] _]. split; eauto. }
  destruct (update_ok v' P) as [_ U]. destruct (U (V w h) c Hs eq_refl) as [-> ->].
  split; auto. repeat split; auto. discriminate.
Qed.

Theorem fit : forall l s b w h, sane_from new_viewport l -> v_scene (history l) = Some s -> sc_box s = Some b ->
  v_size (history l) = Some (V w h) -> inf (bx b) < sup (bx b) \/ inf (by_ b) < sup (by_ b) ->
  snd (fit_scene (history l)) = Ok tt /\ exists k,
    shown (fst (fit_scene (history l))) w h k (V ((inf (bx b) + sup (bx b)) / 2) ((inf (by_ b) + sup (by_ b)) / 2)) /\
    0 < k /\
    k * (1.02 * (sup (bx b) - inf (bx b))) <= w /\ k * (1.02 * (sup (by_ b) - inf (by_ b))) <= h /\
    (forall k', k < k' -> w < k' * (1.02 * (sup (bx b) - inf (bx b))) \/ h < k' * (1.02 * (sup (by_ b) - inf (by_ b)))).
Proof.
  intros l s b w h S Es Eb Ez NE. pose proof (history_ok l S) as O.
  destruct (ok_size _ O _ Ez) as [W Hh], (ok_box _ O _ _ Es Eb) as [Bx By]. cbn [vx vy] in *.
  unfold fit_scene. rewrite Es, Eb, Ez.
  destruct (compute_scale_to_fit_scene (Some (V w h)) b) as [k|] eqn:Ek.
  - destruct (fit_scale_spec (V w h) b k W Hh Bx By Ek) as (K&K1&K2&K3). cbn [vx vy] in *.
    destruct (zoom_shown (history l) (box_center b) k w h O K Ez) as [Z1 Z2]. split; auto.
    exists k. split; [exact Z2|]. split; auto. split; [lra|]. split; [lra|].
    intros k' L. destruct K3 as [K3|K3]; [left|right]; nra.
  - exfalso. unfold compute_scale_to_fit_scene, bind, box_size in Ek. cbn [vx vy] in Ek. clear - Ek W Hh NE Bx By.
    unfold axis_scale, Rltb in Ek. destruct (Rlt_dec 0 w); [|lra]. destruct (Rlt_dec 0 h); [|lra].
    assert (D : forall a u, 0 < a -> 0 < u -> 0 < a / (u * (1 + 2 / 100))) by (intros; apply Rdiv_lt_0_compat; lra).
    destruct (Reqb ((sup (bx b) - inf (bx b)) * (1 + 2 / 100)) 0) eqn:E1; destruct (Reqb ((sup (by_ b) - inf (by_ b)) * (1 + 2 / 100)) 0) eqn:E2.
    + apply Reqb_true in E1, E2. lra.
    + apply Reqb_false in E2. simpl in Ek. rewrite Reqb_neq in Ek; [discriminate|]. pose proof (D h (sup (by_ b) - inf (by_ b)) Hh). lra.
    + apply Reqb_false in E1. simpl in Ek. rewrite Reqb_neq in Ek; [discriminate|]. pose proof (D w (sup (bx b) - inf (bx b)) W). lra.
    + apply Reqb_false in E1, E2. simpl in Ek. unfold Rltb in Ek.
      pose proof (D h (sup (by_ b) - inf (by_ b)) Hh). pose proof (D w (sup (bx b) - inf (bx b)) W).
      destruct (Rlt_dec _ _) in Ek; rewrite Reqb_neq in Ek; try discriminate; lra.
Qed.

(** ** Zoom and pan *)

Theorem zoom : forall l s w h k c q k', sane_from new_viewport l -> v_scene (history l) = Some s -> sc_empty s = false ->
  shown (history l) w h k c -> 0 < k' ->
  exists p, viewport_to_scene (history l) q = Ok p /\ snd (item_zoom_at q k' (history l)) = Ok tt /\
    shown (fst (item_zoom_at q k' (history l))) w h k' p.
Proof.
  intros l s w h k c q k' S Es Em H K'. pose proof (history_ok l S) as O.
  rewrite (to_scene _ w h k c) by auto. eexists. split; [reflexivity|].
  unfold item_zoom_at, if_scene. rewrite Es, Em, (to_scene _ w h k c) by auto.
  apply zoom_shown; auto. apply H.
Qed.

Theorem pan : forall l s w h k c d, sane_from new_viewport l -> v_scene (history l) = Some s -> sc_empty s = false ->
  shown (history l) w h k c ->
  snd (item_pan d (history l)) = Ok tt /\
  shown (fst (item_pan d (history l))) w h k (V (vx c + vx d / k) (vy c + vy d / k)) /\
  forall p q q', scene_to_viewport (history l) p = Ok q -> scene_to_viewport (fst (item_pan d (history l))) p = Ok q' ->
    q' = V (vx q - vx d) (vy q + vy d).
Proof.
  intros l s w h k c d S Es Em H. pose proof (history_ok l S) as O.
  destruct (shown_translation _ w h k c O H) as (_&_&K&_).
  assert (P : item_pan d (history l) = zoom_at (V (vx c + vx d / k) (vy c + vy d / k)) k (history l)).
  { unfold item_pan, if_scene, pan_delta_to_scene, fdiv. rewrite Es, Em. destruct H as (_&->&->&_).
    rewrite Reqb_neq by lra. cbn [bind]. unfold vadd; cbn [vx vy]. f_equal. f_equal; field; lra. }
  rewrite P. destruct (zoom_shown (history l) (V (vx c + vx d / k) (vy c + vy d / k)) k w h O K (proj1 H)) as [Z1 Z2].
  split; auto. split; auto. intros p q q'. rewrite (to_viewport _ w h k c) by auto.
  rewrite (to_viewport _ w h k _ p (zoom_ok _ k _ O K) Z2). intros [= <-] [= <-]. cbn [vx vy]. f_equal; field; lra.
Qed.
