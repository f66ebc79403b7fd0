(** Properties C103-C107: the viewport and the grid of the Qt painter. *)
From Coq Require Import Reals List ZArith Lra.
From Verif Require Import Base ModelVector ModelLine.
From Verif Require Import ModelViewport SpecViewport ProofViewport ProofViewport2.
Import ListNotations.
Local Open Scope R_scope.

(** C103.  The two conversions are inverse of each other, after any history. *)
Theorem C103_inverse : forall l p q, sane_from new_viewport l ->
  (scene_to_viewport (history l) p = Ok q <-> viewport_to_scene (history l) q = Ok p).
Proof. exact inverse. Qed.
Print Assumptions C103_inverse.

Theorem C103_lengths : forall l x, sane_from new_viewport l -> forall y,
  length_viewport_to_scene (history l) y = Ok x <-> length_scene_to_viewport (history l) x = y.
Proof. exact lengths. Qed.
Print Assumptions C103_lengths.

(** Distances are scaled, the ordinate is flipped. *)
Theorem C103_similar : forall l w h k c p p' q q', sane_from new_viewport l -> shown (history l) w h k c ->
  scene_to_viewport (history l) p = Ok q -> scene_to_viewport (history l) p' = Ok q' ->
  distance q q' = length_scene_to_viewport (history l) (distance p p') /\
  vx q' - vx q = k * (vx p' - vx p) /\ vy q' - vy q = - k * (vy p' - vy p).
Proof. exact similar. Qed.
Print Assumptions C103_similar.

(** A zoom by zero is refused after the viewport was changed: every point is then at the origin. *)
Theorem C103_zero_refuted : exists l, let v := fst (zoom_at (V 5 5) 0 (history l)) in
  snd (zoom_at (V 5 5) 0 (history l)) = Raise ZeroDivisionError /\
  sane_from new_viewport l /\ v_translation (history l) <> None /\ forall p, scene_to_viewport v p = Ok (V 0 0).
Proof. exact zoom_zero. Qed.
Print Assumptions C103_zero_refuted.

(** C104.  The area is what the window shows, and the centre is in the middle of the window. *)
Theorem C104_window : forall l w h k c, sane_from new_viewport l -> shown (history l) w h k c ->
  scene_to_viewport (history l) c = Ok (V (w / 2) (h / 2)) /\
  exists b, v_area (history l) = Some b /\ forall p q, scene_to_viewport (history l) p = Ok q ->
    (in_box b p <-> in_window w h q) /\ (in_window w h q <-> visible w h k c p).
Proof. exact window. Qed.
Print Assumptions C104_window.

Theorem C104_defined : forall l, sane_from new_viewport l -> v_translation (history l) <> None ->
  exists w h k c, shown (history l) w h k c /\ 0 < w /\ 0 < h /\ 0 < k.
Proof. exact defined. Qed.
Print Assumptions C104_defined.

(** Another size keeps the centre and the scale. *)
Theorem C104_resize : forall l w h k c w' h', sane_from new_viewport l -> shown (history l) w h k c -> 0 < w' -> 0 < h' ->
  shown (step (history l) (Resize w' h')) w' h' k c.
Proof. exact resize. Qed.
Print Assumptions C104_resize.

(** Without a scene the area does not follow the size. *)
Theorem C104_early_refuted : exists l c q, v_size (history l) = Some (V 200 200) /\ v_center (history l) = Some c /\
  scene_to_viewport (history l) c = Ok q /\ q <> V 100 100.
Proof. exact early_zoom. Qed.
Print Assumptions C104_early_refuted.

(** C105.  Fitting shows the whole scene with a margin of 2%, at the greatest scale which does. *)
Theorem C105_fit_partial : forall l s b w h, sane_from new_viewport l -> v_scene (history l) = Some s -> sc_box s = Some b ->
  v_size (history l) = Some (V w h) -> inf (bx b) < sup (bx b) \/ inf (by_ b) < sup (by_ b) ->
  snd (fit_scene (history l)) = Ok tt /\ exists k,
    shown (fst (fit_scene (history l))) w h k (V ((inf (bx b) + sup (bx b)) / 2) ((inf (by_ b) + sup (by_ b)) / 2)) /\
    0 < k /\
    k * (1.02 * (sup (bx b) - inf (bx b))) <= w /\ k * (1.02 * (sup (by_ b) - inf (by_ b))) <= h /\
    (forall k', k < k' -> w < k' * (1.02 * (sup (bx b) - inf (bx b))) \/ h < k' * (1.02 * (sup (by_ b) - inf (by_ b)))).
Proof. exact fit. Qed.
Print Assumptions C105_fit_partial.

(** A scene reduced to a point cannot be fitted, a scene without a box neither. *)
Theorem C105_point_refuted : forall l p w h, v_size (history l) = Some (V w h) -> 0 < w -> 0 < h ->
  snd (item_set_scene (Scene (Some (Box (Itv (vx p) (vx p)) (Itv (vy p) (vy p)))) false) (history l)) = Raise NotANumber.
Proof. exact point_scene. Qed.
Print Assumptions C105_point_refuted.

Theorem C105_no_box_refuted : forall v e, snd (item_set_scene (Scene None e) v) = Raise AttributeError.
Proof. exact no_box. Qed.
Print Assumptions C105_no_box_refuted.

(** C106.  Zooming at a position brings it to the middle of the window; panning moves the picture. *)
Theorem C106_zoom : forall l s w h k c q k', sane_from new_viewport l -> v_scene (history l) = Some s -> sc_empty s = false ->
  shown (history l) w h k c -> 0 < k' ->
  exists p, viewport_to_scene (history l) q = Ok p /\ snd (item_zoom_at q k' (history l)) = Ok tt /\
    shown (fst (item_zoom_at q k' (history l))) w h k' p.
Proof. exact zoom. Qed.
Print Assumptions C106_zoom.

Theorem C106_pan : forall l s w h k c d, sane_from new_viewport l -> v_scene (history l) = Some s -> sc_empty s = false ->
  shown (history l) w h k c ->
  snd (item_pan d (history l)) = Ok tt /\
  shown (fst (item_pan d (history l))) w h k (V (vx c + vx d / k) (vy c + vy d / k)) /\
  forall p q q', scene_to_viewport (history l) p = Ok q -> scene_to_viewport (fst (item_pan d (history l))) p = Ok q' ->
    q' = V (vx q - vx d) (vy q + vy d).
Proof. exact pan. Qed.
Print Assumptions C106_pan.

Example a_history : sane_from new_viewport [Resize 100 50; ItemScene square_scene; ItemZoomAtCenter 2; ItemPan (V 3 4)].
Proof. simpl. repeat split; try lra; injection H as <-; simpl; lra. Qed.

Example a_shown : exists k, shown (history [Resize 100 50; ItemScene square_scene]) 100 50 k (V ((0 + 10) / 2) ((0 + 10) / 2)).
Proof.
  assert (S : sane_from new_viewport [Resize 100 50; SetScene square_scene]).
  { simpl. repeat split; try lra; injection H as <-; simpl; lra. }
  destruct (C105_fit_partial _ square_scene (Box (Itv 0 10) (Itv 0 10)) 100 50 S eq_refl eq_refl eq_refl) as (_&k&H&_).
  - simpl. lra.
  - exists k. exact H.
Qed.

(** C107.  The lines of the grid are the multiples of the step in the area, each once. *)
Theorem C107_lines : forall xinf xsup yinf ysup is_x step, (0 < step)%Z ->
  NoDup (axis_grid xinf xsup yinf ysup is_x step) /\
  forall a b, In (a, b) (axis_grid xinf xsup yinf ysup is_x step) <->
    exists i, xinf <= IZR (i * step) <= xsup /\
      if is_x then a = V (IZR (i * step)) yinf /\ b = V (IZR (i * step)) ysup
      else a = V yinf (IZR (i * step)) /\ b = V ysup (IZR (i * step)).
Proof. exact axis_grid_exact. Qed.
Print Assumptions C107_lines.

(** The step is the power of ten of the order of the smaller length, at least 10. *)
Theorem C107_step : forall length, 0 < length -> exists n, (1 <= n)%nat /\ grid_step length = Ok (10 ^ Z.of_nat n)%Z /\
  small_step (10 ^ Z.of_nat n) = (10 ^ Z.of_nat (n - 1))%Z /\
  length < 10 * IZR (10 ^ Z.of_nat n) /\ (IZR (10 ^ Z.of_nat n) <= length \/ n = 1%nat).
Proof. exact grid_steps. Qed.
Print Assumptions C107_step.

Theorem C107_grid : forall b, inf (bx b) < sup (bx b) -> inf (by_ b) < sup (by_ b) -> exists n big small,
  paint_grid (Some b) = Ok (big, small) /\
  (forall p q, In (p, q) big <-> grid_line b (10 ^ Z.of_nat (S n)) p q) /\
  (forall p q, In (p, q) small <-> grid_line b (10 ^ Z.of_nat n) p q).
Proof. exact whole_grid. Qed.
Print Assumptions C107_grid.
