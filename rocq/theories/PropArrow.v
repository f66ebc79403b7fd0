(** C126, C127: arrow heads *)
From Coq Require Import Reals List Bool Lra.
From Verif Require Import Base ModelVector ModelTransformation ModelPolygon ModelPath ModelBezier ModelLine ModelArrow SpecVector SpecArrow
  ProofVector ProofArrow.
Import ListNotations.
Local Open Scope R_scope.

(** Both sides and no axial offset: a polygon with the tip and the ends of the base, which are determined. *)
Theorem C126_triangle_partial : forall p d length width, ~ null d -> exists h P l r,
  triangular_head p d length width 0 true true = Ok (h, P) /\
  p_points P = [p; l; r] /\ pointer p d length width p l r /\ tip_point h = p /\
  left_point h = Ok (Some l) /\ right_point h = Ok (Some r).
Proof. exact triangle. Qed.
Print Assumptions C126_triangle_partial.

Theorem C126_unique : forall p d length width t l r t' l' r', ~ null d ->
  pointer p d length width t l r -> pointer p d length width t' l' r' -> t = t' /\ l = l' /\ r = r'.
Proof. exact pointer_unique. Qed.
Print Assumptions C126_unique.

(** The magnitude of the direction does not matter. *)
Theorem C126_scaled : forall p d length width k t l r, 0 < k ->
  pointer p d length width t l r -> pointer p (V (k * vx d) (k * vy d)) length width t l r.
Proof. exact pointer_scaled. Qed.
Print Assumptions C126_scaled.

(** Turning and moving the anchor point and the direction turns and moves the head. *)
Theorem C126_moved : forall u q p d length width p' d', ~ null d -> turned u d d' -> moved u q p p' ->
  exists h P h' P', triangular_head p d length width 0 true true = Ok (h, P) /\
    triangular_head p' d' length width 0 true true = Ok (h', P') /\
    Forall2 (moved u q) (p_points P) (p_points P').
Proof. exact head_moved. Qed.
Print Assumptions C126_moved.

(** The angle is the one between both sides of the tip, in degrees. *)
Theorem C126_angle : forall h p l r d, h_length h <> 0 \/ h_width h <> 0 ->
  pointer p d (h_length h) (h_width h) p l r -> ~ null d -> exists x, head_angle h = Ok x /\
  let u := V (vx l - vx p) (vy l - vy p) in let v := V (vx r - vx p) (vy r - vy p) in
  dot u v = len u * len v * cos (rad x) /\ cross u v = len u * len v * sin (rad x).
Proof. exact head_angle_ok. Qed.
Print Assumptions C126_angle.

(** A head with one side, with none or with an axial offset is never made. *)
Theorem C126_side_refuted : forall p d length width offset left right, ~ null d -> left && right = false ->
  triangular_head p d length width offset left right = Raise AttributeError.
Proof. exact triangle_side. Qed.
Print Assumptions C126_side_refuted.
Theorem C126_offset_refuted : forall p d length width offset left right, ~ null d -> offset <> 0 ->
  triangular_head p d length width offset left right = Raise AttributeError.
Proof. exact triangle_offset. Qed.
Print Assumptions C126_offset_refuted.

(** After a transformation the tip point is not the tip of the polygon. *)
Theorem C126_transformed_refuted : forall p d length width t, ~ null d -> exists h P,
  triangular_head p d length width 0 true true = Ok (h, P) /\
  hd_error (p_points (snd (transform_head t (h, P)))) = Some (apply t p) /\
  tip_point (fst (transform_head t (h, P))) = p.
Proof.
  intros p d a w t N. destruct (triangle p d a w N) as (h & P & l & r & E & EP & _ & T & _).
  exists h, P. split; [exact E|]. cbn. rewrite EP. split; [reflexivity|exact T].
Qed.
Print Assumptions C126_transformed_refuted.
Example C126_stale : exists t, apply t (V 0 0) <> V 0 0.
Proof. exists (T (M3 1 0 1 0 1 0 0 0 1) None). unfold apply. cbn. intros E. injection E. lra. Qed.

Example C126_case : pointer (V 1 2) (V 0 3) 5 2 (V 1 2) (V (-1) (-3)) (V 3 (-3)) /\ ~ null (V 0 3).
Proof.
  assert (L : len (V 0 3) = 3). { unfold len. cbn. replace (0 * 0 + 3 * 3) with (3 * 3) by ring. apply sqrt_square. lra. }
  split; [constructor; [reflexivity|..]; unfold along, aside; rewrite L; cbn; lra|intros [_ H]; cbn in H; lra].
Qed.

(** Curvy heads: a closed loop from the tip by the left and the right end of the base. *)
Theorem C127_outline_partial : forall p d length width depth, ~ null d -> exists h P l r b c,
  curvy_head p d length width depth 0 true true = Ok (h, P) /\ closed P = true /\
  pointer p d length width p l r /\ bent p l depth b /\ bent p r depth c /\
  map (fun i => fst (geometry i P)) (seq 0 (List.length (parts P))) =
    [Ok (GQuad (Quad p b l)); Ok (GSegment (Seg l r)); Ok (GQuad (Quad r c p)); Ok (GSegment (Seg p p))].
Proof.
  intros p d a w k N. destruct (curvy p d a w k N) as (h & P & l & r & b & c & E & G & B & C & _ & _ & _ & _ & ->).
  exists h, (Path p [PQuad b l true; Linear (PLine r true) (plain None false); PQuad c p true; Linear (PLine p true) (plain None false)] true), l, r, b, c.
  repeat (split; [assumption || reflexivity|]). apply curvy_pieces.
Qed.
Print Assumptions C127_outline_partial.

(** It is symmetric exactly when its sides are straight (or when it is a point). *)
Theorem C127_symmetric_refuted : forall p d length width depth l r b c, ~ null d ->
  pointer p d length width p l r -> bent p l depth b -> bent p r depth c ->
  (mirror p d b c <-> depth = 0 \/ length = 0 /\ width = 0).
Proof. exact curvy_mirror. Qed.
Print Assumptions C127_symmetric_refuted.

Theorem C127_side_refuted : forall p d length width depth offset left right, ~ null d ->
  left && right = false \/ offset <> 0 ->
  curvy_head p d length width depth offset left right = Raise AttributeError.
Proof. exact curvy_side. Qed.
Print Assumptions C127_side_refuted.

Example C127_case : ~ mirror (V 0 0) (V 1 0) (V 1 7) (V (-5) 1) /\ bent (V 0 0) (V (-4) 6) (1 / 2) (V 1 5).
Proof.
  split.
  - unfold mirror, along, aside. cbn. intros [H _]. lra.
  - exists (V (-2) 3). cbn. repeat split; lra.
Qed.
