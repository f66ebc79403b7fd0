From Coq Require Import Reals List ZArith Lra Lia Bool.
From Verif Require Import Base ModelVector ModelTransformation ModelLine ModelBezier ModelConic ModelPath ModelSpline.
From Verif Require Import SpecVector ProofVector ProofConic ProofConic3 ProofArc GluePath ProofPath ProofPath2 ProofPath3 ProofPath4 ProofPath5 ProofPath6 ProofPath7.
From Verif Require ModelScene SpecConic.
Import ModelScene(position, PVector, PName, PNumber, coordinates, cast_position).
From Verif Require Import ModelPainter ModelDrawing SpecPath.
Import SpecConic(polar).
From Verif Require SpecPainter.
Import SpecPainter(on_segment, on_quadratic, on_cubic, on_chain, covers, parts_cover, parts_end, degrees_cos, degrees_sin).
From Verif Require Import SpecDrawing ProofDrawing ProofDrawing3 ProofDrawing4.
Import ListNotations.
Local Open Scope R_scope.

(** ** A sharp path as one item *)
Section Sharp.
Variables (a0 : vec) (l0 : list event) (p : path).
Hypothesis Hd : Forall drawing l0.
Hypothesis He : history (new_path a0) l0 = Ok p.
Hypothesis Hsh : sharp p.
Hypothesis Ha : without_arcs p.
Variable k : coordinates.

Let Hs : sane p. Proof. apply (drawn_coherent a0 l0 p Hd He). Qed.

Lemma sharp_start i : (i <= length (parts p))%nat -> exists v, start_point p i = Ok v.
Proof. apply (start_defined p Hs). intros (j & b & E). specialize (Ha j). rewrite E in Ha. exact Ha. Qed.

Lemma sharp_linear i s c v w x : nth_error (parts p) i = Some (Linear s c) -> start_point p i = Ok v -> stop_point p i = Ok w ->
  (part_outline p i x <-> on_segment v w x).
Proof.
  intros H Ev Ew. unfold part_outline. split.
  - intros [(s1 & c1 & a1 & b1 & H1 & H2 & H3 & H4)|[(r & P & o & s1 & e & (Q & _) & _)|[(a1 & b1 & f1 & v1 & H1 & _)|(a1 & b1 & d1 & f1 & v1 & H1 & _)]]];
      [|destruct (Hsh _ _ Q)|congruence|congruence].
    destruct H2 as [(r & P & o & t & Q & _)|[_ H2]]; [destruct (Hsh _ _ Q)|].
    destruct H3 as [(r & P & o & t & Q & _)|[_ H3]]; [destruct (Hsh _ _ Q)|].
    assert (a1 = v) by congruence. assert (b1 = w) by congruence. subst. exact H4.
  - intros Q. left. exists s, c, v, w. split; [exact H|]. split; [right; split; [intros r; apply Hsh|exact Ev]|].
    split; [right; split; [intros r; apply Hsh|exact Ew]|exact Q].
Qed.
Lemma quad_outline i a b f v x : nth_error (parts p) i = Some (PQuad a b f) -> start_point p i = Ok v ->
  (part_outline p i x <-> on_quadratic v (placed_at f v a) (placed_at f v b) x).
Proof.
  intros H Ev. unfold part_outline. split.
  - intros [(s1 & c1 & a1 & b1 & H1 & _)|[(r & P & o & s1 & e & (Q & _) & _)|[(a1 & b1 & f1 & v1 & H1 & H2 & Q)|(a1 & b1 & d1 & f1 & v1 & H1 & _)]]];
      [congruence|destruct (Hsh _ _ Q)| |congruence].
    assert (v1 = v) by congruence. rewrite H in H1. injection H1 as <- <- <-. subst. exact Q.
  - intros Q. right. right. left. exists a, b, f, v. auto.
Qed.
Lemma cubic_outline i a b d f v x : nth_error (parts p) i = Some (PCubic a b d f) -> start_point p i = Ok v ->
  (part_outline p i x <-> on_cubic v (placed_at f v a) (placed_at f v b) (placed_at f v d) x).
Proof.
  intros H Ev. unfold part_outline. split.
  - intros [(s1 & c1 & a1 & b1 & H1 & _)|[(r & P & o & s1 & e & (Q & _) & _)|[(a1 & b1 & f1 & v1 & H1 & _)|(a1 & b1 & d1 & f1 & v1 & H1 & H2 & Q)]]];
      [congruence|destruct (Hsh _ _ Q)|congruence|].
    assert (v1 = v) by congruence. rewrite H in H1. injection H1 as <- <- <- <-. subst. exact Q.
  - intros Q. right. right. right. exists a, b, d, f, v. auto.
Qed.

Lemma next_start i q : nth_error (parts p) i = Some q -> start_point p (S i) = stop_point p i.
Proof. intros H. unfold stop_point. cbn [start_point]. rewrite H. reflexivity. Qed.

Lemma parts_ok l : forall i v, (forall j, nth_error l j = nth_error (parts p) (i + j)) -> start_point p i = Ok v ->
  exists m, path_parts p i l = (m, None) /\
  (forall x, parts_cover (cast_position identity k) v m x <-> exists j, (j < length l)%nat /\ part_outline p (i + j) x) /\
  (forall y, parts_end (cast_position identity k) v m y <-> start_point p (i + length l) = Ok y).
Proof.
  induction l as [|q l IH]; intros i v H Ev.
  - exists []. split; [reflexivity|]. split.
    + intros x. cbn. split; [intros []|intros (j & L & _); lia].
    + intros y. cbn. rewrite Nat.add_0_r, Ev. split; [intros ->; reflexivity|congruence].
  - assert (Hq : nth_error (parts p) i = Some q) by (specialize (H 0%nat); rewrite Nat.add_0_r in H; rewrite <- H; reflexivity).
    assert (Hi : (i < length (parts p))%nat) by (apply nth_error_Some; congruence).
    destruct (sharp_start (S i) ltac:(lia)) as (w & Ew).
    destruct (IH (S i) w) as (m & Em & C & E); [intros j; specialize (H (S j)); cbn in H; rewrite H; f_equal; lia|exact Ew|].
    assert (Stop : stop_point p i = Ok w) by (rewrite <- (next_start i q Hq); exact Ew).
    assert (Join : forall (Q : vec -> Prop), (forall x, part_outline p i x <-> Q x) -> forall x,
      (Q x \/ parts_cover (cast_position identity k) w m x) <-> exists j, (j < length (q :: l))%nat /\ part_outline p (i + j) x).
    { intros Q HQ x. split.
      - intros [X|X]; [exists 0%nat; rewrite Nat.add_0_r; split; [cbn; lia|apply HQ; exact X]|].
        apply C in X. destruct X as (j & L & X). exists (S j). split; [cbn; lia|]. replace (i + S j)%nat with (S i + j)%nat by lia. exact X.
      - intros ([|j] & L & X); [left; rewrite Nat.add_0_r in X; apply HQ; exact X|right]. apply C. exists j. split; [cbn in L; lia|].
        replace (S i + j)%nat with (i + S j)%nat by lia. exact X. }
    assert (Last : forall y, parts_end (cast_position identity k) w m y <-> start_point p (i + length (q :: l)) = Ok y).
    { intros y. rewrite E. cbn [length]. replace (i + S (length l))%nat with (S i + length l)%nat by lia. reflexivity. }
    destruct q as [s c|a b f|a b d f|f|a rx ry an la sw f]; cbn [path_parts].
    + rewrite Stop. cbn [bind]. rewrite Em. exists (LinearPart (PVector w) :: m). split; [reflexivity|]. split.
      * intros x. cbn [parts_cover]. rewrite cast_vector. rewrite <- (Join _ (fun x => sharp_linear i s c v w x Hq Ev Stop)).
        split; [intros (v' & [= <-] & X); exact X|intros X; exists w; auto].
      * intros y. cbn [parts_end]. rewrite cast_vector, <- Last. split; [intros (v' & [= <-] & X); exact X|intros X; exists w; auto].
    + rewrite !(absolute_placed p i f v _ Ev). cbn [bind]. rewrite Em. eexists. split; [reflexivity|].
      assert (Ew' : placed_at f v b = w).
      { unfold stop_point in Stop. rewrite Hq in Stop. cbn in Stop. rewrite Ev in Stop. unfold placed_at. destruct f; cbn in Stop; injection Stop as <-; [reflexivity|]. unfold vadd. f_equal; ring. }
      rewrite Ew'. split.
      * intros x. cbn [parts_cover]. rewrite !cast_vector.
        rewrite <- (Join _ (fun x => quad_outline i a b f v x Hq Ev)). rewrite Ew'.
        split; [intros (v' & w' & [= <-] & [= <-] & X); exact X|intros X; do 2 eexists; do 2 (split; [reflexivity|]); exact X].
      * intros y. cbn [parts_end]. rewrite cast_vector, <- Last. split; [intros (v' & [= <-] & X); exact X|intros X; exists w; auto].
    + rewrite !(absolute_placed p i f v _ Ev). cbn [bind]. rewrite Em. eexists. split; [reflexivity|].
      assert (Ew' : placed_at f v d = w).
      { unfold stop_point in Stop. rewrite Hq in Stop. cbn in Stop. rewrite Ev in Stop. unfold placed_at. destruct f; cbn in Stop; injection Stop as <-; [reflexivity|]. unfold vadd. f_equal; ring. }
      rewrite Ew'. split.
      * intros x. cbn [parts_cover]. rewrite !cast_vector.
        rewrite <- (Join _ (fun x => cubic_outline i a b d f v x Hq Ev)). rewrite Ew'.
        split; [intros (v' & w' & z' & [= <-] & [= <-] & [= <-] & X); exact X|intros X; do 3 eexists; do 3 (split; [reflexivity|]); exact X].
      * intros y. cbn [parts_end]. rewrite cast_vector, <- Last. split; [intros (v' & [= <-] & X); exact X|intros X; exists w; auto].
    + specialize (Ha i). rewrite Hq in Ha. destruct Ha.
    + specialize (Ha i). rewrite Hq in Ha. destruct Ha.
Qed.

Lemma start_on_outline i : (i < length (parts p))%nat -> forall v, start_point p i = Ok v -> part_outline p i v.
Proof.
  intros Hi v Ev. destruct (nth_error (parts p) i) as [q|] eqn:Hq; [|apply nth_error_None in Hq; lia].
  destruct q as [s c|a b f|a b d f|f|a rx ry an la sw f].
  - destruct (sharp_start (S i) ltac:(lia)) as (w & Ew). rewrite (next_start i _ Hq) in Ew.
    apply (sharp_linear i s c v w v Hq Ev Ew). exists 0. split; [lra|]. apply vec_eq; cbn; ring.
  - apply (quad_outline i a b f v v Hq Ev). exists 0. split; [lra|]. apply vec_eq; cbn; ring.
  - apply (cubic_outline i a b d f v v Hq Ev). exists 0. split; [lra|]. apply vec_eq; cbn; ring.
  - specialize (Ha i). rewrite Hq in Ha. destruct Ha.
  - specialize (Ha i). rewrite Hq in Ha. destruct Ha.
Qed.

Lemma item_covers : exists sh, add_as_path p = ([sh], None) /\ forall x, covers (cast_position identity k) sh x <-> outline p x.
Proof.
  destruct (drawing_coherent l0 (new_path a0) p Hd (new_sane a0) (new_anchored a0) (new_coherent a0) He) as (_ & (An & A0) & _).
  destruct (parts_ok (parts p) 0 (p0 p) ltac:(reflexivity) A0) as (m & Em & C & E).
  unfold add_as_path. rewrite Em. eexists. split; [reflexivity|]. intros x. rewrite outline_parts.
  unfold covers. rewrite cast_vector.
  assert (C' : parts_cover (cast_position identity k) (p0 p) m x <-> exists i, part_outline p i x).
  { rewrite C. cbn [Nat.add]. split; [intros (j & _ & X); eauto|intros (j & X); exists j; split; [apply (part_outline_bound p j x X)|exact X]]. }
  split.
  - intros (v & [= <-] & [X|(Hc & y & Hy & X)]); [apply C'; exact X|].
    apply E in Hy. specialize (An Hc). apply ends_nth in An. destruct An as (c1 & Hl1).
    assert (Hlen : (0 < length (parts p))%nat). { destruct (parts p); [discriminate Hl1|cbn; lia]. }
    assert (y = p0 p).
    { cbn [Nat.add] in Hy. replace (length (parts p)) with (S (length (parts p) - 1)) in Hy by lia. rewrite (next_start _ _ Hl1) in Hy.
      unfold stop_point in Hy. rewrite Hl1 in Hy. cbn in Hy. congruence. }
    subst y. assert (Ex : x = p0 p). { destruct X as (t & _ & ->). apply vec_eq; cbn; ring. }
    exists 0%nat. rewrite Ex. apply (start_on_outline 0 Hlen). exact A0.
  - intros X. exists (p0 p). split; [reflexivity|]. left. apply C'. exact X.
Qed.
End Sharp.

(** ** Refutations *)

(** A right corner with a radius of one: the distance of the centre to the corner is not one. *)
Lemma right_corner P d1 d2 c s e : vx d1 ^ 2 + vy d1 ^ 2 = 1 -> d2 = V (- vy d1) (vx d1) -> fillet P d1 d2 1 c s e ->
  s = V (vx P - vx d1) (vy P - vy d1) /\ e = V (vx P + vx d2) (vy P + vy d2) /\ dist c P <> 1.
Proof.
  intros U -> (k & K0 & Sx & Sy & Ex & Ey & Ds & De & T1 & T2). destruct d1 as [a b], c as [cx cy], s as [sx sy], e as [ex ey], P as [px py].
  cbn [vx vy] in *. subst sx sy ex ey.
  assert (Q1 : (cx - px) * a + (cy - py) * b = - k).
  { transitivity ((cx - (px - k * a)) * a + (cy - (py - k * b)) * b - k * (a ^ 2 + b ^ 2)); [ring|rewrite T1, U; ring]. }
  assert (Q2 : (cx - px) * - b + (cy - py) * a = k).
  { transitivity ((cx - (px + k * - b)) * - b + (cy - (py + k * a)) * a + k * (a ^ 2 + b ^ 2)); [ring|rewrite T2, U; ring]. }
  assert (X : cx = px - k * a - k * b).
  { transitivity (px + (cx - px) * (a ^ 2 + b ^ 2)); [rewrite U; ring|].
    transitivity (px + a * ((cx - px) * a + (cy - py) * b) - b * ((cx - px) * - b + (cy - py) * a)); [ring|rewrite Q1, Q2; ring]. }
  assert (Y : cy = py - k * b + k * a).
  { transitivity (py + (cy - py) * (a ^ 2 + b ^ 2)); [rewrite U; ring|].
    transitivity (py + b * ((cx - px) * a + (cy - py) * b) + a * ((cx - px) * - b + (cy - py) * a)); [ring|rewrite Q1, Q2; ring]. }
  assert (K : k = 1).
  { unfold dist in Ds. cbn [vx vy] in Ds. rewrite X, Y in Ds.
    assert (Q : sqrt (k * k) = 1). { rewrite <- Ds. f_equal. transitivity (k * k * (a ^ 2 + b ^ 2)); [rewrite U; ring|ring]. }
    rewrite sqrt_square in Q by lra. exact Q. }
  clear Q1 Q2 T1 T2 De Ds K0. subst k. split; [apply vec_eq; cbn; ring|]. split; [apply vec_eq; cbn; ring|]. unfold dist. cbn [vx vy]. intros Q.
  assert (S2 : (cx - px) * (cx - px) + (cy - py) * (cy - py) = 1).
  { rewrite <- (sqrt_sqrt ((cx - px) * (cx - px) + (cy - py) * (cy - py))) by nra. rewrite Q. ring. }
  rewrite X, Y in S2. nra.
Qed.

Definition elbow_commands : list event := map Command [LineTo (V 4 0) None true; LineTo (V 4 4) (Some 1) true].
Definition elbow : path := Path (V 0 0)
  [Linear (PLine (V 4 0) true) (Corner None false false None None None None None None);
   Linear (PLine (V 4 4) true) (Corner (Some (Rabs 1)) false false None None None None None None)] false.
Lemma elbow_drawn : history (new_path (V 0 0)) elbow_commands = Ok elbow.
Proof. reflexivity. Qed.
Lemma elbow_rounded i r : rounded elbow i r -> i = 1%nat /\ r = 1.
Proof.
  intros (s & c & H & E). destruct i as [|[|[|i]]]; cbn in H; try discriminate H; [|]; injection H as <- <-; cbn in E; [discriminate|].
  injection E as <-. rewrite Rabs_R1. auto.
Qed.
Lemma elbow_proper : proper elbow.
Proof.
  intros i r H. apply elbow_rounded in H. destruct H as [-> ->]. split; [lra|].
  exists (V 0 0), (V 4 0), (V 4 4), (V 1 0), (V 0 1). split; [reflexivity|]. split; [reflexivity|]. split; [reflexivity|].
  split; [apply (heading_x _ _ 4); cbn; lra|]. split; [apply (heading_y _ _ 4); cbn; lra|]. cbn. lra.
Qed.
Lemma elbow_rounds i r P c s e : rounds elbow i r P c s e ->
  i = 1%nat /\ r = 1 /\ P = V 4 0 /\ s = V 3 0 /\ e = V 4 1 /\ dist c P <> 1.
Proof.
  intros (Hr & A & B & d1 & d2 & HA & HP & HB & H1 & H2 & F). apply elbow_rounded in Hr. destruct Hr as [-> ->].
  cbn in HA, HP, HB. injection HA as <-. injection HP as <-. injection HB as <-.
  rewrite (heading_unique _ _ _ _ H1 (heading_x (V 0 0) (V 4 0) 4 ltac:(lra) ltac:(cbn; lra) ltac:(cbn; lra))) in F.
  rewrite (heading_unique _ _ _ _ H2 (heading_y (V 4 0) (V 4 4) 4 ltac:(lra) ltac:(cbn; lra) ltac:(cbn; lra))) in F.
  apply right_corner in F; [|cbn [vx vy]; ring|apply vec_eq; cbn [vx vy]; ring]. destruct F as (-> & -> & D).
  refine (conj eq_refl (conj eq_refl (conj eq_refl (conj _ (conj _ D))))); apply vec_eq; cbn [vx vy]; ring.
Qed.
Lemma elbow_corner : ~ outline elbow (V 4 0).
Proof.
  intros [(i & sh & c & a & b & H & Ha & Hb & X)|[(i & r & P & c & s & e & Hr & X)|[(i & a & b & f & s & H & _)|(i & a & b & c & f & s & H & _)]]].
  - assert (I : i = 0%nat \/ i = 1%nat) by (destruct i as [|[|[|i]]]; try discriminate H; auto). destruct I as [-> | ->].
    + destruct Hb as [(r & P & o & t & Q)|[N _]].
      * apply elbow_rounds in Q. destruct Q as (_ & _ & _ & -> & _). destruct Ha as [(r' & P' & o' & t' & Q')|[_ Ea]].
        -- apply elbow_rounds in Q'. destruct Q' as (Q' & _). discriminate Q'.
        -- cbn in Ea. injection Ea as <-. destruct X as (t' & Ht & X). injection X as X1 X2. cbn in X1. lra.
      * apply (N (Rabs 1)). exists (PLine (V 4 4) true). eexists. split; reflexivity.
    + destruct Ha as [(r & P & o & t & Q)|[N _]].
      * apply elbow_rounds in Q. destruct Q as (_ & _ & _ & _ & -> & _). destruct Hb as [(r' & P' & o' & t' & Q')|[_ Eb]].
        -- apply elbow_rounds in Q'. destruct Q' as (Q' & _). discriminate Q'.
        -- cbn in Eb. injection Eb as <-. destruct X as (t' & Ht & X). injection X as X1 X2. cbn in X2. lra.
      * apply (N (Rabs 1)). exists (PLine (V 4 4) true). eexists. split; reflexivity.
  - apply elbow_rounds in Hr. destruct Hr as (_ & -> & -> & _ & _ & D). destruct X as [X _]. contradiction.
  - destruct i as [|[|[|i]]]; discriminate H.
  - destruct i as [|[|[|i]]]; discriminate H.
Qed.
Lemma elbow_arcs : without_arcs elbow.
Proof. intros [|[|[|i]]]; exact I. Qed.

(** As one item the corners are sharp. *)
Lemma as_path_refuted : ~ (forall a l p k, Forall drawing l -> history (new_path a) l = Ok p -> closed_once l -> proper p -> without_arcs p ->
  exists m, add_as_path p = (m, None) /\ forall x, (exists sh, In sh m /\ covers (cast_position identity k) sh x) <-> outline p x).
Proof.
  intros H. destruct (H (V 0 0) elbow_commands elbow [] ltac:(repeat constructor) elbow_drawn ltac:(unfold closed_once; cbn; lia) elbow_proper elbow_arcs) as (m & Em & C).
  apply elbow_corner. apply C. cbn in Em. injection Em as <-. eexists. split; [left; reflexivity|].
  unfold covers. exists (V 0 0). rewrite cast_vector. split; [reflexivity|]. left. cbn [parts_cover].
  exists (V 4 0). rewrite cast_vector. split; [reflexivity|]. left. exists 1. split; [lra|]. apply vec_eq; cbn; ring.
Qed.

(** An arc of a path as one item *)
Lemma as_path_arc q rx ry angle large sweep absolute : exists p, history (new_path (V 0 0)) [Command (ArcTo q rx ry angle large sweep absolute)] = Ok p /\
  add_as_path p = ([SPath (PVector (V 0 0)) [] false], None).
Proof. eexists. split; reflexivity. Qed.

(** Closed twice *)
Definition square_commands : list event := map Command
  [LineTo (V 4 0) None true; LineTo (V 4 4) None true; LineTo (V 0 4) None true; Close None None; Close None (Some 1)].
Definition square : path := Path (V 0 0)
  [Linear (PLine (V 4 0) true) (Corner (Some (Rabs 1)) true false None None None None None None);
   Linear (PLine (V 4 4) true) (Corner None false false None None None None None None);
   Linear (PLine (V 0 4) true) (Corner None false false None None None None None None);
   Linear (PLine (V 0 0) true) (Corner None false false None None None None None None)] true.
Lemma square_drawn : history (new_path (V 0 0)) square_commands = Ok square.
Proof. reflexivity. Qed.
Lemma square_rounded i r : rounded square i r -> i = 0%nat /\ r = 1.
Proof.
  intros (s & c & H & E). destruct i as [|[|[|[|[|i]]]]]; cbn in H; try discriminate H; injection H as <- <-; cbn in E; try discriminate.
  injection E as <-. rewrite Rabs_R1. auto.
Qed.
Lemma square_proper : proper square.
Proof.
  intros i r H. apply square_rounded in H. destruct H as [-> ->]. split; [lra|].
  exists (V 0 4), (V 0 0), (V 4 0), (V 0 (-1)), (V 1 0). split; [reflexivity|]. split; [reflexivity|]. split; [reflexivity|].
  split; [apply (heading_my _ _ 4); cbn; lra|]. split; [apply (heading_x _ _ 4); cbn; lra|]. cbn. lra.
Qed.
Lemma square_rounds i r P c s e : rounds square i r P c s e ->
  i = 0%nat /\ r = 1 /\ P = V 0 0 /\ s = V 0 1 /\ e = V 1 0 /\ dist c P <> 1.
Proof.
  intros (Hr & A & B & d1 & d2 & HA & HP & HB & H1 & H2 & F). apply square_rounded in Hr. destruct Hr as [-> ->].
  cbn in HA, HP, HB. injection HA as <-. injection HP as <-. injection HB as <-.
  rewrite (heading_unique _ _ _ _ H1 (heading_my (V 0 4) (V 0 0) 4 ltac:(lra) ltac:(cbn; lra) ltac:(cbn; lra))) in F.
  rewrite (heading_unique _ _ _ _ H2 (heading_x (V 0 0) (V 4 0) 4 ltac:(lra) ltac:(cbn; lra) ltac:(cbn; lra))) in F.
  apply right_corner in F; [|cbn [vx vy]; ring|apply vec_eq; cbn [vx vy]; ring]. destruct F as (-> & -> & D).
  refine (conj eq_refl (conj eq_refl (conj eq_refl (conj _ (conj _ D))))); apply vec_eq; cbn [vx vy]; ring.
Qed.
Lemma square_sharp i a : start_point square i = Ok a -> begins square i a \/ i = 0%nat.
Proof.
  intros E. destruct i as [|i]; [auto|]. left. right. split; [|exact E]. intros r H. apply square_rounded in H. destruct H as [H _]. discriminate H.
Qed.
Lemma square_corner : ~ outline square (V 0 0).
Proof.
  intros [(i & sh & c & a & b & H & Ha & Hb & X)|[(i & r & P & c & s & e & Hr & X)|[(i & a & b & f & s & H & _)|(i & a & b & c & f & s & H & _)]]].
  - assert (I : i = 0%nat \/ i = 1%nat \/ i = 2%nat \/ i = 3%nat) by (destruct i as [|[|[|[|[|i]]]]]; try discriminate H; auto).
    assert (Beg : forall j v w, j <> 0%nat -> begins square j v -> start_point square j = Ok w -> v = w).
    { intros j v w J [(r & P & o & t & Q)|[_ E]] E'; [apply square_rounds in Q; tauto|congruence]. }
    assert (End : forall j v w, after square j <> 0%nat -> ends square j v -> stop_point square j = Ok w -> v = w).
    { intros j v w J [(r & P & o & t & Q)|[_ E]] E'; [apply square_rounds in Q; tauto|congruence]. }
    destruct I as [-> |[-> |[-> | ->]]].
    + rewrite (End 0%nat b (V 4 0) ltac:(cbn; lia) Hb eq_refl) in X.
      destruct Ha as [(r & P & o & t & Q)|[N _]].
      * apply square_rounds in Q. destruct Q as (_ & _ & _ & _ & -> & _). destruct X as (t' & Ht & X). injection X as X1 X2. cbn in X1. lra.
      * apply (N (Rabs 1)). exists (PLine (V 4 0) true). eexists. split; reflexivity.
    + rewrite (End 1%nat b (V 4 4) ltac:(cbn; lia) Hb eq_refl), (Beg 1%nat a (V 4 0) ltac:(lia) Ha eq_refl) in X.
      destruct X as (t' & Ht & X). injection X as X1 X2. cbn in X1. lra.
    + rewrite (End 2%nat b (V 0 4) ltac:(cbn; lia) Hb eq_refl), (Beg 2%nat a (V 4 4) ltac:(lia) Ha eq_refl) in X.
      destruct X as (t' & Ht & X). injection X as X1 X2. cbn in X2. lra.
    + rewrite (Beg 3%nat a (V 0 4) ltac:(lia) Ha eq_refl) in X. destruct Hb as [(r & P & o & t & Q)|[N _]].
      * apply square_rounds in Q. destruct Q as (_ & _ & _ & -> & _). destruct X as (t' & Ht & X). injection X as X1 X2. cbn in X2. lra.
      * apply (N (Rabs 1)). exists (PLine (V 4 0) true). eexists. split; reflexivity.
  - apply square_rounds in Hr. destruct Hr as (_ & -> & -> & _ & _ & D). destruct X as [X _]. contradiction.
  - destruct i as [|[|[|[|[|i]]]]]; discriminate H.
  - destruct i as [|[|[|[|[|i]]]]]; discriminate H.
Qed.
Lemma square_arcs : without_arcs square.
Proof. intros [|[|[|[|[|i]]]]]; exact I. Qed.

Definition segment_value (i : nat) (p : path) : result shape :=
  bind (ppoints p i) (fun ab => Ok (SSegment (PVector (fst ab)) (PVector (snd ab)))).
Lemma reads_segment i : reads (segment_item i) (segment_value i).
Proof. unfold segment_item, segment_value. apply reads_then; [apply reads_points|]. intros ab. apply reads_ret. Qed.
Lemma reads_bulge_item i : exists f, reads (bulge_item i) f.
Proof. eexists. unfold bulge_item. apply reads_then; [apply reads_bulge|]. intros arc. apply reads_ret. Qed.

Lemma run_reads l : forall p p1 m p2, Forall (fun g => exists f, reads g f) l -> same p p1 -> coherent p1 -> run_calls l p1 = (m, None, p2) ->
  forall g f, In g l -> reads g f -> exists sh, f p = Ok sh /\ In sh m.
Proof.
  induction l as [|h l IH]; intros p p1 m p2 F S C E g f Hg Rf; [destruct Hg|].
  inversion_clear F as [|? ? (fh & Rh) Fl]. cbn [run_calls] in E.
  destruct Rh as [Sth Hh]. destruct (Hh p1 C) as (p3 & E3 & S3 & C3). rewrite E3 in E.
  destruct (fh p1) as [s|] eqn:Es; [|discriminate E].
  destruct (run_calls l p3) as [[m' e] p4] eqn:E4. injection E as <- -> <-.
  destruct Hg as [<-|Hg].
  - destruct Rf as [St Hf]. destruct (Hf p1 C) as (p5 & E5 & _). rewrite E5 in E3. injection E3 as Ef _. exists s.
    rewrite (St p p1 S), Ef. split; [reflexivity|left; reflexivity].
  - destruct (IH p p3 m' p4 Fl (same_trans _ _ _ S S3) C3 E4 g f Hg Rf) as (sh & Q & K). exists sh. split; [exact Q|right; exact K].
Qed.

Lemma twice_refuted : ~ (forall a l p k, Forall drawing l -> history (new_path a) l = Ok p -> proper p -> without_arcs p ->
  exists m p', add_as_path_segments p = (m, None, p') /\ forall x, (exists sh, In sh m /\ covers (cast_position identity k) sh x) <-> outline p x).
Proof.
  intros H. destruct (H (V 0 0) square_commands square [] ltac:(repeat constructor) square_drawn square_proper square_arcs) as (m & p' & Em & C).
  apply square_corner. apply C.
  destruct (drawn_coherent (V 0 0) square_commands square ltac:(repeat constructor) square_drawn) as (_ & Coh).
  destruct (run_reads [bulge_item 0; segment_item 0; segment_item 1; segment_item 2; segment_item 3] square square m p') with (g := segment_item 3) (f := segment_value 3)
    as (sh & E & Hin); [|reflexivity|exact Coh|exact Em|cbn; tauto|apply reads_segment|].
  { constructor; [apply reads_bulge_item|]. repeat (constructor; [eexists; apply reads_segment|]). constructor. }
  exists sh. split; [exact Hin|]. cbn in E. injection E as <-. unfold covers. exists (V 0 4), (V 0 0). rewrite !cast_vector.
  split; [reflexivity|]. split; [reflexivity|]. exists 1. split; [lra|]. apply vec_eq; cbn; ring.
Qed.

(** An arc of a path, whose angles are those of the axes of SVG *)
Lemma arc_path_refuted : ~ (forall a l p m p' k, Forall drawing l -> history (new_path a) l = Ok p -> add_as_path_segments p = (m, None, p') ->
  forall i v, (i < length (parts p))%nat -> start_point p i = Ok v -> exists sh, In sh m /\ covers (cast_position identity k) sh v).
Proof.
  intros H. destruct svg_arc_refuted as (e & s & t & E & Hd & Hc & _).
  destruct (svg_arc_ok (V 1 0) (V 0 1) 1 1 0 false true) as (e' & s' & t' & E' & Hx & Hy & An & Hd' & Sw & _ & P1 & P2).
  { lra. } { lra. } { intro Q. injection Q. lra. }
  { exists (V 0 0). split; [exists 1, 0|exists 0, 1]; (split; [unfold SpecConic.frame; cbn [vx vy]; rewrite rad_0, cos_0, sin_0; split; ring|field]). }
  assert (e' = e) by congruence. subst e'. assert (s' = s) by congruence. assert (t' = t) by congruence. subst s' t'. specialize (Sw eq_refl).
  set (p := Path (V 1 0) [PArc (V 0 1) 1 1 0 false true true] false).
  destruct (H (V 1 0) [Command (ArcTo (V 0 1) 1 1 0 false true true)] p
    [SEllipse (PVector (e_center e)) (e_rx e) (e_ry e) (e_angle e) s t] p [] ltac:(repeat constructor) eq_refl) with (i := 0%nat) (v := V 1 0) as (sh & Hin & Q).
  { unfold add_as_path_segments. cbn [all_calls parts p part_calls app run_calls]. unfold arc_item, geometry, andthen, here, ret. cbn [parts p nth_error start_point stop_point bind].
    unfold p. cbn [parts nth_error start_point stop_point bind part_stop]. 
    cbn [p0]. rewrite E. cbn [bind]. rewrite Hd. reflexivity. }
  { cbn. lia. } { reflexivity. }
  destruct Hin as [<-|[]]. destruct Q as (v & a & Ev & Sa & X). rewrite cast_vector in Ev. injection Ev as <-.
  rewrite Hc, Hx, Hy, An in X. rewrite Hc, Hx, Hy in P1, P2. rewrite Rabs_R1 in X, P1, P2.
  unfold SpecConic.ellipse_polar, SpecConic.frame in P1, P2. rewrite rad_0, cos_0, sin_0 in P1, P2. cbn [vx vy] in P1, P2.
  assert (Rn : forall z, rad (- z) = - rad z) by (intros z; unfold rad; field). rewrite !Rn, !cos_neg, !sin_neg in P1, P2.
  unfold degrees_cos, degrees_sin in X. replace (0 * PI / 180) with 0 in X by field. rewrite cos_0, sin_0 in X. injection X as X1 X2. cbn [vx vy] in X1, X2.
  fold (rad a) in X1, X2.
  assert (Cu : cos (rad t - rad s) = 0) by (rewrite cos_minus; nra).
  assert (Su : sin (rad t - rad s) = 1) by (rewrite sin_minus; nra).
  pose proof PI_RGT_0 as PI0.
  assert (Rd : rad t - rad s = (t - s) * (PI / 180)) by (unfold rad; field).
  assert (U : 0 <= rad t - rad s < 2 * PI). { rewrite Rd. split; [apply Rmult_le_pos; lra|]. nra. }
  assert (U1 : rad t - rad s <= PI). { destruct (Rle_lt_dec (rad t - rad s) PI) as [L|L]; [exact L|]. assert (sin (rad t - rad s) <= 0) by (apply sin_le_0; lra). lra. }
  assert (U2 : rad t - rad s <= PI / 2). { destruct (Rle_lt_dec (rad t - rad s) (PI/2)) as [L|L]; [exact L|]. assert (cos (rad t - rad s) < 0) by (apply cos_lt_0; lra). lra. }
  assert (Wa : s <= a <= t). { destruct Sa as [Sa|[Sa|[Sa _]]]; [|exact Sa|lra]. rewrite Rabs_pos_eq in Sa; lra. }
  assert (Ra : 0 <= rad a - rad s <= PI / 2).
  { assert (Rd' : rad a - rad s = (a - s) * (PI / 180)) by (unfold rad; field). rewrite Rd'. split; [apply Rmult_le_pos; lra|].
    apply Rle_trans with (rad t - rad s); [rewrite Rd; apply Rmult_le_compat_r; lra|exact U2]. }
  assert (C0 : 0 <= cos (rad a - rad s)) by (apply cos_ge_0; lra).
  rewrite cos_minus in C0. assert (Ss : sin (rad s) = 1) by nra. assert (Cs : cos (rad s) = 0) by nra. assert (Ea : rad a = a * PI / 180) by (unfold rad; field). rewrite <- Ea in X2. assert (Sn : sin (rad a) = -1) by lra. rewrite Cs, Ss, Sn in C0. lra.
Qed.
Lemma null_arc q ry angle large sweep : exists p, history (new_path (V 0 0)) [Command (ArcTo q 0 ry angle large sweep true)] = Ok p /\
  add_as_path_segments p = ([], Some AttributeError, p).
Proof.
  eexists. split; [reflexivity|]. unfold add_as_path_segments. cbn. unfold arc_item, geometry, andthen, here, ret. cbn.
  rewrite svg_arc_segment. reflexivity.
Qed.

(** The arc of an ellipse *)
Lemma ellipse_refuted k : exists e d sh x, e_domain e = Some d /\ 0 < e_rx e /\ 0 < e_ry e /\ add_geometry (Ellipse e) = ([sh], None) /\
  covers (cast_position identity k) sh x /\ forall a, d_start d <= a <= d_stop d -> ellipse_point_at_angle e a <> x.
Proof.
  exists (Ell (V 0 0) 2 1 0 (Some (Dom 0 90))), (Dom 0 90). eexists. exists (V (-2) 0). split; [reflexivity|]. split; [cbn; lra|]. split; [cbn; lra|].
  split; [reflexivity|]. split.
  - exists (V 0 0), 180. rewrite cast_vector. split; [reflexivity|]. split; [left; cbn; rewrite Rabs_pos_eq; lra|].
    cbn. unfold degrees_cos, degrees_sin. replace (180 * PI / 180) with PI by field. replace (0 * PI / 180) with 0 by field.
    rewrite cos_PI, sin_PI, cos_0, sin_0. apply vec_eq; cbn; ring.
  - intros a Ha X. cbn in Ha. pose proof PI_RGT_0 as PI0.
    assert (C0 : 0 <= cos (rad a)) by (apply cos_ge_0; unfold rad; nra).
    revert X. unfold ellipse_point_at_angle. cbn. intros X. injection X as X1 X2. 
    rewrite Reqb_refl in X1. unfold from_ellipse in X1. cbn [vx] in X1. try rewrite radians_rad in X1. lra.
Qed.

(** ** The geometry of an item *)
Lemma geometry_refuted : ~ (forall t c sh g x, get_geometry t c sh = Ok g ->
  match sh with SCircle _ r _ _ => 0 < r | SEllipse _ rx ry _ _ _ => 0 < rx /\ 0 < ry | SText _ _ | SPath _ _ _ | SImage _ _ => False | _ => True end ->
  covers (cast_position t c) sh x <-> points_of g x).
Proof.
  intros H. destruct (H identity [] (SEllipse (PVector (V 0 0)) 1 1 0 0 90) (Ellipse (Ell (V 0 0) 1 1 0 None)) (V 0 (-1))) as [_ Q].
  - cbn [get_geometry]. rewrite cast_vector. reflexivity.
  - cbn. lra.
  - destruct Q as (v & a & Ev & Sa & X).
    + cbn. exists 0, (-1). split; [unfold SpecConic.frame; cbn [vx vy]; rewrite rad_0, cos_0, sin_0; split; ring|field].
    + rewrite cast_vector in Ev. injection Ev as <-. destruct Sa as [Sa|[Sa|[Sa _]]]; [rewrite Rabs_pos_eq in Sa; lra| |lra].
      unfold degrees_cos, degrees_sin in X. replace (0 * PI / 180) with 0 in X by field. rewrite cos_0, sin_0 in X. injection X as X1 X2. cbn [vx vy] in X2.
      pose proof PI_RGT_0. assert (0 <= sin (a * PI / 180)) by (apply sin_ge_0; nra). lra.
Qed.
Lemma geometry_path t c p l closed v : cast_position t c p = Ok v -> get_geometry t c (SPath p l closed) = Ok (PathOf (new_path v)).
Proof. intros E. cbn. rewrite E. reflexivity. Qed.
Lemma geometry_text t c p s v : cast_position t c p = Ok v -> get_geometry t c (SText p s) = Ok (Rectangle v v).
Proof. intros E. cbn. rewrite E. reflexivity. Qed.
