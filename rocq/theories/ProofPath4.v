(** Paths: the rounded corners. *)
From Coq Require Import Reals List ZArith Bool Lia Lra.
From Verif Require Import Base ModelVector ModelTransformation ModelLine ModelBezier ModelConic ModelPath
  SpecVector SpecTransformation SpecConic SpecPath GluePath ProofVector ProofTransformation ProofConic ProofConic3
  ProofPath ProofPath2 ProofPath3.
Import ListNotations.
Local Open Scope R_scope.

(** ** Drawing keeps the caches coherent *)
Lemma values_ext p p' i : pradius p' i = pradius p i -> pdirection p' i = pdirection p i -> pprev p' i = pprev p i ->
  (forall j, pprev p i = Ok j -> pdirection p' j = pdirection p j) -> start_point p' i = start_point p i ->
  pbissector p' i = pbissector p i /\ pangle p' i = pangle p i /\ pcenter p' i = pcenter p i /\ pstart p' i = pstart p i /\ pstop p' i = pstop p i.
Proof.
  intros H1 H2 H3 H4 H5.
  assert (B : pbissector p' i = pbissector p i).
  { unfold pbissector. rewrite H1, H2, H3. destruct (pradius p i); [|reflexivity]. cbn [bind]. destruct (pdirection p i); [|reflexivity].
    cbn [bind]. destruct (pprev p i) as [j|]; [|reflexivity]. cbn [bind]. rewrite (H4 j eq_refl). reflexivity. }
  assert (A : pangle p' i = pangle p i).
  { unfold pangle. rewrite H1, H2, H3. destruct (pradius p i); [|reflexivity]. cbn [bind]. destruct (pdirection p i); [|reflexivity].
    cbn [bind]. destruct (pprev p i) as [j|]; [|reflexivity]. cbn [bind]. rewrite (H4 j eq_refl). reflexivity. }
  split; [exact B|]. split; [exact A|]. split; [unfold pcenter; rewrite H1, H5, A, B; reflexivity|]. split.
  - unfold pstart. rewrite H1, H3, H5, A. destruct (pradius p i); [|reflexivity]. cbn [bind]. destruct (pangle p i); [|reflexivity].
    cbn [bind]. destruct (pprev p i) as [j|]; [|reflexivity]. cbn [bind]. rewrite (H4 j eq_refl). reflexivity.
  - unfold pstop. rewrite H1, H2, H5, A. reflexivity.
Qed.

Lemma sane_open_start p : sane p -> closed p = false -> open_start p.
Proof. intros Hs Hc s c H. destruct (start_bulge c) eqn:B; [|reflexivity]. rewrite (sane_open p Hs s c H B) in Hc. discriminate. Qed.
Lemma sane_open_bulge p i s c : sane p -> closed p = false -> nth_error (parts p) i = Some (Linear s c) -> start_bulge c = false.
Proof. intros Hs Hc H. destruct i; [apply (sane_open_start p Hs Hc s c H)|apply (sane_bulge p Hs i s c H)]. Qed.

Lemma append_coherent p q : sane p -> closed p = false -> coherent p ->
  (forall s c, q = Linear s c -> start_bulge c = false /\ bare c = c) -> coherent (set_parts p (parts p ++ [q])).
Proof.
  intros Hs Hc Hp Hq.
  pose proof (sane_open_start p Hs Hc) as Ho.
  assert (Hb : forall s c, q = Linear s c -> start_bulge c = false) by (intros s c E; apply (Hq s c E)).
  set (p' := set_parts p (parts p ++ [q])).
  assert (D : forall i, (i < length (parts p))%nat -> pcorner p' i = pcorner p i).
  { intros i Hi. unfold pcorner, p'. cbn [set_parts parts]. rewrite nth_error_app1 by exact Hi. reflexivity. }
  assert (Dd : forall i, (i < length (parts p))%nat -> pdirection p' i = pdirection p i).
  { intros i Hi. unfold pdirection. rewrite (D i Hi). unfold p'. rewrite start_app, stop_app by (auto; lia). reflexivity. }
  intros i s c H. destruct (Nat.lt_ge_cases i (length (parts p))) as [L|L].
  - cbn [p' set_parts parts] in H. rewrite nth_error_app1 in H by exact L.
    assert (B : start_bulge c = false) by (apply (sane_open_bulge p i s c Hs Hc H)).
    assert (P : pprev p' i = match i with O => Raise AttributeError | S j => Ok j end /\ pprev p i = match i with O => Raise AttributeError | S j => Ok j end).
    { unfold pprev. rewrite (D i L). unfold pcorner. rewrite H. cbn. rewrite B. auto. }
    destruct P as [P1 P2].
    destruct (values_ext p p' i) as (V1 & V2 & V3 & V4 & V5).
    + unfold pradius. rewrite (D i L). reflexivity.
    + apply Dd, L.
    + congruence.
    + intros j Hj. apply Dd. rewrite P2 in Hj. destruct i; [discriminate|]. injection Hj as <-. lia.
    + apply start_app; [exact Ho|exact Hb|lia].
    + rewrite V1, V2, V3, V4, V5, (Dd i L). apply (Hp i s c H).
  - cbn [p' set_parts parts] in H. rewrite nth_error_app2 in H by exact L.
    destruct (i - length (parts p))%nat as [|[|n]]; cbn in H; try discriminate. injection H as ->.
    destruct (Hq s c eq_refl) as [_ E]. rewrite <- E. cbn. auto 8.
Qed.

Lemma round_coherent a l cl r l' : sane (Path a l cl) -> coherent (Path a l cl) -> ends_at a l -> start_point (Path a l cl) 0 = Ok a ->
  round_first r l = Ok l' -> coherent (Path a l' true).
Proof.
  intros Hs Hp He H0 E.
  destruct r as [r|].
  2: { cbn in E. injection E as <-.
       assert (S1 : forall i, start_point (Path a l true) i = start_point (Path a l cl) i) by (intros i; apply start_rel; reflexivity).
       assert (D : forall i, pdirection (Path a l true) i = pdirection (Path a l cl) i).
       { intros i. unfold pdirection, stop_point. rewrite S1. reflexivity. }
       intros i s c H. destruct (values_ext (Path a l cl) (Path a l true) i) as (V1 & V2 & V3 & V4 & V5); auto.
       rewrite V1, V2, V3, V4, V5, D. apply (Hp i s c H). }
  set (p := Path a l cl) in *. set (p' := Path a l' true).
  assert (S1 : forall i, start_point p' i = start_point p i) by (intros i; apply (round_first_start _ _ _ i a cl true E He H0)).
  assert (S2 : forall i, stop_point p' i = stop_point p i) by (intros i; apply (round_first_stop_point _ _ _ i a cl true E He H0)).
  pose proof (round_first_length _ _ _ E) as L.
  cbn in E. destruct l as [|[s0 c0| | | |] rest]; try discriminate. injection E as <-.
  assert (D : forall i, pdirection p' i = pdirection p i).
  { intros i. unfold pdirection. rewrite S1, S2. unfold pcorner. destruct i; reflexivity. }
  intros i s c H. destruct i as [|i].
  - cbn in H. injection H as <- <-.
    change (agrees (k_direction c0) (pdirection p' 0) /\ agrees (k_bissector c0) (pbissector p' 0) /\ True /\ True /\ True /\ True).
    rewrite D. destruct (Hp 0%nat s0 c0 eq_refl) as (A1 & A2 & _). split; [exact A1|].
    split; [|auto].
    destruct (k_bissector c0) as [v|]; [|exact I]. unfold agrees in A2 |- *.
    assert (R : exists r0, radius c0 = Some r0).
    { unfold pbissector, pradius, pcorner in A2. cbn in A2. destruct (radius c0); [eauto|discriminate]. }
    destruct R as (r0 & R).
    assert (B : start_bulge c0 = true) by (apply (sane_first p Hs s0 c0 eq_refl); congruence).
    rewrite <- A2.
    assert (P1 : pprev p' 0 = Ok (length rest)) by (unfold pprev, pcorner; cbn; rewrite Nat.sub_0_r; reflexivity).
    assert (P2 : pprev p 0 = Ok (length rest)) by (unfold pprev, pcorner; cbn; rewrite B, Nat.sub_0_r; reflexivity).
    assert (R1 : pradius p' 0 = Ok (Rabs r)) by reflexivity.
    assert (R2 : pradius p 0 = Ok r0) by (unfold pradius, pcorner; cbn; rewrite R; reflexivity).
    unfold pbissector. rewrite P1, P2, R1, R2, !D. cbn [bind]. rewrite D. reflexivity.
  - cbn in H. destruct (values_ext p p' (S i)) as (V1 & V2 & V3 & V4 & V5).
    + reflexivity.
    + apply D.
    + reflexivity.
    + intros j _. apply D.
    + apply S1.
    + rewrite V1, V2, V3, V4, V5, D. apply (Hp (S i) s c H).
Qed.

(** Closing goes back to the start, as long as it is not moved. *)
Definition anchored (p : path) : Prop := (closed p = true -> ends_at (p0 p) (parts p)) /\ start_point p 0 = Ok (p0 p).
Lemma new_anchored a : anchored (new_path a). Proof. split; [discriminate|reflexivity]. Qed.
Lemma command_anchored p c p' : sane p -> anchored p -> do_command p c = Ok p' -> anchored p'.
Proof.
  intros Hs [He H0] E. destruct (closed p) eqn:Hc.
  - destruct (do_command_closed p c p' Hc E) as (l & El & ->). destruct p as [a lp cl]. cbn [p0 parts closed] in *.
    split; [intros _; apply (round_first_ends _ _ _ _ El (He eq_refl))|].
    rewrite (round_first_start _ _ _ 0 a cl true El (He eq_refl) H0). exact H0.
  - pose proof (sane_open_start p Hs Hc) as Ho. destruct (is_close c) eqn:Ec.
    + destruct c; try discriminate. destruct (do_close_open p r close_radius p' Hc E) as (q & l & Eq & El & ->).
      assert (Hb := appended_bulge _ _ _ Eq).
      assert (He' : ends_at (p0 p) (parts p ++ [q])).
      { cbn [appended] in Eq. apply linear_part_eq in Eq. eexists. rewrite last_last. exact Eq. }
      assert (H1 : start_point (Path (p0 p) (parts p ++ [q]) (closed p)) 0 = Ok (p0 p)).
      { change (start_point (set_parts p (parts p ++ [q])) 0 = Ok (p0 p)). rewrite start_app by (auto; lia). exact H0. }
      split; [intros _; apply (round_first_ends _ _ _ _ El He')|]. cbn [p0].
      rewrite (round_first_start _ _ _ 0 (p0 p) (closed p) true El He' H1). exact H1.
    + destruct (do_command_open p c p' Hc Ec E) as (q & Eq & ->).
      pose proof (appended_bulge _ _ _ Eq) as Hb.
      split; [cbn; congruence|]. rewrite start_app by (auto; lia). exact H0.
Qed.
Lemma same_anchored p p' : same p p' -> anchored p -> anchored p'.
Proof.
  intros S [He H0]. split.
  - intros Hc. rewrite <- (same_closed _ _ S) in Hc. specialize (He Hc). apply ends_nth. apply ends_nth in He. destruct He as (k & Hk).
    destruct (same_linear p' p _ _ k (same_sym _ _ S) Hk) as (c0 & E0 & _). exists c0. rewrite <- (same_length p p' S), <- (same_p0 _ _ S). exact E0.
  - rewrite <- (same_start p p' 0 S), <- (same_p0 _ _ S). exact H0.
Qed.

Lemma command_coherent p c p' : sane p -> anchored p -> coherent p -> do_command p c = Ok p' -> coherent p'.
Proof.
  intros Hs [He H0] Hp E. destruct (closed p) eqn:Hc.
  - destruct (do_command_closed p c p' Hc E) as (l & El & ->). destruct p as [a lp cl]. cbn [p0 parts closed] in *.
    apply (round_coherent a lp cl _ l Hs Hp (He eq_refl) H0 El).
  - pose proof (sane_open_start p Hs Hc) as Ho. destruct (is_close c) eqn:Ec.
    + destruct c; try discriminate. destruct (do_close_open p r close_radius p' Hc E) as (q & l & Eq & El & ->).
      assert (Hb := appended_bulge _ _ _ Eq).
      assert (He' : ends_at (p0 p) (parts p ++ [q])).
      { pose proof Eq as Eq'. cbn [appended] in Eq'. apply linear_part_eq in Eq'. eexists. rewrite last_last. exact Eq'. }
      assert (H1 : start_point (Path (p0 p) (parts p ++ [q]) (closed p)) 0 = Ok (p0 p)).
      { change (start_point (set_parts p (parts p ++ [q])) 0 = Ok (p0 p)). rewrite start_app by (auto; lia). exact H0. }
      assert (Hs1 : sane (set_parts p (parts p ++ [q]))).
      { apply append_sane; [exact Hs|exact Hc|]. intros s k ->. destruct (appended_linear _ _ _ _ Eq) as (A & B & C & _). auto. }
      apply (round_coherent (p0 p) (parts p ++ [q]) (closed p) close_radius l Hs1); [|exact He'|exact H1|exact El].
      apply append_coherent; [exact Hs|exact Hc|exact Hp|]. intros s k ->. destruct (appended_linear _ _ _ _ Eq) as (A & _ & _ & B). auto.
    + destruct (do_command_open p c p' Hc Ec E) as (q & Eq & ->). apply append_coherent; [exact Hs|exact Hc|exact Hp|].
      intros s k ->. destruct (appended_linear _ _ _ _ Eq) as (A & _ & _ & B). auto.
Qed.

Lemma new_coherent a : coherent (new_path a).
Proof. intros [|i] s c H; discriminate. Qed.

Lemma drawing_coherent l : forall p p', Forall drawing l -> sane p -> anchored p -> coherent p -> history p l = Ok p' ->
  sane p' /\ anchored p' /\ coherent p'.
Proof.
  induction l as [|e l IH]; intros p p' Hd Hs Ha Hp E; cbn [history] in E; [injection E as <-; auto|].
  inversion_clear Hd as [|? ? Hd1 Hd2].
  destruct (happen p e) as [q|] eqn:Eq; [|discriminate]. cbn [bind] in E.
  destruct e; try (destruct Hd1; fail); cbn [happen] in Eq.
  - apply (IH q p' Hd2); [apply (command_sane p c q Hs Eq)|apply (command_anchored p c q Hs Ha Eq)|apply (command_coherent p c q Hs Ha Hp Eq)|exact E].
  - injection Eq as <-. pose proof (reading_same r p) as S.
    apply (IH (reading r p) p' Hd2); [apply (same_sane _ _ S Hs)|apply (same_anchored _ _ S Ha)|apply reading_coherent, Hp|exact E].
Qed.

(** ** The values of a rounded corner *)
Definition dotv (a b : vec) : R := vx a * vx b + vy a * vy b.
Definition crossv (a b : vec) : R := vx a * vy b - vy a * vx b.
Definition unitv (a : vec) : Prop := vx a * vx a + vy a * vy a = 1.

Lemma unit_len a : unitv a -> len a = 1.
Proof. intros H. unfold len. rewrite H. apply sqrt_1. Qed.
Lemma unit_not_null a : unitv a -> ~ null a.
Proof. unfold unitv. intros H [A B]. rewrite A, B in H. lra. Qed.
Lemma dot_cross a b : unitv a -> unitv b -> dotv a b * dotv a b + crossv a b * crossv a b = 1.
Proof.
  unfold unitv, dotv, crossv. intros Ha Hb.
  transitivity ((vx a * vx a + vy a * vy a) * (vx b * vx b + vy b * vy b)); [ring|]. rewrite Ha, Hb. ring.
Qed.

(** The angle between the directions. *)
Lemma angle_unit d1 d2 : unitv d1 -> unitv d2 -> exists t, angle_with d2 d1 = Ok t /\ -180 <= t <= 180 /\
  cos (rad t) = dotv d1 d2 /\ sin (rad t) = crossv d1 d2.
Proof.
  intros U1 U2. destruct (angle_with_ok d2 d1 (unit_not_null _ U2) (unit_not_null _ U1)) as (t & E & B & X & Y).
  rewrite (unit_len _ U1), (unit_len _ U2) in *. exists t. split; [exact E|]. split; [exact B|].
  unfold unitv in U1. unfold dotv, crossv. replace (vx d2) with (cos (rad t) * vx d1 - sin (rad t) * vy d1) by lra.
  replace (vy d2) with (sin (rad t) * vx d1 + cos (rad t) * vy d1) by lra.
  split.
  - transitivity (cos (rad t) * (vx d1 * vx d1 + vy d1 * vy d1)); [rewrite U1; ring|ring].
  - transitivity (sin (rad t) * (vx d1 * vx d1 + vy d1 * vy d1)); [rewrite U1; ring|ring].
Qed.

(** The half angle of the bulge: [h] for a turn of [2 g] radians, [0 < g < PI / 2]. *)
Lemma half_angle d1 d2 t : angle_with d2 d1 = Ok t -> -180 <= t <= 180 -> cos (rad t) = dotv d1 d2 -> sin (rad t) = crossv d1 d2 ->
  crossv d1 d2 <> 0 ->
  exists g, 0 < g < PI / 2 /\
    radians (if Rleb 0 t then 180 - t else - (180 + t)) / 2 = (if Rltb 0 (crossv d1 d2) then 1 else -1) * (PI / 2 - g) /\
    2 * (sin g * cos g) = Rabs (crossv d1 d2) /\ 1 - 2 * (sin g * sin g) = dotv d1 d2.
Proof.
  intros E B C S N. pose proof PI_RGT_0 as HPI.
  assert (T0 : t <> 0). { intros ->. rewrite rad_0, sin_0 in S. congruence. }
  assert (T1 : t <> 180). { intros ->. rewrite rad_180, sin_PI in S. congruence. }
  assert (T2 : t <> -180).
  { intros ->. replace (rad (-180)) with (- PI) in S by (unfold rad; field). rewrite sin_neg, sin_PI in S. lra. }
  exists (rad (Rabs t) / 2).
  assert (D : 2 * (rad (Rabs t) / 2) = rad (Rabs t)) by field.
  destruct (Rltb_spec 0 t) as [P|P].
  - rewrite (Rabs_pos_eq t) in * by lra.
    assert (0 < rad t < PI) as R. { unfold rad. split; [apply Rmult_lt_0_compat; lra|]. assert (t / 180 < 1) by lra. nra. }
    assert (Sp : 0 < crossv d1 d2). { rewrite <- S. apply sin_gt_0; lra. }
    split; [lra|]. rewrite Rleb_true by lra. rewrite Rltb_true by exact Sp. split; [unfold radians, rad; field|].
    split; [|].
    + rewrite (Rabs_pos_eq (crossv d1 d2)) by lra. rewrite <- S. transitivity (sin (2 * (rad t / 2))); [rewrite sin_2a; ring|f_equal; field].
    + rewrite <- C. transitivity (cos (2 * (rad t / 2))); [rewrite cos_2a_sin; ring|f_equal; field].
  - rewrite (Rabs_left t) in * by lra.
    assert (rad (- t) = - rad t) as Rn by (unfold rad; field). rewrite Rn in *.
    assert (0 < - rad t < PI) as R. { rewrite <- Rn. unfold rad. split; [apply Rmult_lt_0_compat; lra|]. assert (- t / 180 < 1) by lra. nra. }
    assert (Sp : crossv d1 d2 < 0). { rewrite <- S. pose proof (sin_gt_0 (- rad t)) as G. rewrite sin_neg in G. lra. }
    split; [lra|]. rewrite Rleb_false by lra. rewrite Rltb_false by lra. split; [unfold radians, rad; field|].
    split.
    + rewrite (Rabs_left (crossv d1 d2)) by exact Sp. rewrite <- S. rewrite <- sin_neg. transitivity (sin (2 * (- rad t / 2))); [rewrite sin_2a; ring|f_equal; field].
    + rewrite <- C. rewrite <- (cos_neg (rad t)). transitivity (cos (2 * (- rad t / 2))); [rewrite cos_2a_sin; ring|f_equal; field].
Qed.

(** Centre and ends of the arc rounding the corner [p]. *)
Definition arc_ratio (d1 d2 : vec) (r : R) : R := r / Rabs (crossv d1 d2).
Definition arc_center (p d1 d2 : vec) (r : R) : vec :=
  V (vx p + arc_ratio d1 d2 r * (vx d2 - vx d1)) (vy p + arc_ratio d1 d2 r * (vy d2 - vy d1)).
Definition arc_start (p d1 d2 : vec) (r : R) : vec :=
  V (vx p - arc_ratio d1 d2 r * (1 - dotv d1 d2) * vx d1) (vy p - arc_ratio d1 d2 r * (1 - dotv d1 d2) * vy d1).
Definition arc_stop (p d1 d2 : vec) (r : R) : vec :=
  V (vx p + arc_ratio d1 d2 r * (1 - dotv d1 d2) * vx d2) (vy p + arc_ratio d1 d2 r * (1 - dotv d1 d2) * vy d2).

(** The data of a corner. *)
Record corner_data (p : path) (i : nat) (r : R) (P d1 d2 : vec) : Prop := {
  cd_radius : pradius p i = Ok r;
  cd_direction : pdirection p i = Ok d2;
  cd_prev : exists j, pprev p i = Ok j /\ pdirection p j = Ok d1;
  cd_start : start_point p i = Ok P }.

Lemma vdiv_ok a k : k <> 0 -> vdiv a k = Ok (V (vx a / k) (vy a / k)).
Proof. intros H. unfold vdiv. rewrite Reqb_false by exact H. reflexivity. Qed.

Lemma normalise_unit a b : normalise a = Ok b -> unitv b.
Proof.
  unfold normalise, vdiv. rewrite magnitude_len. destruct (Reqb_spec (len a) 0) as [|N]; [discriminate|].
  intros E. injection E as <-. unfold unitv. cbn.
  assert (L : len a * len a = vx a * vx a + vy a * vy a). { unfold len. apply sqrt_sqrt. nra. }
  transitivity ((vx a * vx a + vy a * vy a) / (len a * len a)); [field; exact N|]. rewrite L. field. rewrite <- L. nra.
Qed.
Lemma direction_unit p i d : pdirection p i = Ok d -> unitv d.
Proof.
  unfold pdirection. destruct (pcorner p i); [|discriminate]. cbn [bind]. destruct (stop_point p i); [|discriminate]. cbn [bind].
  destruct (start_point p i); [|discriminate]. cbn [bind]. apply normalise_unit.
Qed.

Lemma corner_values p i r P d1 d2 : corner_data p i r P d1 d2 -> crossv d1 d2 <> 0 ->
  pcenter p i = Ok (arc_center P d1 d2 r) /\ pstart p i = Ok (arc_start P d1 d2 r) /\ pstop p i = Ok (arc_stop P d1 d2 r) /\
  exists h, pangle p i = Ok h /\ 0 < Rabs h < PI /\ (0 < h <-> 0 < crossv d1 d2).
Proof.
  intros [Hr Hd (j & Hj & He) Hs] N. pose proof PI_RGT_0 as HPI.
  pose proof (direction_unit _ _ _ Hd) as U2. pose proof (direction_unit _ _ _ He) as U1.
  destruct (angle_unit d1 d2 U1 U2) as (t & Et & Bt & Ct & St).
  destruct (half_angle d1 d2 t Et Bt Ct St N) as (g & G & Eh & Es & Ed).
  set (h := radians (if Rleb 0 t then 180 - t else - (180 + t))) in *.
  assert (A : pangle p i = Ok h).
  { unfold pangle. rewrite Hr, Hd, Hj. cbn [bind]. rewrite He. cbn [bind]. rewrite Et. reflexivity. }
  set (e := if Rltb 0 (crossv d1 d2) then 1 else -1) in *.
  assert (Ee : e = 1 \/ e = -1) by (unfold e; destruct (Rltb 0 _); auto).
  assert (Sg : 0 < sin g) by (apply sin_gt_0; lra). assert (Cg : 0 < cos g) by (apply cos_gt_0; lra).
  assert (Sc : sin g * sin g + cos g * cos g = 1) by (pose proof (sin2_cos2 g); unfold Rsqr in *; lra).
  assert (Kpos : 0 < Rabs (crossv d1 d2)) by (apply Rabs_pos_lt; exact N).
  (* trigonometry *)
  assert (Habs : Rabs (h / 2) = PI / 2 - g).
  { rewrite Eh, Rabs_mult, (Rabs_pos_eq (PI / 2 - g)) by lra. destruct Ee as [-> | ->]; rewrite ?Rabs_R1, ?Rabs_Ropp, ?Rabs_R1; try lra.
    replace (-1) with (- (1)) by lra. rewrite Rabs_Ropp, Rabs_R1. lra. }
  assert (Hsin : sin (Rabs (h / 2)) = cos g) by (rewrite Habs; apply sin_shift).
  assert (Htan : tan (h / 2) = e * (cos g / sin g)).
  { rewrite Eh. destruct Ee as [-> | ->].
    - rewrite !Rmult_1_l. unfold tan. rewrite sin_shift, cos_shift. reflexivity.
    - replace (-1 * (PI / 2 - g)) with (- (PI / 2 - g)) by ring. rewrite tan_neg. unfold tan. rewrite sin_shift, cos_shift. field. lra. }
  assert (Hsign : sign (h / 2) = e).
  { rewrite Eh. unfold sign. destruct Ee as [-> | ->].
    - repeat match goal with |- context [Rltb ?a ?b] => destruct (Rltb_spec a b) | |- context [Rleb ?a ?b] => destruct (Rleb_spec a b) | |- context [Reqb ?a ?b] => destruct (Reqb_spec a b) end; lra.
    - repeat match goal with |- context [Rltb ?a ?b] => destruct (Rltb_spec a b) | |- context [Rleb ?a ?b] => destruct (Rleb_spec a b) | |- context [Reqb ?a ?b] => destruct (Reqb_spec a b) end; lra. }
  assert (Ht0 : tan (h / 2) <> 0).
  { rewrite Htan. assert (0 < cos g / sin g) by (apply Rdiv_lt_0_compat; assumption). destruct Ee as [-> | ->]; lra. }
  assert (K : forall x, e * (r * x / (e * (cos g / sin g))) = arc_ratio d1 d2 r * (1 - dotv d1 d2) * x).
  { intros x. unfold arc_ratio. rewrite <- Ed, <- Es. destruct Ee as [-> | ->]; field; lra. }
  assert (Es' : e * e = 1) by (destruct Ee as [-> | ->]; ring).
  split; [|split; [|split]].
  - (* centre *)
    assert (Bis : pbissector p i = Ok (V ((vx d2 - vx d1) / (2 * sin g)) ((vy d2 - vy d1) / (2 * sin g)))).
    { unfold pbissector. rewrite Hr, Hd, Hj. cbn [bind]. rewrite He. cbn [bind].
      unfold normalise. assert (M : magnitude (vsub d2 d1) = 2 * sin g).
      { rewrite magnitude_len. apply sq_eq_nonneg; [apply len_nonneg|lra|]. rewrite len_sq. cbn.
        unfold unitv in U1, U2. unfold dotv in Ed. nra. }
      rewrite M, vdiv_ok by lra. reflexivity. }
    unfold pcenter. rewrite Hr, Bis, A, Hs. cbn [bind]. rewrite Hsin, vdiv_ok by lra. cbn [bind].
    f_equal. apply vec_eq; cbn; unfold arc_ratio; rewrite <- Es; field; lra.
  - unfold pstart. rewrite Hr, A, Hj, Hs. cbn [bind]. rewrite He. cbn [bind]. rewrite vdiv_ok by exact Ht0. cbn [bind].
    rewrite Hsign, Htan. f_equal. apply vec_eq; cbn; rewrite K; ring.
  - unfold pstop. rewrite Hr, A, Hd, Hs. cbn [bind]. rewrite vdiv_ok by exact Ht0. cbn [bind].
    rewrite Hsign, Htan. f_equal. apply vec_eq; cbn; rewrite K; ring.
  - exists h. split; [exact A|]. replace h with (2 * (h / 2)) by field. split.
    + rewrite Rabs_mult, Habs, (Rabs_pos_eq 2) by lra. lra.
    + rewrite Eh. unfold e. destruct (Rltb_spec 0 (crossv d1 d2)) as [Q|Q]; split; lra.
Qed.

Lemma fillet_ok P d1 d2 r : unitv d1 -> unitv d2 -> crossv d1 d2 <> 0 -> 0 < r ->
  fillet P d1 d2 r (arc_center P d1 d2 r) (arc_start P d1 d2 r) (arc_stop P d1 d2 r).
Proof.
  intros U1 U2 N Hr. pose proof (dot_cross d1 d2 U1 U2) as DC.
  assert (Kpos : 0 < Rabs (crossv d1 d2)) by (apply Rabs_pos_lt; exact N).
  set (o := arc_ratio d1 d2 r). assert (Ho : 0 < o) by (apply Rdiv_lt_0_compat; assumption).
  assert (Hc : dotv d1 d2 < 1). { assert (0 < crossv d1 d2 * crossv d1 d2) by nra. nra. }
  assert (Hor : (o * crossv d1 d2) * (o * crossv d1 d2) = r * r).
  { assert (Ha : Rabs (crossv d1 d2) * Rabs (crossv d1 d2) = crossv d1 d2 * crossv d1 d2).
    { rewrite <- Rabs_mult. apply Rabs_pos_eq. nra. }
    transitivity (o * o * (Rabs (crossv d1 d2) * Rabs (crossv d1 d2))); [rewrite Ha; ring|]. unfold o, arc_ratio. field. lra. }
  exists (o * (1 - dotv d1 d2)). unfold unitv in U1, U2.
  (* d2 in the frame of d1, and back *)
  assert (X1 : vx d2 - dotv d1 d2 * vx d1 = - crossv d1 d2 * vy d1).
  { unfold dotv, crossv. transitivity (vx d2 * (vx d1 * vx d1 + vy d1 * vy d1) - (vx d1 * vx d2 + vy d1 * vy d2) * vx d1); [rewrite U1; ring|ring]. }
  assert (Y1 : vy d2 - dotv d1 d2 * vy d1 = crossv d1 d2 * vx d1).
  { unfold dotv, crossv. transitivity (vy d2 * (vx d1 * vx d1 + vy d1 * vy d1) - (vx d1 * vx d2 + vy d1 * vy d2) * vy d1); [rewrite U1; ring|ring]. }
  assert (X2 : dotv d1 d2 * vx d2 - vx d1 = - crossv d1 d2 * vy d2).
  { unfold dotv, crossv. transitivity ((vx d1 * vx d2 + vy d1 * vy d2) * vx d2 - vx d1 * (vx d2 * vx d2 + vy d2 * vy d2)); [rewrite U2; ring|ring]. }
  assert (Y2 : dotv d1 d2 * vy d2 - vy d1 = crossv d1 d2 * vx d2).
  { unfold dotv, crossv. transitivity ((vx d1 * vx d2 + vy d1 * vy d2) * vy d2 - vy d1 * (vx d2 * vx d2 + vy d2 * vy d2)); [rewrite U2; ring|ring]. }
  assert (CS : vx (arc_center P d1 d2 r) - vx (arc_start P d1 d2 r) = o * (- crossv d1 d2 * vy d1) /\
               vy (arc_center P d1 d2 r) - vy (arc_start P d1 d2 r) = o * (crossv d1 d2 * vx d1)).
  { cbn. fold o. rewrite <- X1, <- Y1. split; ring. }
  assert (CE : vx (arc_center P d1 d2 r) - vx (arc_stop P d1 d2 r) = o * (- crossv d1 d2 * vy d2) /\
               vy (arc_center P d1 d2 r) - vy (arc_stop P d1 d2 r) = o * (crossv d1 d2 * vx d2)).
  { cbn. fold o. rewrite <- X2, <- Y2. split; ring. }
  destruct CS as [CSx CSy]. destruct CE as [CEx CEy].
  split; [apply Rmult_lt_0_compat; lra|]. split; [reflexivity|]. split; [reflexivity|]. split; [reflexivity|]. split; [reflexivity|].
  split; [|split; [|split]].
  - apply sq_eq_nonneg; [apply dist_nonneg|lra|]. rewrite dist_sq, CSx, CSy. rewrite <- Hor.
    transitivity ((o * crossv d1 d2) * (o * crossv d1 d2) * (vx d1 * vx d1 + vy d1 * vy d1)); [ring|rewrite U1; ring].
  - apply sq_eq_nonneg; [apply dist_nonneg|lra|]. rewrite dist_sq, CEx, CEy. rewrite <- Hor.
    transitivity ((o * crossv d1 d2) * (o * crossv d1 d2) * (vx d2 * vx d2 + vy d2 * vy d2)); [ring|rewrite U2; ring].
  - rewrite CSx, CSy. ring.
  - rewrite CEx, CEy. ring.
Qed.
