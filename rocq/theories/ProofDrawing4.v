From Coq Require Import Reals List ZArith Lra Lia Bool.
From Verif Require Import Base ModelVector ModelTransformation ModelLine ModelBezier ModelConic ModelPath ModelSpline.
From Verif Require Import SpecVector ProofVector ProofConic ProofConic3 GluePath ProofPath ProofPath2 ProofPath3 ProofPath4 ProofPath5 ProofPath6.
From Verif Require ModelScene SpecConic.
Import ModelScene(position, PVector, PName, PNumber, coordinates, cast_position).
From Verif Require Import ModelPainter ModelDrawing SpecPath.
Import SpecConic(polar).
From Verif Require SpecPainter.
Import SpecPainter(on_segment, on_quadratic, on_cubic, covers, degrees_cos, degrees_sin).
From Verif Require Import SpecDrawing ProofDrawing ProofDrawing3.
Import ListNotations.
Local Open Scope R_scope.

(** ** The calls *)
Definition gives (p : path) (f : reader shape) (sh : shape) : Prop := forall p1, same p p1 -> coherent p1 ->
  exists p2, f p1 = (Ok sh, p2) /\ same p p2 /\ coherent p2.
Lemma reads_gives (m : reader shape) f p sh : reads m f -> f p = Ok sh -> gives p m sh.
Proof.
  intros [St H] E p1 S C. destruct (H p1 C) as (p2 & E2 & S2 & C2). exists p2. rewrite E2, <- (St p p1 S), E.
  split; [reflexivity|]. split; [exact (same_trans _ _ _ S S2)|exact C2].
Qed.
Lemma run_gives p l : forall m p1, Forall2 (gives p) l m -> same p p1 -> coherent p1 ->
  exists p2, run_calls l p1 = (m, None, p2) /\ same p p2 /\ coherent p2.
Proof.
  induction l as [|f l IH]; intros m p1 H S C; inversion_clear H as [|? sh ? m' Hf Hl]; [exists p1; auto|].
  destruct (Hf p1 S C) as (p2 & E & S2 & C2). destruct (IH m' p2 Hl S2 C2) as (p3 & E3 & K).
  exists p3. cbn [run_calls]. rewrite E, E3. auto.
Qed.

(** ** Closing *)
Definition linked (p : path) : Prop :=
  (forall i s c, nth_error (parts p) i = Some (Linear s c) -> closing c = true -> S i = length (parts p) /\ closed p = true) /\
  (forall r s c, rounded p 0 r -> nth_error (parts p) (length (parts p) - 1) = Some (Linear s c) -> closing c = true).

Lemma same_rounded p p' i r : same p p' -> rounded p' i r -> rounded p i r.
Proof.
  intros S (s & c & H & E). destruct (same_linear p p' i s c S H) as (c0 & H0 & B). destruct (bare_inj _ _ B) as (Br & _ & _).
  exists s, c0. split; [exact H0|congruence].
Qed.
Lemma same_linked p p' : same p p' -> linked p -> linked p'.
Proof.
  intros S [L1 L2]. split.
  - intros i s c H E. destruct (same_linear p p' i s c S H) as (c0 & H0 & B). destruct (bare_inj _ _ B) as (_ & _ & Bc).
    rewrite <- (same_length p p' S), <- (same_closed p p' S). apply (L1 i s c0 H0). congruence.
  - intros r s c Hr H. rewrite <- (same_length p p' S) in H. destruct (same_linear p p' _ s c S H) as (c0 & H0 & B). destruct (bare_inj _ _ B) as (_ & _ & Bc).
    rewrite <- Bc. apply (L2 r s c0); [apply (same_rounded p p' 0 r S Hr)|exact H0].
Qed.
Lemma open_sharp p r : sane p -> closed p = false -> ~ rounded p 0 r.
Proof.
  intros Hs Hc (s & c & H & E). assert (B : start_bulge c = true) by (apply (sane_first p Hs s c H); congruence).
  rewrite (sane_open p Hs s c H B) in Hc. discriminate.
Qed.
Lemma appended_closing p c q s k : is_close c = false -> appended p c = Ok q -> q = Linear s k -> closing k = false.
Proof.
  intros Hc H ->. destruct c; try discriminate; simpl in H; try destruct absolute; try discriminate;
  apply linear_part_eq in H; injection H as -> ->; reflexivity.
Qed.

Lemma command_linked p c p' : sane p -> linked p -> (closed p = true -> is_close c = false) -> do_command p c = Ok p' ->
  sane p' -> linked p' /\ (closed p' = true -> closed p = true \/ is_close c = true).
Proof.
  intros Hs [L1 L2] Hcl E Hs'. destruct (closed p) eqn:Hc.
  - destruct (do_command_closed p c p' Hc E) as (l & El & ->). assert (R : rounds_start c = None) by (specialize (Hcl eq_refl); destruct c; try discriminate; reflexivity).
    rewrite R in El. injection El as <-. split; [|auto]. split; cbn [parts closed p0].
    + intros i s k H K. destruct (L1 i s k H K) as [L _]. auto.
    + intros r s k Hr. apply (L2 r s k). exact Hr.
  - destruct (is_close c) eqn:Ec; [split; [|auto]|].
    + destruct c; try discriminate. destruct (do_close_open p r close_radius p' Hc E) as (q & l & Eq & El & ->). cbn [appended] in Eq. apply linear_part_eq in Eq.
      assert (Ln : length l = S (length (parts p))) by (rewrite (round_first_length _ _ _ El), app_length; cbn; lia).
      assert (Same : forall i s k, nth_error l i = Some (Linear s k) -> exists k0, nth_error (parts p ++ [q]) i = Some (Linear s k0) /\ closing k0 = closing k).
      { intros i s k H. destruct close_radius as [cr|]; cbn [round_first] in El; [|injection El as <-; eauto].
        destruct (parts p ++ [q]) as [|[s0 k0| | | |] rest] eqn:Er; try discriminate. injection El as <-.
        destruct i as [|i]; [|exists k; auto]. cbn in H. injection H as <- <-. exists k0. auto. }
      split; cbn [parts closed p0].
      * intros i s k H K. split; [|reflexivity]. rewrite Ln. destruct (Same i s k H) as (k0 & H0 & K0). rewrite K in K0.
        destruct (Nat.lt_total i (length (parts p))) as [L|[L|L]]; [|lia|].
        -- rewrite nth_error_app1 in H0 by exact L. destruct (L1 i s k0 H0 K0) as [_ Q]. congruence.
        -- rewrite nth_error_app2 in H0 by lia. destruct (i - length (parts p))%nat as [|j] eqn:Ej; [lia|]. destruct j; discriminate.
      * intros r0 s k Hr H. destruct (Same _ s k H) as (k0 & H0 & K0). rewrite <- K0.
        replace (length l - 1)%nat with (length (parts p)) in H0 by lia. rewrite nth_error_app2, Nat.sub_diag in H0 by lia. cbn in H0. rewrite Eq in H0. injection H0 as <- <-.
        cbn. destruct close_radius as [cr|]; [reflexivity|exfalso]. injection El as <-. destruct Hr as (s1 & c1 & Hr & Er). cbn [parts] in Hr.
        destruct (parts p) as [|q0 ps] eqn:Ep.
        -- cbn in Hr. injection Hr as Hr. subst q. injection Hr as <- <-. 
           unfold do_command, close, add_part, linear_part in E. rewrite Hc, Ep in E. cbn in E, Er. destruct r; cbn in *; discriminate.
        -- apply (open_sharp p r0 Hs Hc). exists s1, c1. rewrite Ep. auto.
    + destruct (do_command_open p c p' Hc Ec E) as (q & Eq & ->). split.
      2: { cbn. rewrite Hc. discriminate. }
      split.
      * intros i s k H K. cbn [parts closed set_parts] in *. exfalso.
        destruct (Nat.lt_total i (length (parts p))) as [L|[L|L]].
        -- rewrite nth_error_app1 in H by exact L. destruct (L1 i s k H K) as [_ Q]. congruence.
        -- rewrite nth_error_app2, L, Nat.sub_diag in H by lia. cbn in H. injection H as H. rewrite (appended_closing p c q s k Ec Eq H) in K. discriminate.
        -- rewrite nth_error_app2 in H by lia. destruct (i - length (parts p))%nat as [|j] eqn:Ej; [lia|]. destruct j; discriminate.
      * intros r s k Hr. exfalso. apply (open_sharp _ r Hs' Hc Hr).
Qed.

Lemma history_linked l : forall p p', Forall drawing l -> sane p -> linked p ->
  (closed p = true -> filter is_closing l = []) -> closed_once l -> history p l = Ok p' -> linked p'.
Proof.
  induction l as [|e l IH]; intros p p' Hd Hs Hl Hc Ho E; cbn [history] in E; [injection E as <-; exact Hl|].
  inversion_clear Hd as [|? ? Hd1 Hd2]. destruct (happen p e) as [q|] eqn:Eq; [|discriminate]. cbn [bind] in E.
  destruct e as [c|r| |]; try (destruct Hd1; fail); cbn [happen] in Eq.
  - pose proof (command_sane p c q Hs Eq) as Hsq.
    assert (Hcc : closed p = true -> is_close c = false).
    { intros K. specialize (Hc K). cbn [filter is_closing] in Hc. destruct c; try reflexivity; discriminate. }
    destruct (command_linked p c q Hs Hl Hcc Eq Hsq) as [Lq Cq].
    apply (IH q p' Hd2 Hsq Lq); [| |exact E].
    + intros K. destruct (Cq K) as [Kp|Kc].
      * specialize (Hc Kp). cbn [filter] in Hc. destruct (is_closing (Command c)); [discriminate|exact Hc].
      * unfold closed_once in Ho. cbn [filter] in Ho. replace (is_closing (Command c)) with true in Ho by (destruct c; try discriminate; reflexivity).
        cbn in Ho. destruct (filter is_closing l); [reflexivity|cbn in Ho; lia].
    + unfold closed_once in *. cbn [filter] in Ho. destruct (is_closing (Command c)); cbn in Ho; lia.
  - injection Eq as <-. pose proof (reading_same r p) as S. apply (IH (reading r p) p' Hd2); [exact (same_sane _ _ S Hs)|exact (same_linked _ _ S Hl)| |exact Ho|exact E].
    intros K. rewrite <- (same_closed _ _ S) in K. exact (Hc K).
Qed.
Lemma new_linked a : linked (new_path a).
Proof. split; [intros [|i] s c H; discriminate|intros r s c (s' & c' & H & _); discriminate]. Qed.

Lemma follows_next p i s c : linked p -> nth_error (parts p) i = Some (Linear s c) ->
  next_index i c = after p i \/ (forall r, ~ rounded p (next_index i c) r) /\ (forall r, ~ rounded p (after p i) r).
Proof.
  intros [L1 L2] H. assert (Hi : (i < length (parts p))%nat) by (apply nth_error_Some; congruence).
  unfold next_index, after. destruct (Nat.eqb_spec (S i) (length (parts p))) as [El|Nl].
  - destruct (closing c) eqn:Kc.
    + destruct (L1 i s c H Kc) as [_ ->]. auto.
    + destruct (closed p); [|left; lia]. right. split.
      * intros r (s1 & c1 & H1 & _). assert (Hn : (i + 1 < length (parts p))%nat) by (apply nth_error_Some; congruence). lia.
      * intros r Hr. replace i with (length (parts p) - 1)%nat in H by lia. rewrite (L2 r s c Hr H) in Kc. discriminate.
  - destruct (closing c) eqn:Kc; [destruct (L1 i s c H Kc); contradiction|]. left. lia.
Qed.

(** ** The corners *)
Section Outline.
Variables (a0 : vec) (l0 : list event) (p : path).
Hypothesis Hd : Forall drawing l0.
Hypothesis He : history (new_path a0) l0 = Ok p.
Hypothesis Ho : closed_once l0.
Hypothesis Hp : proper p.
Hypothesis Ha : without_arcs p.
Variable k : coordinates.

Let Hs : sane p. Proof. apply (drawn_coherent a0 l0 p Hd He). Qed.
Let Hcoh : coherent p. Proof. apply (drawn_coherent a0 l0 p Hd He). Qed.
Let Hl : linked p.
Proof. apply (history_linked l0 (new_path a0) p Hd (new_sane a0) (new_linked a0)); [discriminate|exact Ho|exact He]. Qed.

Lemma no_stringed : ~ has_stringed p.
Proof. intros (i & b & E). specialize (Ha i). rewrite E in Ha. exact Ha. Qed.
Lemma start_ok i : (i <= length (parts p))%nat -> exists v, start_point p i = Ok v.
Proof. apply (start_defined p Hs no_stringed). Qed.
Lemma stop_ok i : (i < length (parts p))%nat -> exists v, stop_point p i = Ok v.
Proof.
  intros H. destruct (start_ok (S i) ltac:(lia)) as (v & E). exists v. unfold stop_point. cbn [start_point] in E.
  destruct (nth_error (parts p) i) eqn:K; [exact E|apply nth_error_None in K; lia].
Qed.

Lemma corner_spec i r : rounded p i r -> exists P c s e u v, 0 < r /\
  pbulge p i = Ok (Circ c r (Some (Dom u v))) /\ pstart p i = Ok s /\ pstop p i = Ok e /\
  (forall r' P' c' s' e', rounds p i r' P' c' s' e' <-> r' = r /\ P' = P /\ c' = c /\ s' = s /\ e' = e) /\
  (forall x, (exists a, SpecPainter.swept u v a /\ polar c r a x) <-> on_fillet P c s e r x).
Proof.
  intros Hr. destruct (Hp i r Hr) as (R0 & A & P & B & d1 & d2 & HA & HP & HB & H1 & H2 & N).
  destruct (corner_arc a0 l0 p i r A P B d1 d2 Hd He Hr R0 HA HP HB H1 H2 N) as (c & s & e & u & v & Eg & F & T & T1 & T2).
  pose proof (heading_unit _ _ _ H1) as U1. pose proof (heading_unit _ _ _ H2) as U2.
  destruct (fillet_unique P d1 d2 r c s e U1 U2 N R0 F) as (Ec & Es & Ee).
  destruct (corner_values p i r P d1 d2 (corner_from_points p i r A P B d1 d2 Hs Hr HA HP HB H1 H2) N) as (V1 & V2 & V3 & _).
  exists P, c, s, e, u, v. split; [exact R0|]. split; [rewrite <- Eg; symmetry; apply (read_value _ _ _ p (reads_bulge i) Hcoh)|].
  split; [rewrite Es; exact V2|]. split; [rewrite Ee; exact V3|]. split.
  - intros r' P' c' s' e'. split.
    + intros (Hr' & A' & B' & d1' & d2' & HA' & HP' & HB' & H1' & H2' & F').
      assert (r' = r). { destruct Hr as (? & ? & X & Y). destruct Hr' as (? & ? & X' & Y'). congruence. } subst r'.
      assert (A' = A) by congruence. assert (P' = P) by congruence. assert (B' = B) by congruence. subst A' P' B'.
      rewrite (heading_unique _ _ _ _ H1' H1) in F'. rewrite (heading_unique _ _ _ _ H2' H2) in F'.
      destruct (fillet_unique P d1 d2 r c' s' e' U1 U2 N R0 F') as (Ec' & Es' & Ee'). repeat split; congruence.
    + intros (-> & -> & -> & -> & ->). split; [exact Hr|]. exists A, B, d1, d2. auto 10.
  - intros x. apply (fillet_covers P d1 d2 r c s e u v x R0 N F T T1 T2).
Qed.

Lemma begins_at i s c : nth_error (parts p) i = Some (Linear s c) -> exists a,
  (match radius c with Some _ => pstop p i | None => start_point p i end) = Ok a /\ forall b, begins p i b <-> b = a.
Proof.
  intros H. assert (Hi : (i < length (parts p))%nat) by (apply nth_error_Some; congruence). destruct (radius c) as [r|] eqn:Er.
  - assert (Hr : rounded p i r) by (exists s, c; auto). destruct (corner_spec i r Hr) as (P & o & s' & e & u & v & _ & _ & _ & Ee & U & _).
    exists e. split; [exact Ee|]. intros b. unfold begins. split.
    + intros [(r' & P' & c' & t & Q)|[Q _]]; [apply U in Q; tauto|destruct (Q r Hr)].
    + intros ->. left. exists r, P, o, s'. apply U. auto.
  - destruct (start_ok i ltac:(lia)) as (a & Ea). exists a. split; [exact Ea|]. intros b. unfold begins.
    assert (Nr : forall r, ~ rounded p i r) by (intros r (s1 & c1 & H1 & E1); congruence). split.
    + intros [(r' & P' & c' & t & Q)|[_ Q]]; [destruct Q as [Q _]; destruct (Nr _ Q)|congruence].
    + intros ->. right. auto.
Qed.

Lemma sharp_radius j : (forall r, ~ rounded p j r) -> exists e, pradius p j = Raise e.
Proof.
  intros N. unfold pradius, pcorner. destruct (nth_error (parts p) j) as [[s c| | | |]|] eqn:E; cbn; eauto.
  destruct (radius c) as [r|] eqn:Er; [destruct (N r); exists s, c; auto|eauto].
Qed.
Lemma round_radius j r : rounded p j r -> pradius p j = Ok r.
Proof. intros (s & c & H & E). unfold pradius, pcorner. rewrite H. cbn. rewrite E. reflexivity. Qed.
Lemma rounded_dec j : (exists r, rounded p j r) \/ (forall r, ~ rounded p j r).
Proof.
  destruct (nth_error (parts p) j) as [[s c| | | |]|] eqn:E; try (right; intros r (s1 & c1 & H & _); congruence).
  destruct (radius c) as [r|] eqn:Er; [left; exists r, s, c; auto|right; intros r (s1 & c1 & H & H2); congruence].
Qed.

Lemma ends_at_point i s c : nth_error (parts p) i = Some (Linear s c) -> exists b,
  (match pradius p (next_index i c) with Ok _ => pstart p (next_index i c) | Raise _ => stop_point p i end) = Ok b /\
  forall x, ends p i x <-> x = b.
Proof.
  intros H. assert (Hi : (i < length (parts p))%nat) by (apply nth_error_Some; congruence).
  destruct (stop_ok i Hi) as (z & Ez).
  assert (Plain : (forall r, ~ rounded p (next_index i c) r) -> (forall r, ~ rounded p (after p i) r) -> exists b,
    (match pradius p (next_index i c) with Ok _ => pstart p (next_index i c) | Raise _ => stop_point p i end) = Ok b /\
    forall x, ends p i x <-> x = b).
  { intros N1 N2. destruct (sharp_radius _ N1) as (e & Ee). rewrite Ee. exists z. split; [exact Ez|]. intros x. unfold ends. split.
    - intros [(r & P & o & e' & Q & _)|[_ Q]]; [destruct (N2 r Q)|congruence].
    - intros ->. right. auto. }
  destruct (follows_next p i s c Hl H) as [E|[N1 N2]]; [|apply Plain; assumption].
  destruct (rounded_dec (after p i)) as [(r & Hr)|N]; [|apply Plain; [rewrite E|]; exact N].
  rewrite E, (round_radius _ _ Hr). destruct (corner_spec _ r Hr) as (P & o & s' & e & u & v & _ & _ & Es & _ & U & _).
  exists s'. split; [exact Es|]. intros x. unfold ends. split.
  - intros [(r' & P' & o' & e' & Q)|[Q _]]; [apply U in Q; tauto|destruct (Q r Hr)].
  - intros ->. left. exists r, P, o, e. apply U. auto.
Qed.

(** ** One part *)
Definition part_outline (i : nat) (x : vec) : Prop :=
  (exists sh c a b, nth_error (parts p) i = Some (Linear sh c) /\ begins p i a /\ ends p i b /\ on_segment a b x) \/
  (exists r P c s e, rounds p i r P c s e /\ on_fillet P c s e r x) \/
  (exists a b f s, nth_error (parts p) i = Some (PQuad a b f) /\ start_point p i = Ok s /\
     on_quadratic s (placed_at f s a) (placed_at f s b) x) \/
  (exists a b c f s, nth_error (parts p) i = Some (PCubic a b c f) /\ start_point p i = Ok s /\
     on_cubic s (placed_at f s a) (placed_at f s b) (placed_at f s c) x).
Lemma outline_parts x : outline p x <-> exists i, part_outline i x.
Proof.
  unfold outline, part_outline. split.
  - intros [(i & H)|[(i & H)|[(i & H)|(i & H)]]]; exists i; auto.
  - intros (i & [H|[H|[H|H]]]); [left|right; left|right; right; left|right; right; right]; exists i; exact H.
Qed.

Definition drawn_by (m : list shape) (x : vec) : Prop := exists sh, In sh m /\ covers (cast_position identity k) sh x.

Lemma segment_covers a b x : covers (cast_position identity k) (SSegment (PVector a) (PVector b)) x <-> on_segment a b x.
Proof. unfold covers. rewrite !cast_vector. split; [intros (v & w & [= <-] & [= <-] & H); exact H|intros H; exists a, b; auto]. Qed.

Lemma absolute_placed i f s a : start_point p i = Ok s -> to_absolute_point p i f a = Ok (placed_at f s a).
Proof. intros E. unfold to_absolute_point, placed_at. destruct f; [reflexivity|]. rewrite E. cbn. unfold vadd. f_equal. f_equal; ring. Qed.

Lemma same_curve q p1 i : same p p1 -> nth_error (parts p) i = Some q -> (forall s c, q <> Linear s c) -> nth_error (parts p1) i = Some q.
Proof.
  intros S E N. pose proof (same_nth p p1 i S) as G. rewrite E in G. cbn in G.
  destruct (nth_error (parts p1) i) as [q1|]; [|discriminate]. cbn in G. injection G as G. f_equal.
  destruct q as [s c| | | |]; [destruct (N s c eq_refl)|..]; destruct q1; cbn in G; congruence.
Qed.

Lemma part_ok i q : nth_error (parts p) i = Some q -> exists m, Forall2 (gives p) (part_calls i q) m /\
  forall x, drawn_by m x <-> part_outline i x.
Proof.
  intros H. assert (Hi : (i < length (parts p))%nat) by (apply nth_error_Some; congruence).
  destruct q as [s c|a b f|a b d f|f|a rx ry an la sw f].
  - destruct (begins_at i s c H) as (a & Ea & Ba). destruct (ends_at_point i s c H) as (b & Eb & Bb).
    assert (Sg : gives p (segment_item i) (SSegment (PVector a) (PVector b))).
    { apply (reads_gives _ (fun p => bind (ppoints p i) (fun ab => Ok (SSegment (PVector (fst ab)) (PVector (snd ab)))))).
      - unfold segment_item. apply reads_then; [apply reads_points|]. intros ab. apply reads_ret.
      - unfold ppoints, pcorner. rewrite H. cbn [bind]. change (radius (bare c)) with (radius c). rewrite Ea. cbn [bind].
        change (next_index i (bare c)) with (next_index i c). rewrite Eb. reflexivity. }
    assert (Only : forall x, part_outline i x <-> on_segment a b x \/ exists r P o s e, rounds p i r P o s e /\ on_fillet P o s e r x).
    { intros x. unfold part_outline. split.
      - intros [(s1 & c1 & a1 & b1 & H1 & H2 & H3 & H4)|[Q|[(a1 & b1 & f & v & H1 & _)|(a1 & b1 & d1 & f & v & H1 & _)]]]; [|auto|congruence|congruence].
        apply Ba in H2. apply Bb in H3. subst. auto.
      - intros [Q|Q]; [|auto]. left. exists s, c, a, b. split; [exact H|]. split; [apply Ba; reflexivity|]. split; [apply Bb; reflexivity|exact Q]. }
    cbn [part_calls]. destruct (radius c) as [r|] eqn:Er.
    + assert (Hr : rounded p i r) by (exists s, c; auto). destruct (corner_spec i r Hr) as (P & o & s' & e & u & v & R0 & Eg & _ & _ & U & Cv).
      exists [SCircle (PVector o) r u v; SSegment (PVector a) (PVector b)]. split.
      * constructor; [|constructor; [exact Sg|constructor]].
        apply (reads_gives _ (fun p => bind (pbulge p i) (fun arc => match c_domain arc with
           | Some d => Ok (SCircle (PVector (c_center arc)) (c_radius arc) (d_start d) (d_stop d)) | None => Raise AttributeError end))).
        -- unfold bulge_item. apply reads_then; [apply reads_bulge|]. intros arc. apply reads_ret.
        -- rewrite Eg. reflexivity.
      * intros x. rewrite Only. unfold drawn_by. cbn [In]. split.
        -- intros (sh & [<-|[<-|[]]] & Q); [|left; apply segment_covers; exact Q].
           right. exists r, P, o, s', e. split; [apply U; auto|]. apply Cv. unfold covers in Q. rewrite cast_vector in Q.
           destruct Q as (v' & an & [= <-] & Q1 & Q2). exists an. split; [exact Q1|]. apply polar_item. exact Q2.
        -- intros [Q|(r' & P' & o' & s1 & e1 & Q1 & Q2)].
           ++ eexists. split; [right; left; reflexivity|]. apply segment_covers. exact Q.
           ++ apply U in Q1. destruct Q1 as (-> & -> & -> & -> & ->). apply Cv in Q2. destruct Q2 as (an & Q1 & Q2).
              eexists. split; [left; reflexivity|]. unfold covers. rewrite cast_vector. exists o, an. split; [reflexivity|]. split; [exact Q1|].
              apply polar_item. exact Q2.
    + exists [SSegment (PVector a) (PVector b)]. split; [constructor; [exact Sg|constructor]|].
      intros x. rewrite Only. unfold drawn_by. cbn [In]. split.
      * intros (sh & [<-|[]] & Q). left. apply segment_covers. exact Q.
      * intros [Q|(r' & P' & o' & s1 & e1 & (Q & _) & _)].
        -- eexists. split; [left; reflexivity|]. apply segment_covers. exact Q.
        -- destruct Q as (s2 & c2 & Q1 & Q2). congruence.
  - destruct (start_ok i ltac:(lia)) as (v & Ev). cbn [part_calls].
    exists [SQuadratic (PVector v) (PVector (placed_at f v a)) (PVector (placed_at f v b))]. split.
    + constructor; [|constructor]. intros p1 S C. exists p1. split; [|auto].
      unfold curve_item, andthen, geometry, andthen, here. rewrite (same_curve _ p1 i S H) by discriminate.
      assert (Ev1 : start_point p1 i = Ok v) by (rewrite <- (same_start p p1 i S); exact Ev).
      assert (Pl : forall w, to_absolute_point p1 i f w = Ok (placed_at f v w)).
      { intros w. rewrite <- (absolute_placed i f v w Ev). unfold to_absolute_point. rewrite (same_start p p1 i S). reflexivity. }
      unfold ret. rewrite Ev1, !Pl. reflexivity.
    + intros x. unfold drawn_by, part_outline. cbn [In]. split.
      * intros (sh & [<-|[]] & Q). right. right. left. exists a, b, f, v. split; [exact H|]. split; [exact Ev|].
        unfold covers in Q. rewrite !cast_vector in Q. destruct Q as (w1 & w2 & w3 & [= <-] & [= <-] & [= <-] & Q). exact Q.
      * intros [(s1 & c1 & a1 & b1 & H1 & _)|[(r & P & o & s & e & ((s1 & c1 & H1 & _) & _) & _)|[(a1 & b1 & f1 & v1 & H1 & H2 & Q)|(a1 & b1 & d1 & f1 & v1 & H1 & _)]]]; [congruence|congruence| |congruence].
        assert (v1 = v) by congruence. rewrite H in H1. injection H1 as <- <- <-. subst v1. eexists. split; [left; reflexivity|].
        unfold covers. rewrite !cast_vector. do 3 eexists. do 3 (split; [reflexivity|]). exact Q.
  - destruct (start_ok i ltac:(lia)) as (v & Ev). cbn [part_calls].
    exists [SCubic (PVector v) (PVector (placed_at f v a)) (PVector (placed_at f v b)) (PVector (placed_at f v d))]. split.
    + constructor; [|constructor]. intros p1 S C. exists p1. split; [|auto].
      unfold curve_item, andthen, geometry, andthen, here. rewrite (same_curve _ p1 i S H) by discriminate.
      assert (Ev1 : start_point p1 i = Ok v) by (rewrite <- (same_start p p1 i S); exact Ev).
      assert (Pl : forall w, to_absolute_point p1 i f w = Ok (placed_at f v w)).
      { intros w. rewrite <- (absolute_placed i f v w Ev). unfold to_absolute_point. rewrite (same_start p p1 i S). reflexivity. }
      unfold ret. rewrite Ev1, !Pl. reflexivity.
    + intros x. unfold drawn_by, part_outline. cbn [In]. split.
      * intros (sh & [<-|[]] & Q). right. right. right. exists a, b, d, f, v. split; [exact H|]. split; [exact Ev|].
        unfold covers in Q. rewrite !cast_vector in Q. destruct Q as (w1 & w2 & w3 & w4 & [= <-] & [= <-] & [= <-] & [= <-] & Q). exact Q.
      * intros [(s1 & c1 & a1 & b1 & H1 & _)|[(r & P & o & s & e & ((s1 & c1 & H1 & _) & _) & _)|[(a1 & b1 & f1 & v1 & H1 & _)|(a1 & b1 & d1 & f1 & v1 & H1 & H2 & Q)]]]; [congruence|congruence|congruence|].
        assert (v1 = v) by congruence. rewrite H in H1. injection H1 as <- <- <- <-. subst v1. eexists. split; [left; reflexivity|].
        unfold covers. rewrite !cast_vector. do 4 eexists. do 4 (split; [reflexivity|]). exact Q.
  - specialize (Ha i). rewrite H in Ha. destruct Ha.
  - specialize (Ha i). rewrite H in Ha. destruct Ha.
Qed.

Lemma all_ok l : forall i, (forall j, nth_error l j = nth_error (parts p) (i + j)) -> exists m, Forall2 (gives p) (all_calls i l) m /\
  forall x, drawn_by m x <-> exists j, (j < length l)%nat /\ part_outline (i + j) x.
Proof.
  induction l as [|q l IH]; intros i H; cbn [all_calls].
  - exists []. split; [constructor|]. intros x. split; [intros (sh & [] & _)|intros (j & L & _); cbn in L; lia].
  - destruct (part_ok i q) as (m1 & F1 & C1); [specialize (H 0%nat); rewrite Nat.add_0_r in H; rewrite <- H; reflexivity|].
    destruct (IH (S i)) as (m2 & F2 & C2); [intros j; specialize (H (S j)); cbn in H; rewrite H; f_equal; lia|].
    exists (m1 ++ m2). split; [apply Forall2_app; assumption|]. intros x. unfold drawn_by in *. split.
    + intros (sh & Q & X). apply in_app_iff in Q. destruct Q as [Q|Q].
      * exists 0%nat. split; [cbn; lia|]. rewrite Nat.add_0_r. apply C1. eauto.
      * destruct (proj1 (C2 x)) as (j & L & K); [eauto|]. exists (S j). split; [cbn; lia|]. replace (i + S j)%nat with (S i + j)%nat by lia. exact K.
    + intros ([|j] & L & K).
      * rewrite Nat.add_0_r in K. apply C1 in K. destruct K as (sh & Q & X). exists sh. split; [apply in_app_iff; auto|exact X].
      * replace (i + S j)%nat with (S i + j)%nat in K by lia. destruct (proj2 (C2 x)) as (sh & Q & X); [exists j; split; [cbn in L; lia|exact K]|].
        exists sh. split; [apply in_app_iff; auto|exact X].
Qed.

Lemma part_outline_bound i x : part_outline i x -> (i < length (parts p))%nat.
Proof.
  intros [(s1 & c1 & a1 & b1 & H1 & _)|[(r & P & o & s & e & ((s1 & c1 & H1 & _) & _) & _)|[(a1 & b1 & f1 & v1 & H1 & _)|(a1 & b1 & d1 & f1 & v1 & H1 & _)]]];
  apply nth_error_Some; congruence.
Qed.

Lemma path_covers : exists m p', add_as_path_segments p = (m, None, p') /\ same p p' /\
  forall x, (exists sh, In sh m /\ covers (cast_position identity k) sh x) <-> outline p x.
Proof.
  destruct (all_ok (parts p) 0 ltac:(reflexivity)) as (m & F & C).
  destruct (run_gives p _ m p F (same_refl p) Hcoh) as (p' & E & S & _).
  exists m, p'. split; [exact E|]. split; [exact S|]. intros x. rewrite outline_parts. split.
  - intros Q. apply C in Q. destruct Q as (j & _ & Q). exists j. exact Q.
  - intros (i & Q). apply C. exists i. split; [apply (part_outline_bound i x Q)|exact Q].
Qed.
End Outline.
