(** Paths: transformations. *)
From Coq Require Import Reals List ZArith Bool Lia Lra.
From Verif Require Import Base ModelVector ModelTransformation ModelLine ModelBezier ModelConic ModelPath
  SpecVector SpecPath GluePath ProofVector ProofSpline ProofPath.
Import ListNotations.
Local Open Scope R_scope.

(** What holds of every path. *)
Record sane (p : path) : Prop := Sane {
  sane_bulge : forall j s c, nth_error (parts p) (S j) = Some (Linear s c) -> start_bulge c = false;
  sane_first : forall s c, nth_error (parts p) 0 = Some (Linear s c) -> (start_bulge c = true <-> radius c <> None);
  sane_open : forall s c, nth_error (parts p) 0 = Some (Linear s c) -> start_bulge c = true -> closed p = true;
  sane_closed : closed p = true -> exists a, ends_at a (parts p);
  sane_prev : forall j s c, nth_error (parts p) (S j) = Some (Linear s c) -> radius c <> None ->
    is_linear (nth_error (parts p) j) = true;
  sane_radius : forall i s c r, nth_error (parts p) i = Some (Linear s c) -> radius c = Some r -> 0 <= r;
  sane_closing : forall i s c, nth_error (parts p) i = Some (Linear s c) -> closing c = true -> exists a, s = PLine a true }.

Lemma start_rel2 p p' i : start_point p 0 = start_point p' 0 ->
  (forall j, (j < i)%nat -> stop_of p j (start_point p j) = stop_of p' j (start_point p j)) -> start_point p i = start_point p' i.
Proof.
  intros H0. induction i as [|i IH]; intros H; [exact H0|].
  rewrite !start_succ, <- IH by (intros; apply H; lia). apply H. lia.
Qed.

Lemma last_nth A (l : list A) d x : nth_error l (length l - 1) = Some x -> last l d = x.
Proof.
  destruct (list_eq_dec (fun a b : unit => left (match a, b with tt, tt => eq_refl end)) [] []) as [_|n]; [|congruence].
  intros H. destruct l as [|y l]; [discriminate|].
  destruct (exists_last (l := y :: l)) as (l' & z & E); [discriminate|]. rewrite E in *.
  rewrite last_last. rewrite app_length in H. simpl in H. rewrite nth_error_app2 in H by lia.
  replace (length l' + 1 - 1 - length l')%nat with 0%nat in H by lia. injection H as ->. reflexivity.
Qed.
Lemma nth_last A (l : list A) d : l <> [] -> nth_error l (length l - 1) = Some (last l d).
Proof.
  intros H. destruct (exists_last H) as (l' & z & ->). rewrite last_last, app_length. simpl.
  rewrite nth_error_app2 by lia. replace (length l' + 1 - 1 - length l')%nat with 0%nat by lia. reflexivity.
Qed.

Lemma ends_nth a l : ends_at a l <-> exists c, nth_error l (length l - 1) = Some (Linear (PLine a true) c).
Proof.
  split; intros [c H].
  - exists c. rewrite <- H. apply nth_last. intros ->. discriminate.
  - exists c. apply last_nth, H.
Qed.

(** The replacement of a part by an absolute one. *)
Definition abs_of (p : path) (i : nat) (q q' : part) : Prop :=
  match q with
  | Linear s c => exists a c', q' = Linear (PLine a true) c' /\ stop_point p i = Ok a /\
      start_bulge c' = start_bulge c /\ closing c' = closing c /\ radius c' = radius c /\
      (forall v, s = PLine v true -> a = v) /\
      k_angle c' = None /\ k_center c' = None /\ k_start c' = None /\ k_stop c' = None /\
      (k_direction c' = k_direction c \/ k_direction c' = None) /\
      (k_bissector c' = k_bissector c \/ k_bissector c' = None)
  | PQuad a b f => exists a' b', q' = PQuad a' b' true /\
      to_absolute_point p i f a = Ok a' /\ to_absolute_point p i f b = Ok b'
  | PCubic a b c f => exists a' b' c', q' = PCubic a' b' c' true /\
      to_absolute_point p i f a = Ok a' /\ to_absolute_point p i f b = Ok b' /\ to_absolute_point p i f c = Ok c'
  | PArc a rx ry g la sw f => exists a', q' = PArc a' rx ry g la sw true /\ to_absolute_point p i f a = Ok a'
  | PStringed f => f = true /\ q' = PStringed true
  end.

Lemma abs_of_stop p i q q' : nth_error (parts p) i = Some q -> abs_of p i q q' ->
  (exists f, q = PStringed f) \/ exists e, stop_point p i = Ok e /\ forall r, part_stop q' r = Ok e.
Proof.
  intros H. unfold abs_of, stop_point, to_absolute_point. rewrite H. destruct q as [s c|a b f|a b c f|f|a rx ry g la sw f]; intros G.
  - right. destruct G as (a & c' & -> & E & _). exists a. auto.
  - right. destruct G as (a' & b' & -> & _ & E). exists b'. split; [|reflexivity].
    simpl. destruct f; exact E.
  - right. destruct G as (a' & b' & c' & -> & _ & _ & E). exists c'. split; [|reflexivity].
    simpl. destruct f; exact E.
  - left. eauto.
  - right. destruct G as (a' & -> & E). exists a'. split; [|reflexivity]. simpl. destruct f; exact E.
Qed.

(** Replacing keeps all the points. *)
Lemma replace_start p i q q' : sane p -> nth_error (parts p) i = Some q -> abs_of p i q q' ->
  forall j, start_point (set_parts p (update i q' (parts p))) j = start_point p j.
Proof.
  intros Hs H G j. symmetry. apply start_rel2.
  - destruct (parts p) as [|x l] eqn:E; [destruct i; discriminate|].
    destruct i as [|i]; simpl in H.
    + injection H as ->. destruct q as [s c|a b f|a b c f|f|a rx ry g la sw f].
      * destruct G as (a & c' & -> & _ & Eb & _ & _ & Ev & _). simpl. rewrite E. simpl. rewrite Eb.
        destruct (start_bulge c) eqn:B; [|reflexivity].
        destruct l as [|y l]; [|reflexivity].
        destruct (sane_closed p Hs) as (z & k & Hk).
        { apply (sane_open p Hs s c); [rewrite E; reflexivity|exact B]. }
        rewrite E in Hk. simpl in Hk. injection Hk as -> ->. rewrite (Ev z eq_refl). reflexivity.
      * destruct G as (? & ? & -> & _). simpl. rewrite E. reflexivity.
      * destruct G as (? & ? & ? & -> & _). simpl. rewrite E. reflexivity.
      * destruct G as (_ & ->). simpl. rewrite E. reflexivity.
      * destruct G as (? & -> & _). simpl. rewrite E. reflexivity.
    + simpl. rewrite E. simpl. destruct x as [s c| | | |]; try reflexivity.
      destruct (start_bulge c) eqn:B; [|reflexivity].
      destruct (sane_closed p Hs) as (z & Hz).
      { apply (sane_open p Hs s c); [rewrite E; reflexivity|exact B]. }
      assert (L : exists k, last (Linear s c :: update i q' l) (PStringed true) = Linear (PLine z true) k).
      { apply ends_nth in Hz. destruct Hz as (k & Hk). rewrite E in Hk. simpl in Hk. rewrite Nat.sub_0_r in Hk.
        change (ends_at z (Linear s c :: update i q' l)). apply ends_nth. simpl. rewrite update_length, Nat.sub_0_r.
        destruct (length l) as [|n] eqn:Ln; [destruct l; [destruct i; discriminate H|discriminate]|].
        simpl in Hk |- *. destruct (Nat.eq_dec i n) as [->|N].
        - rewrite Hk in H. injection H as <-. destruct G as (a & c' & -> & _ & _ & _ & _ & Ev & _).
          rewrite (Ev z eq_refl). exists c'. apply (nth_error_update_eq _ _ _ _ _ Hk).
        - exists k. rewrite nth_error_update_neq by exact N. exact Hk. }
      destruct L as (k & L). destruct Hz as (k' & Hz). rewrite E in Hz.
      change (match last (Linear s c :: l) (PStringed true) with Linear (PLine pt true) _ => Ok pt | _ => Raise RecursionError end =
        match last (Linear s c :: update i q' l) (PStringed true) with Linear (PLine pt true) _ => Ok pt | _ => Raise RecursionError end).
      rewrite L, Hz. reflexivity.
  - intros k Hk. unfold stop_of. simpl. destruct (Nat.eq_dec i k) as [<-|N].
    + rewrite H, (nth_error_update_eq _ _ _ _ _ H).
      destruct (abs_of_stop p i q q' H G) as [[f ->]|(e & E1 & E2)].
      * destruct G as (-> & ->). reflexivity.
      * rewrite E2. unfold stop_point in E1. rewrite H in E1. exact E1.
    + rewrite nth_error_update_neq by exact N. reflexivity.
Qed.
Lemma replace_stop p i q q' : sane p -> nth_error (parts p) i = Some q -> abs_of p i q q' ->
  forall j, stop_point (set_parts p (update i q' (parts p))) j = stop_point p j.
Proof.
  intros Hs H G j. unfold stop_point at 1. rewrite (replace_start p i q q' Hs H G). simpl.
  destruct (Nat.eq_dec i j) as [<-|N].
  - rewrite (nth_error_update_eq _ _ _ _ _ H).
    destruct (abs_of_stop p i q q' H G) as [[f ->]|(e & E1 & E2)].
    + destruct G as (-> & ->). unfold stop_point. rewrite H. reflexivity.
    + rewrite E1. apply E2.
  - rewrite nth_error_update_neq by exact N. reflexivity.
Qed.

Lemma abs_of_linear p i q q' s' c' : abs_of p i q q' -> q' = Linear s' c' ->
  exists s c a, q = Linear s c /\ s' = PLine a true /\ start_bulge c' = start_bulge c /\ closing c' = closing c /\ radius c' = radius c.
Proof.
  intros G ->. destruct q as [s c|a b f|a b c f|f|a rx ry g la sw f].
  - destruct G as (a & k & E & _ & E1 & E2 & E3 & _). injection E as -> ->. exists s, c, a. auto.
  - destruct G as (? & ? & E & _). discriminate.
  - destruct G as (? & ? & ? & E & _). discriminate.
  - destruct G as (_ & E). discriminate.
  - destruct G as (? & E & _). discriminate.
Qed.
Lemma abs_of_flag p i q q' : abs_of p i q q' -> line_flag q' = line_flag q.
Proof.
  destruct q as [s c|a b f|a b c f|f|a rx ry g la sw f].
  - intros (? & ? & -> & _). reflexivity.
  - intros (? & ? & -> & _). reflexivity.
  - intros (? & ? & ? & -> & _). reflexivity.
  - intros (_ & ->). reflexivity.
  - intros (? & -> & _). reflexivity.
Qed.

Lemma nth_update A i (x : A) l j y : nth_error (update i x l) j = Some y ->
  (i = j /\ y = x /\ exists z, nth_error l i = Some z) \/ (i <> j /\ nth_error l j = Some y).
Proof.
  destruct (Nat.eq_dec i j) as [<-|N].
  - intros H. destruct (nth_error l i) as [z|] eqn:E.
    + rewrite (nth_error_update_eq _ _ _ _ _ E) in H. injection H as ->. left. eauto.
    + exfalso. apply nth_error_None in E. assert (nth_error (update i x l) i <> None) as K by congruence.
      apply nth_error_Some in K. rewrite update_length in K. lia.
  - rewrite nth_error_update_neq by exact N. auto.
Qed.

Lemma replace_sane p i q q' : sane p -> nth_error (parts p) i = Some q -> abs_of p i q q' ->
  sane (set_parts p (update i q' (parts p))).
Proof.
  intros Hs H G.
  assert (C : forall j s' c', nth_error (update i q' (parts p)) j = Some (Linear s' c') ->
    exists s c, nth_error (parts p) j = Some (Linear s c) /\ start_bulge c' = start_bulge c /\ closing c' = closing c /\
      radius c' = radius c /\ ((exists a, s' = PLine a true) \/ s' = s)).
  { intros j s' c' E. destruct (nth_update _ _ _ _ _ _ E) as [(<- & E1 & _)|(N & E1)].
    - destruct (abs_of_linear p i q q' s' c' G (eq_sym E1)) as (s & c & a & -> & -> & E2 & E3 & E4). exists s, c. repeat split; eauto.
    - exists s', c'. auto 6. }
  constructor; cbn [set_parts parts closed].
  - intros j s c E. destruct (C _ _ _ E) as (s0 & c0 & E0 & -> & _). apply (sane_bulge p Hs j s0 c0 E0).
  - intros s c E. destruct (C _ _ _ E) as (s0 & c0 & E0 & -> & _ & -> & _). apply (sane_first p Hs s0 c0 E0).
  - intros s c E. destruct (C _ _ _ E) as (s0 & c0 & E0 & -> & _). apply (sane_open p Hs s0 c0 E0).
  - intros Hc. destruct (sane_closed p Hs Hc) as (a & Ha). exists a. apply ends_nth in Ha. destruct Ha as (k & Hk).
    apply ends_nth. rewrite update_length. destruct (Nat.eq_dec i (length (parts p) - 1)) as [->|N].
    + rewrite Hk in H. injection H as <-. destruct G as (b & c' & -> & _ & _ & _ & _ & Ev & _). rewrite (Ev a eq_refl).
      exists c'. apply (nth_error_update_eq _ _ _ _ _ Hk).
    + exists k. rewrite nth_error_update_neq by exact N. exact Hk.
  - intros j s c E Hr. destruct (C _ _ _ E) as (s0 & c0 & E0 & _ & _ & Er & _). rewrite Er in Hr.
    pose proof (sane_prev p Hs j s0 c0 E0 Hr) as P. destruct (Nat.eq_dec i j) as [<-|N].
    + rewrite H in P. rewrite (nth_error_update_eq _ _ _ _ _ H). rewrite <- P. apply (abs_of_flag p i q q' G).
    + rewrite nth_error_update_neq by exact N. exact P.
  - intros j s c r E Hr. destruct (C _ _ _ E) as (s0 & c0 & E0 & _ & _ & Er & _). apply (sane_radius p Hs j s0 c0 r E0). congruence.
  - intros j s c E Hr. destruct (C _ _ _ E) as (s0 & c0 & E0 & _ & Er & _ & [Hs' | ->]); [exact Hs'|].
    apply (sane_closing p Hs j s0 c0 E0). congruence.
Qed.

Lemma path_segment_eq p i q v c q' : sane p -> nth_error (parts p) i = Some (Linear q c) -> (forall a, q <> PLine a true) ->
  path_segment p i v false c = Ok q' \/ path_segment p i v true c = Ok q' ->
  exists f c', q' = Linear (PLine v f) c' /\ start_bulge c' = start_bulge c /\ closing c' = closing c /\ radius c' = radius c /\
      k_angle c' = None /\ k_center c' = None /\ k_start c' = None /\ k_stop c' = None /\
      k_direction c' = None /\ k_bissector c' = None /\ (path_segment p i v f c = Ok q').
Proof.
  intros Hs H Hq.
  assert (Hc : closing c = false).
  { destruct (closing c) eqn:E; [|reflexivity]. destruct (sane_closing p Hs i q c H E) as (a & ->). destruct (Hq a eq_refl). }
  unfold path_segment. destruct i as [|i].
  - pose proof (sane_first p Hs q c H) as B.
    destruct (radius c) as [r|] eqn:R.
    + assert (start_bulge c = true) as -> by (apply B; discriminate).
      pose proof (sane_radius p Hs 0 q c r H R) as R0.
      intros [E|E]; injection E as <-; [exists false|exists true]; eexists; (split; [reflexivity|]);
        rewrite Hc; simpl; rewrite Rabs_pos_eq by exact R0; repeat split; reflexivity.
    + assert (start_bulge c = false) as ->.
      { destruct (start_bulge c); [|reflexivity]. destruct (proj1 B eq_refl eq_refl). }
      intros [E|E]; injection E as <-; [exists false|exists true]; eexists; (split; [reflexivity|]);
        rewrite Hc; simpl; repeat split; reflexivity.
  - rewrite (sane_bulge p Hs i q c H). destruct (radius c) as [r|] eqn:R.
    + pose proof (sane_radius p Hs _ q c r H R) as R0. rewrite Rabs_pos_eq by exact R0.
      destruct (is_linear _); intros [E|E]; try discriminate; injection E as <-; [exists false|exists true]; eexists; (split; [reflexivity|]);
        rewrite Hc; simpl; repeat split; reflexivity.
    + intros [E|E]; injection E as <-; [exists false|exists true]; eexists; (split; [reflexivity|]);
        rewrite Hc; simpl; repeat split; reflexivity.
Qed.

Lemma vadd_comm a b : vadd a b = vadd b a.
Proof. unfold vadd. f_equal; ring. Qed.

Lemma absolute_part_ok p i q q' : sane p -> nth_error (parts p) i = Some q -> absolute_part p i = Ok q' -> abs_of p i q q'.
Proof.
  intros Hs H E. unfold absolute_part in E. rewrite H in E.
  destruct q as [s c|a b f|a b c f|f|a rx ry g la sw f].
  - destruct s as [v f|g l|x|y].
    + destruct f.
      * injection E as <-. exists v, (reset_cache c). split; [reflexivity|]. split; [unfold stop_point; rewrite H; reflexivity|].
        cbn. repeat split; auto. intros v0 Ev. injection Ev as ->. reflexivity.
      * destruct (stop_point p i) as [e|] eqn:Es; [|discriminate]. injection E as <-. exists e, (reset_cache c).
        split; [reflexivity|]. split; [exact Es|]. cbn. repeat split; auto. intros v0 Ev. discriminate.
    + destruct (path_segment p i (from_polar l g) false c) as [q1|] eqn:E1; [|discriminate]. cbn [bind] in E.
      destruct (path_segment_eq p i _ (from_polar l g) c q1 Hs H) as (f & c1 & -> & E2 & E3 & E4 & E5 & E6 & E7 & E8 & E9 & E10 & E11);
        [intros a Ha; discriminate|left; exact E1|].
      assert (f = false) as ->.
      { destruct f; [|reflexivity]. exfalso. clear - E1. unfold path_segment in E1. destruct i, (radius c); try destruct (is_linear _); discriminate E1. }
      assert (S1 : start_point (set_parts p (update i (Linear (PLine (from_polar l g) false) c1) (parts p))) i = start_point p i).
      { symmetry. apply start_rel2.
        - destruct (parts p) as [|x lp] eqn:Ep; [destruct i; discriminate|].
          destruct i as [|i].
          + injection H as ->. simpl. rewrite Ep. simpl. rewrite E2. destruct (start_bulge c) eqn:B; [|reflexivity].
            destruct lp as [|y lp]; [|reflexivity].
            destruct (sane_closed p Hs) as (z & k & Hk).
            { apply (sane_open p Hs (PDir g l) c); [rewrite Ep; reflexivity|exact B]. }
            rewrite Ep in Hk. discriminate Hk.
          + simpl. rewrite Ep. simpl. destruct x as [s0 c0| | | |]; try reflexivity.
            destruct (start_bulge c0) eqn:B; [|reflexivity].
            destruct (sane_closed p Hs) as (z & Hz).
            { apply (sane_open p Hs s0 c0); [rewrite Ep; reflexivity|exact B]. }
            assert (L : exists k, last (Linear s0 c0 :: update i (Linear (PLine (from_polar l g) false) c1) lp) (PStringed true) = Linear (PLine z true) k).
            { apply ends_nth in Hz. destruct Hz as (k & Hk). rewrite Ep in Hk. simpl in Hk, H. rewrite Nat.sub_0_r in Hk.
              change (ends_at z (Linear s0 c0 :: update i (Linear (PLine (from_polar l g) false) c1) lp)). apply ends_nth.
              simpl. rewrite update_length, Nat.sub_0_r.
              destruct (length lp) as [|n] eqn:Ln; [destruct lp; [destruct i; discriminate H|discriminate]|].
              simpl in Hk |- *. exists k. rewrite nth_error_update_neq; [exact Hk|]. intros ->. rewrite Hk in H. discriminate. }
            destruct L as (k & L). destruct Hz as (k' & Hz). rewrite Ep in Hz.
            change (match last (Linear s0 c0 :: lp) (PStringed true) with Linear (PLine pt true) _ => Ok pt | _ => Raise RecursionError end =
              match last (Linear s0 c0 :: update i (Linear (PLine (from_polar l g) false) c1) lp) (PStringed true) with Linear (PLine pt true) _ => Ok pt | _ => Raise RecursionError end).
            rewrite L, Hz. reflexivity.
        - intros j Hj. unfold stop_of. simpl. rewrite nth_error_update_neq by lia. reflexivity. }
      unfold stop_point in E. rewrite S1 in E. simpl in E. rewrite (nth_error_update_eq _ _ _ _ _ H) in E. simpl in E.
      destruct (start_point p i) as [b|] eqn:Eb; [|discriminate]. simpl in E. injection E as <-.
      exists (vadd (from_polar l g) b), c1. split; [reflexivity|]. split.
      { unfold stop_point. rewrite H. simpl. rewrite Eb. simpl. f_equal. apply vadd_comm. }
      repeat split; auto. intros v Hv. discriminate.
    + destruct (stop_point p i) as [e|] eqn:Es; [|discriminate]. cbn [bind] in E.
      destruct (path_segment_eq p i _ e c q' Hs H) as (f & c1 & -> & E2 & E3 & E4 & E5 & E6 & E7 & E8 & E9 & E10 & E11);
        [intros a Ha; discriminate|right; exact E|].
      assert (f = true) as ->.
      { destruct f; [reflexivity|]. exfalso. clear - E. unfold path_segment in E. destruct i, (radius c); try destruct (is_linear _); discriminate E. }
      exists e, c1. split; [reflexivity|]. split; [exact Es|]. repeat split; auto. intros v Hv. discriminate.
    + destruct (stop_point p i) as [e|] eqn:Es; [|discriminate]. cbn [bind] in E.
      destruct (path_segment_eq p i _ e c q' Hs H) as (f & c1 & -> & E2 & E3 & E4 & E5 & E6 & E7 & E8 & E9 & E10 & E11);
        [intros a Ha; discriminate|right; exact E|].
      assert (f = true) as ->.
      { destruct f; [reflexivity|]. exfalso. clear - E. unfold path_segment in E. destruct i, (radius c); try destruct (is_linear _); discriminate E. }
      exists e, c1. split; [reflexivity|]. split; [exact Es|]. repeat split; auto. intros v Hv. discriminate.
  - destruct (to_absolute_point p i f a) as [a'|] eqn:Ea; [|discriminate]. cbn [bind] in E.
    destruct (to_absolute_point p i f b) as [b'|] eqn:Eb; [|discriminate]. cbn [bind] in E. injection E as <-.
    exists a', b'. auto.
  - destruct (to_absolute_point p i f a) as [a'|] eqn:Ea; [|discriminate]. cbn [bind] in E.
    destruct (to_absolute_point p i f b) as [b'|] eqn:Eb; [|discriminate]. cbn [bind] in E.
    destruct (to_absolute_point p i f c) as [c'|] eqn:Ec; [|discriminate]. cbn [bind] in E. injection E as <-.
    exists a', b', c'. auto.
  - destruct f; [|discriminate]. injection E as <-. split; reflexivity.
  - destruct (to_absolute_point p i f a) as [a'|] eqn:Ea; [|discriminate]. cbn [bind] in E. injection E as <-.
    exists a'. auto.
Qed.

(** ** The first loop *)
Lemma to_absolute_ext p p' i f a : (forall j, start_point p' j = start_point p j) -> to_absolute_point p' i f a = to_absolute_point p i f a.
Proof. intros H. unfold to_absolute_point. rewrite H. reflexivity. Qed.

Lemma abs_of_ext p p' i q q' : (forall j, start_point p' j = start_point p j) -> (forall j, stop_point p' j = stop_point p j) ->
  abs_of p' i q q' -> abs_of p i q q'.
Proof.
  intros H1 H2. unfold abs_of. destruct q; rewrite ?(to_absolute_ext p p') by exact H1; rewrite ?H2; try (exact (fun x => x)).
Qed.

Lemma absolute_parts_ok n : forall k p p', sane p -> (k + n = length (parts p))%nat -> absolute_parts p (seq k n) = Ok p' ->
  sane p' /\ p0 p' = p0 p /\ closed p' = closed p /\ length (parts p') = length (parts p) /\
  (forall j, start_point p' j = start_point p j) /\ (forall j, stop_point p' j = stop_point p j) /\
  (forall j, (j < k)%nat -> nth_error (parts p') j = nth_error (parts p) j) /\
  (forall j q, (k <= j)%nat -> nth_error (parts p) j = Some q -> exists q', nth_error (parts p') j = Some q' /\ abs_of p j q q').
Proof.
  induction n as [|n IH]; intros k p p' Hs L E.
  - injection E as <-. split; [exact Hs|]. split; [reflexivity|]. split; [reflexivity|]. split; [reflexivity|].
    split; [reflexivity|]. split; [reflexivity|]. split; [reflexivity|]. intros j q Hj Hq. exfalso.
    assert (nth_error (parts p) j <> None) as K by congruence. apply nth_error_Some in K. lia.
  - cbn [seq absolute_parts] in E. destruct (absolute_part p k) as [q'|] eqn:Eq; [|discriminate]. cbn [bind] in E.
    destruct (nth_error (parts p) k) as [q|] eqn:Hk; [|apply nth_error_None in Hk; lia].
    pose proof (absolute_part_ok p k q q' Hs Hk Eq) as A.
    set (p1 := set_parts p (update k q' (parts p))) in *.
    assert (S1 : forall j, start_point p1 j = start_point p j) by (apply (replace_start p k q q' Hs Hk A)).
    assert (S2 : forall j, stop_point p1 j = stop_point p j) by (apply (replace_stop p k q q' Hs Hk A)).
    destruct (IH (S k) p1 p' (replace_sane p k q q' Hs Hk A)) as (A1 & A2 & A3 & A4 & A5 & A6 & A7 & A8).
    { cbn. rewrite update_length. lia. }
    { exact E. }
    cbn [p1 set_parts p0 closed parts] in A2, A3, A4, A7, A8. rewrite update_length in A4.
    split; [exact A1|]. split; [exact A2|]. split; [exact A3|]. split; [exact A4|].
    split; [intros j; rewrite A5; apply S1|]. split; [intros j; rewrite A6; apply S2|]. split.
    + intros j Hj. rewrite A7 by lia. apply nth_error_update_neq. lia.
    + intros j x Hj Hx. destruct (Nat.eq_dec k j) as [<-|N].
      * rewrite Hx in Hk. injection Hk as <-. exists q'. split; [|exact A].
        rewrite A7 by lia. apply (nth_error_update_eq _ _ _ _ _ Hx).
      * destruct (A8 j x) as (x' & E1 & E2); [lia|rewrite nth_error_update_neq by exact N; exact Hx|].
        exists x'. split; [exact E1|]. apply (abs_of_ext p p1 j x x' S1 S2 E2).
Qed.

(** ** The whole transformation *)
Lemma traverse_nth {A B} (f : A -> result B) l : forall l', traverse f l = Ok l' ->
  length l' = length l /\ forall i x, nth_error l i = Some x -> exists y, nth_error l' i = Some y /\ f x = Ok y.
Proof.
  induction l as [|a l IH]; intros l' E; cbn in E.
  - injection E as <-. split; [reflexivity|]. intros [|i]; discriminate.
  - destruct (f a) as [b|] eqn:Ea; [|discriminate]. cbn in E. destruct (traverse f l) as [m|] eqn:Em; [|discriminate].
    cbn in E. injection E as <-. destruct (IH m eq_refl) as [L H]. split; [cbn; congruence|].
    intros [|i] x Hx; cbn in *; [injection Hx as <-; eauto|auto].
Qed.

(** The corner of a transformed part. *)
Definition corner_image (t : transformation) (c c' : corner) : Prop :=
  start_bulge c' = start_bulge c /\ closing c' = closing c /\
  match radius c with None => radius c' = None | Some r => exists r', radius c' = Some r' /\ scalar t r = Ok r' end /\
  k_angle c' = None /\ k_center c' = None /\ k_start c' = None /\ k_stop c' = None /\
  (k_direction c' = k_direction c \/ k_direction c' = None) /\ (k_bissector c' = k_bissector c \/ k_bissector c' = None).

(** The part at an index and its image. *)
Definition part_image (t : transformation) (p : path) (i : nat) (q q' : part) : Prop :=
  match q with
  | Linear s c => exists a c', q' = Linear (PLine (apply t a) true) c' /\ stop_point p i = Ok a /\ corner_image t c c'
  | PQuad a b f => exists a' b', q' = PQuad (apply t a') (apply t b') true /\
      to_absolute_point p i f a = Ok a' /\ to_absolute_point p i f b = Ok b'
  | PCubic a b c f => exists a' b' c', q' = PCubic (apply t a') (apply t b') (apply t c') true /\
      to_absolute_point p i f a = Ok a' /\ to_absolute_point p i f b = Ok b' /\ to_absolute_point p i f c = Ok c'
  | PArc a rx ry g la sw f => exists a', q' = PArc (apply t a') rx ry g la sw true /\ to_absolute_point p i f a = Ok a'
  | PStringed f => False
  end.

Lemma scalar_nonneg t r r' : 0 <= r -> scalar t r = Ok r' -> 0 <= r'.
Proof.
  intros H. unfold scalar. pose proof (Rabs_pos (m00 (t_m t))) as A.
  assert (0 <= Rabs (m00 (t_m t)) * r) as M by (apply Rmult_le_pos; assumption).
  destruct (t_type t) as [[]|]; intros E; try discriminate; injection E as <-; assumption.
Qed.

Lemma transform_parts t p p' : sane p -> transform_path t p = Ok p' ->
  p0 p' = apply t (p0 p) /\ closed p' = closed p /\ length (parts p') = length (parts p) /\
  forall i q, nth_error (parts p) i = Some q -> exists q', nth_error (parts p') i = Some q' /\ part_image t p i q q'.
Proof.
  intros Hs E. unfold transform_path in E.
  destruct (absolute_parts p (seq 0 (length (parts p)))) as [p1|] eqn:E1; [|discriminate]. cbn [bind] in E.
  destruct (traverse (transform_part t) (parts p1)) as [l|] eqn:E2; [|discriminate]. cbn [bind] in E. injection E as <-.
  destruct (absolute_parts_ok _ 0 p p1 Hs eq_refl E1) as (A1 & A2 & A3 & A4 & A5 & A6 & _ & A8).
  destruct (traverse_nth _ _ _ E2) as [L N]. cbn [p0 closed parts].
  split; [congruence|]. split; [congruence|]. split; [congruence|].
  intros i q Hq. destruct (A8 i q) as (q1 & Hq1 & G); [lia|exact Hq|].
  destruct (N i q1 Hq1) as (q2 & Hq2 & F). exists q2. split; [exact Hq2|].
  destruct q as [s c|a b f|a b c f|f|a rx ry g la sw f].
  - destruct G as (a & c' & -> & Es & G1 & G2 & G3 & _ & G4 & G5 & G6 & G7 & G8 & G9).
    cbn [transform_part] in F. rewrite G3 in F. destruct (radius c) as [r|] eqn:R.
    + destruct (scalar t r) as [r'|] eqn:Er; [|discriminate]. cbn [bind] in F. injection F as <-.
      exists a, (set_radius (Some r') c'). split; [reflexivity|]. split; [exact Es|]. unfold corner_image. rewrite R.
      cbn. repeat split; auto. exists r'. auto.
    + injection F as <-. exists a, c'. split; [reflexivity|]. split; [exact Es|]. unfold corner_image. rewrite R.
      repeat split; auto.
  - destruct G as (a' & b' & -> & G). injection F as <-. exists a', b'. auto.
  - destruct G as (a' & b' & c' & -> & G). injection F as <-. exists a', b', c'. auto.
  - destruct G as (_ & ->). discriminate.
  - destruct G as (a' & -> & G). injection F as <-. exists a'. auto.
Qed.

Lemma part_image_flag t p i q q' : part_image t p i q q' -> line_flag q' = line_flag q.
Proof.
  destruct q as [s c|a b f|a b c f|f|a rx ry g la sw f].
  - intros (? & ? & -> & _). reflexivity.
  - intros (? & ? & -> & _). reflexivity.
  - intros (? & ? & ? & -> & _). reflexivity.
  - intros [].
  - intros (? & -> & _). reflexivity.
Qed.

Lemma part_image_stop t p i q q' : nth_error (parts p) i = Some q -> part_image t p i q q' ->
  exists e, stop_point p i = Ok e /\ forall r, part_stop q' r = Ok (apply t e).
Proof.
  intros H. unfold part_image, stop_point, to_absolute_point. rewrite H. destruct q as [s c|a b f|a b c f|f|a rx ry g la sw f]; intros G.
  - destruct G as (a & c' & -> & E & _). exists a. auto.
  - destruct G as (a' & b' & -> & _ & E). exists b'. split; [|reflexivity]. simpl. destruct f; exact E.
  - destruct G as (a' & b' & c' & -> & _ & _ & E). exists c'. split; [|reflexivity]. simpl. destruct f; exact E.
  - destruct G.
  - destruct G as (a' & -> & E). exists a'. split; [|reflexivity]. simpl. destruct f; exact E.
Qed.

Lemma part_image_linear t p i q s' c' : part_image t p i q (Linear s' c') ->
  exists s c a, q = Linear s c /\ s' = PLine (apply t a) true /\ stop_point p i = Ok a /\ corner_image t c c'.
Proof.
  destruct q as [s c|a b f|a b c f|f|a rx ry g la sw f].
  - intros (a & k & E & E1 & E2). injection E as -> ->. exists s, c, a. auto.
  - intros (? & ? & E & _). discriminate.
  - intros (? & ? & ? & E & _). discriminate.
  - intros [].
  - intros (? & E & _). discriminate.
Qed.

Lemma transform_back t p p' i q' : sane p -> transform_path t p = Ok p' -> nth_error (parts p') i = Some q' ->
  exists q, nth_error (parts p) i = Some q /\ part_image t p i q q'.
Proof.
  intros Hs E H. destruct (transform_parts t p p' Hs E) as (_ & _ & L & N).
  destruct (nth_error (parts p) i) as [q|] eqn:Hq.
  - destruct (N i q Hq) as (q2 & Hq2 & G). exists q. split; [reflexivity|]. congruence.
  - exfalso. apply nth_error_None in Hq. assert (nth_error (parts p') i <> None) as K by congruence. apply nth_error_Some in K. lia.
Qed.

Lemma transform_sane t p p' : sane p -> transform_path t p = Ok p' -> sane p'.
Proof.
  intros Hs E. destruct (transform_parts t p p' Hs E) as (_ & C & L & N).
  assert (B : forall i s' c', nth_error (parts p') i = Some (Linear s' c') -> exists s c a,
    nth_error (parts p) i = Some (Linear s c) /\ s' = PLine (apply t a) true /\ corner_image t c c').
  { intros i s' c' H. destruct (transform_back t p p' i _ Hs E H) as (q & Hq & G).
    destruct (part_image_linear t p i q s' c' G) as (s & c & a & -> & -> & _ & G1). exists s, c, a. auto. }
  constructor.
  - intros j s c H. destruct (B _ _ _ H) as (s0 & c0 & a & H0 & _ & -> & _). apply (sane_bulge p Hs j s0 c0 H0).
  - intros s c H. destruct (B _ _ _ H) as (s0 & c0 & a & H0 & _ & -> & _ & R & _).
    rewrite (sane_first p Hs s0 c0 H0). destruct (radius c0); [destruct R as (r' & -> & _)|rewrite R]; split; congruence.
  - intros s c H. destruct (B _ _ _ H) as (s0 & c0 & a & H0 & _ & -> & _). rewrite C. apply (sane_open p Hs s0 c0 H0).
  - rewrite C. intros Hc. destruct (sane_closed p Hs Hc) as (a & Ha). apply ends_nth in Ha. destruct Ha as (k & Hk).
    destruct (N _ _ Hk) as (q' & Hq' & G). destruct G as (b & c' & -> & _). exists (apply t b). apply ends_nth. exists c'. rewrite L. exact Hq'.
  - intros j s c H Hr. destruct (B _ _ _ H) as (s0 & c0 & a & H0 & _ & _ & _ & R & _).
    assert (radius c0 <> None) as K. { destruct (radius c0); [discriminate|congruence]. }
    pose proof (sane_prev p Hs j s0 c0 H0 K) as P. destruct (nth_error (parts p) j) as [q|] eqn:Hq; [|discriminate].
    destruct (N j q Hq) as (q' & Hq' & G). rewrite Hq'. rewrite <- P. apply (part_image_flag t p j q q' G).
  - intros i s c r H Hr. destruct (B _ _ _ H) as (s0 & c0 & a & H0 & _ & _ & _ & R & _).
    destruct (radius c0) as [r0|] eqn:R0; [|congruence]. destruct R as (r' & R1 & R2).
    assert (r' = r) as <- by congruence. apply (scalar_nonneg t r0 r' (sane_radius p Hs i s0 c0 r0 H0 R0) R2).
  - intros i s c H Hc. destruct (B _ _ _ H) as (s0 & c0 & a & H0 & -> & _). eauto.
Qed.

Lemma start0 p q : nth_error (parts p) 0 = Some q -> start_point p 0 =
  match q with
  | Linear _ c =>
      if start_bulge c then
        match last (parts p) (PStringed true) with Linear (PLine point true) _ => Ok point | _ => Raise RecursionError end
      else Ok (p0 p)
  | _ => Ok (p0 p)
  end.
Proof. intros H. unfold start_point. rewrite H. reflexivity. Qed.

Lemma transform_start t p p' : sane p -> transform_path t p = Ok p' ->
  forall i, (i <= length (parts p))%nat -> exists s, start_point p i = Ok s /\ start_point p' i = Ok (apply t s).
Proof.
  intros Hs E. destruct (transform_parts t p p' Hs E) as (P0 & C & L & N).
  induction i as [|i IH]; intros Hi.
  - destruct (parts p) as [|q l] eqn:Ep.
    + destruct (parts p') as [|q' l'] eqn:Ep'; [|discriminate]. exists (p0 p). cbn. rewrite Ep, Ep', P0. auto.
    + destruct (N 0%nat q eq_refl) as (q' & Hq' & G). 
      assert (B : start_point p 0 = Ok (p0 p) /\ start_point p' 0 = Ok (p0 p') \/
        exists a, start_point p 0 = Ok a /\ start_point p' 0 = Ok (apply t a)).
      { rewrite (start0 p q) by (rewrite Ep; reflexivity). rewrite (start0 p' q' Hq').
        destruct q as [s c|a b f|a b c f|f|a rx ry g la sw f].
        - destruct G as (a & c' & -> & _ & G1 & _). rewrite G1. destruct (start_bulge c) eqn:B; [|auto]. right.
          destruct (sane_closed p Hs) as (z & Hz).
          { apply (sane_open p Hs s c); [rewrite Ep; reflexivity|exact B]. }
          assert (Hz1 := Hz). apply ends_nth in Hz. destruct Hz as (k & Hk).
          rewrite Ep in Hk. destruct (N _ _ Hk) as (x & Hx & Gx). destruct Gx as (b & c2 & -> & Eb & _).
          assert (b = z) as ->. { unfold stop_point in Eb. rewrite Ep, Hk in Eb. injection Eb as ->. reflexivity. }
          destruct Hz1 as (k1 & Hk1). rewrite Ep in Hk1. exists z.
          assert (last (parts p') (PStringed true) = Linear (PLine (apply t z) true) c2) as ->.
          { apply last_nth. rewrite L. exact Hx. }
          rewrite Ep, Hk1. auto.
        - destruct G as (? & ? & -> & _). auto.
        - destruct G as (? & ? & ? & -> & _). auto.
        - destruct G.
        - destruct G as (? & -> & _). auto. }
      destruct B as [[-> ->]|B]; [|exact B]. exists (p0 p). rewrite P0. auto.
  - destruct (nth_error (parts p) i) as [q|] eqn:Hq; [|apply nth_error_None in Hq; lia].
    destruct (N i q Hq) as (q' & Hq' & G). destruct (part_image_stop t p i q q' Hq G) as (e & E1 & E2).
    exists e. rewrite !start_succ. unfold stop_of. rewrite Hq, Hq', E2. unfold stop_point in E1. rewrite Hq in E1. auto.
Qed.

Lemma transform_stop t p p' : sane p -> transform_path t p = Ok p' ->
  forall i, (i < length (parts p))%nat -> exists s, stop_point p i = Ok s /\ stop_point p' i = Ok (apply t s).
Proof.
  intros Hs E i Hi. destruct (transform_parts t p p' Hs E) as (P0 & C & L & N).
  destruct (nth_error (parts p) i) as [q|] eqn:Hq; [|apply nth_error_None in Hq; lia].
  destruct (N i q Hq) as (q' & Hq' & G). destruct (part_image_stop t p i q q' Hq G) as (e & E1 & E2).
  exists e. split; [exact E1|]. unfold stop_point. rewrite Hq'. apply E2.
Qed.
