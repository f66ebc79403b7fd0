From Coq Require Import List Lia Bool Arith.
From Verif Require Import Base ModelSingleton SpecSingleton.
Import ListNotations.

Definition in_block (p : qpc) : bool :=
  match p with QLocked | QMissing | QBuilt _ | QUnlock | QFailing => true | _ => false end.

Lemma nth_update : forall A (l : list A) i x y j,
  nth_error l i = Some y ->
  nth_error (update i x l) j = if Nat.eqb i j then Some x else nth_error l j.
Proof.
  intros. destruct (Nat.eqb_spec i j).
  - subst. eapply nth_error_update_eq; eauto.
  - apply nth_error_update_neq; auto.
Qed.

(** The invariant of the metaclass: the block is exclusive; objects are made only while the
    attribute is unset; the attribute, once set, is object 0. *)
Record sinv (c : sconfig) : Prop := {
  si_lock : forall i p, nth_error (s_threads c) i = Some p ->
      (in_block p = true <-> s_lock c = Some i);
  si_state :
      (s_instance c = None /\ s_made c = 0 /\
         forall i p, nth_error (s_threads c) i = Some p ->
           (forall o, p <> QBuilt o) /\ p <> QUnlock /\ p <> QReturn /\ (forall r, p <> QDone (Ok r))) \/
      (s_instance c = None /\ s_made c = 1 /\
         (exists i, s_lock c = Some i /\ nth_error (s_threads c) i = Some (QBuilt 0)) /\
         forall i p, nth_error (s_threads c) i = Some p ->
           p <> QUnlock /\ p <> QReturn /\ (forall r, p <> QDone (Ok r))) \/
      (s_instance c = Some 0 /\ s_made c = 1 /\
         forall i p, nth_error (s_threads c) i = Some p ->
           p <> QMissing /\ (forall o, p <> QBuilt o) /\ (forall r, p = QDone (Ok r) -> r = Some 0))
}.

Lemma sinv_init : forall n, sinv (s_init n).
Proof.
  intros n. constructor; simpl.
  - intros i p H. apply nth_error_In, repeat_spec in H. subst. simpl. split; discriminate.
  - left. repeat split; auto; intros; apply nth_error_In, repeat_spec in H; subst; discriminate.
Qed.

Ltac upd H :=
  match goal with
  | Hi : nth_error ?l ?i = Some ?y |- _ =>
      rewrite (nth_update _ l i _ y _ Hi) in H
  end.

Lemma lock_step : forall c i p q lk',
  (forall i p, nth_error (s_threads c) i = Some p -> (in_block p = true <-> s_lock c = Some i)) ->
  nth_error (s_threads c) i = Some p ->
  (in_block q = true <-> lk' = Some i) ->
  (lk' = s_lock c \/ (s_lock c = None /\ lk' = Some i) \/ (s_lock c = Some i /\ lk' = None)) ->
  forall j r, nth_error (update i q (s_threads c)) j = Some r ->
     (in_block r = true <-> lk' = Some j).
Proof.
  intros c i p q lk' HL Hi Hq Hlk j r Hj. upd Hj.
  destruct (Nat.eqb_spec i j).
  - inversion Hj; subst; auto.
  - rewrite (HL _ _ Hj). destruct Hlk as [->|[[E ->]|[E ->]]]; [tauto| |]; rewrite E;
      split; congruence.
Qed.

Lemma sinv_step : forall raises c i, sinv c -> sinv (meta_step raises c i).
Proof.
  intros raises c i [HL HS]. unfold meta_step.
  destruct (nth_error (s_threads c) i) as [p|] eqn:Hi; [|constructor; auto].
  pose proof (HL i p Hi) as HLi.
  destruct p as [| | |o| | | |r]; simpl in HLi.
  - (* QStart *)
    destruct (s_lock c) as [k|] eqn:Lk; [constructor; auto; rewrite Lk; auto|].
    constructor; simpl.
    + eapply lock_step; eauto; [rewrite Lk; auto|simpl; tauto].
    + destruct HS as [(A & B & D)|[(A & B & (k & E & _) & D)|(A & B & D)]].
      * left. repeat split; auto; upd H; destruct (Nat.eqb_spec i i0);
          try (inversion H; discriminate); eapply D; eauto.
      * congruence.
      * right; right. repeat split; auto; upd H; destruct (Nat.eqb_spec i i0);
          try (inversion H; discriminate); try (eapply D; eauto; fail).
  - (* QLocked *)
    assert (Lk : s_lock c = Some i) by (apply HLi; reflexivity).
    destruct HS as [(A & B & D)|[(A & B & (k & E & E2) & D)|(A & B & D)]].
    + rewrite A. constructor; simpl.
      * eapply lock_step; eauto; simpl; rewrite ?Lk; tauto.
      * left. repeat split; auto; upd H; destruct (Nat.eqb_spec i i0);
          try (inversion H; discriminate); eapply D; eauto.
    + exfalso. rewrite Lk in E. inversion E; subst. congruence.
    + rewrite A. constructor; simpl.
      * eapply lock_step; eauto; simpl; rewrite ?Lk; tauto.
      * right; right. repeat split; auto; upd H; destruct (Nat.eqb_spec i i0);
          try (inversion H; discriminate); try (eapply D; eauto; fail).
  - (* QMissing *)
    assert (Lk : s_lock c = Some i) by (apply HLi; reflexivity).
    destruct HS as [(A & B & D)|[(A & B & (k & E & E2) & D)|(A & B & D)]].
    + destruct (raises i).
      * constructor; simpl.
        -- eapply lock_step; eauto; simpl; rewrite ?Lk; tauto.
        -- left. repeat split; auto; upd H; destruct (Nat.eqb_spec i i0);
             try (inversion H; discriminate); eapply D; eauto.
      * constructor; simpl.
        -- eapply lock_step; eauto; simpl; rewrite ?Lk; tauto.
        -- right; left. repeat split; auto.
           ++ exists i. split; auto. rewrite (nth_update _ _ _ _ _ _ Hi), Nat.eqb_refl, B. reflexivity.
           ++ upd H; destruct (Nat.eqb_spec i i0); [inversion H; discriminate|eapply D; eauto].
           ++ upd H; destruct (Nat.eqb_spec i i0); [inversion H; discriminate|eapply D; eauto].
           ++ upd H; destruct (Nat.eqb_spec i i0); [inversion H; discriminate|eapply D; eauto].
    + exfalso. rewrite Lk in E. inversion E; subst. congruence.
    + exfalso. destruct (D _ _ Hi) as (X & _). congruence.
  - (* QBuilt *)
    assert (Lk : s_lock c = Some i) by (apply HLi; reflexivity).
    destruct HS as [(A & B & D)|[(A & B & (k & E & E2) & D)|(A & B & D)]].
    + exfalso. destruct (D _ _ Hi) as (X & _). eapply X; eauto.
    + assert (k = i) by congruence. subst k. assert (o = 0) by congruence. subst o.
      constructor; simpl.
      * eapply lock_step; eauto; simpl; rewrite ?Lk; tauto.
      * right; right.
        assert (NB : forall j p, i <> j -> nth_error (s_threads c) j = Some p -> in_block p = false).
        { intros j p N Hj. destruct (in_block p) eqn:IB; auto. apply (HL j p Hj) in IB. congruence. }
        repeat split; auto; upd H; destruct (Nat.eqb_spec i i0);
          try (inversion H; discriminate).
        -- intros ->. specialize (NB _ _ n H). discriminate.
        -- intros o ->. specialize (NB _ _ n H). discriminate.
        -- intros r ->. exfalso. destruct (D _ _ H) as (_ & _ & X). eapply X; eauto.
    + exfalso. destruct (D _ _ Hi) as (_ & X & _). eapply X; eauto.
  - (* QUnlock *)
    assert (Lk : s_lock c = Some i) by (apply HLi; reflexivity).
    destruct HS as [(A & B & D)|[(A & B & (k & E & E2) & D)|(A & B & D)]].
    + exfalso. destruct (D _ _ Hi) as (_ & X & _). congruence.
    + exfalso. destruct (D _ _ Hi) as (X & _). congruence.
    + constructor; simpl.
      * eapply lock_step; eauto; simpl; split; discriminate.
      * right; right. repeat split; auto; upd H; destruct (Nat.eqb_spec i i0);
          try (inversion H; discriminate); try (eapply D; eauto; fail).
  - (* QFailing *)
    assert (Lk : s_lock c = Some i) by (apply HLi; reflexivity).
    constructor; simpl.
    + eapply lock_step; eauto; simpl; split; discriminate.
    + destruct HS as [(A & B & D)|[(A & B & (k & E & E2) & D)|(A & B & D)]].
      * left. repeat split; auto; upd H; destruct (Nat.eqb_spec i i0);
          try (inversion H; discriminate); eapply D; eauto.
      * exfalso. rewrite Lk in E. inversion E; subst. congruence.
      * right; right. repeat split; auto; upd H; destruct (Nat.eqb_spec i i0);
          try (inversion H; discriminate); try (eapply D; eauto; fail).
  - (* QReturn *)
    destruct HS as [(A & B & D)|[(A & B & (k & E & E2) & D)|(A & B & D)]].
    + exfalso. destruct (D _ _ Hi) as (_ & _ & X & _). congruence.
    + exfalso. destruct (D _ _ Hi) as (_ & X & _). congruence.
    + constructor; simpl.
      * eapply lock_step; eauto; simpl; tauto.
      * right; right. repeat split; auto; upd H; destruct (Nat.eqb_spec i i0);
          try (inversion H; discriminate); try (eapply D; eauto; fail).
        inversion H; subst. intros r Er. inversion Er; subst. congruence.
  - constructor; auto.
Qed.

Lemma sinv_run : forall raises n sched, sinv (s_run (meta_step raises) (s_init n) sched).
Proof.
  intros raises n sched. unfold s_run. generalize (sinv_init n). generalize (s_init n).
  induction sched; simpl; intros; auto. apply IHsched, sinv_step; auto.
Qed.

Lemma meta_singleton : forall raises n sched,
  let c := s_run (meta_step raises) (s_init n) sched in
  s_made c <= 1 /\
  exists o, forall i r, nth_error (s_threads c) i = Some (QDone (Ok r)) -> r = Some o.
Proof.
  intros raises n sched c. destruct (sinv_run raises n sched) as [_ HS]. fold c in HS.
  destruct HS as [(A & B & D)|[(A & B & (k & E & E2) & D)|(A & B & D)]].
  - split; [lia|]. exists 0. intros i r H. exfalso. destruct (D _ _ H) as (_ & _ & _ & X). eapply X; eauto.
  - split; [lia|]. exists 0. intros i r H. exfalso. destruct (D _ _ H) as (_ & _ & X). eapply X; eauto.
  - split; [lia|]. exists 0. intros i r H. destruct (D _ _ H) as (_ & _ & X). eapply X; eauto.
Qed.

(** ** The decorator, calls that do not overlap *)

Record dinv (c : sconfig) : Prop := {
  di_shape : forall i p, nth_error (s_threads c) i = Some p ->
      p <> QLocked /\ p <> QUnlock /\ p <> QFailing;
  di_state :
      (s_instance c = None /\ s_made c = 0 /\
         forall i p, nth_error (s_threads c) i = Some p ->
           (forall o, p <> QBuilt o) /\ p <> QReturn /\ (forall r, p <> QDone (Ok r))) \/
      (s_instance c = None /\ s_made c = 1 /\
         (exists i, nth_error (s_threads c) i = Some (QBuilt 0)) /\
         forall i p, nth_error (s_threads c) i = Some p ->
            (forall r, p <> QDone (Ok r))) \/
      (s_instance c = Some 0 /\ s_made c = 1 /\
         forall i p, nth_error (s_threads c) i = Some p ->
           p <> QMissing /\ (forall o, p <> QBuilt o) /\ (forall r, p = QDone (Ok r) -> r = Some 0))
}.

Lemma dinv_init : forall n, dinv (s_init n).
Proof.
  intros n. constructor; simpl.
  - intros i p H. apply nth_error_In, repeat_spec in H. subst. repeat split; discriminate.
  - left. repeat split; auto; intros; apply nth_error_In, repeat_spec in H; subst; discriminate.
Qed.

Lemma dshape_step : forall c i p q,
  (forall i p, nth_error (s_threads c) i = Some p -> p <> QLocked /\ p <> QUnlock /\ p <> QFailing) ->
  nth_error (s_threads c) i = Some p ->
  q <> QLocked /\ q <> QUnlock /\ q <> QFailing ->
  forall j r, nth_error (update i q (s_threads c)) j = Some r ->
    r <> QLocked /\ r <> QUnlock /\ r <> QFailing.
Proof.
  intros c i p q HS Hi Hq j r Hj. upd Hj. destruct (Nat.eqb_spec i j).
  - inversion Hj; subst; auto.
  - eauto.
Qed.

Lemma dinv_step : forall raises c i,
  exclusive c -> exclusive (deco_step raises c i) -> dinv c -> dinv (deco_step raises c i).
Proof.
  intros raises c i EX EX' [HP HS]. unfold deco_step in *.
  destruct (nth_error (s_threads c) i) as [p|] eqn:Hi; [|constructor; auto].
  destruct p as [| | |o| | | |r].
  - (* QStart *)
    destruct HS as [(A & B & D)|[(A & B & (k & E) & D)|(A & B & D)]]; rewrite A in *.
    + constructor; simpl.
      * eapply dshape_step; eauto; repeat split; discriminate.
      * left. repeat split; auto; upd H; destruct (Nat.eqb_spec i i0);
          try (inversion H; discriminate); eapply D; eauto.
    + exfalso. assert (N : i <> k) by congruence.
      assert (i = k); [|congruence].
      apply (EX' i k QMissing (QBuilt 0)); simpl; auto.
      * rewrite (nth_update _ _ _ _ _ _ Hi), Nat.eqb_refl. reflexivity.
      * rewrite (nth_update _ _ _ _ _ _ Hi). destruct (Nat.eqb_spec i k); [congruence|auto].
    + constructor; simpl.
      * eapply dshape_step; eauto; repeat split; discriminate.
      * right; right. repeat split; auto; upd H; destruct (Nat.eqb_spec i i0);
          try (inversion H; discriminate); try (eapply D; eauto; fail).
  - exfalso. destruct (HP _ _ Hi) as (X & _). congruence.
  - (* QMissing *)
    destruct HS as [(A & B & D)|[(A & B & (k & E) & D)|(A & B & D)]].
    + destruct (raises i).
      * constructor; simpl.
        -- eapply dshape_step; eauto; repeat split; discriminate.
        -- left. repeat split; auto; upd H; destruct (Nat.eqb_spec i i0);
             try (inversion H; discriminate); eapply D; eauto.
      * constructor; simpl.
        -- eapply dshape_step; eauto; repeat split; discriminate.
        -- right; left. repeat split; auto.
           ++ exists i. rewrite (nth_update _ _ _ _ _ _ Hi), Nat.eqb_refl, B. reflexivity.
           ++ intros j q H. upd H. destruct (Nat.eqb_spec i j); [inversion H; discriminate|eapply D; eauto].
    + exfalso. assert (i = k) by (apply (EX i k QMissing (QBuilt 0)); auto). congruence.
    + exfalso. destruct (D _ _ Hi) as (X & _). congruence.
  - (* QBuilt *)
    destruct HS as [(A & B & D)|[(A & B & (k & E) & D)|(A & B & D)]].
    + exfalso. destruct (D _ _ Hi) as (X & _). eapply X; eauto.
    + assert (i = k) by (apply (EX i k (QBuilt o) (QBuilt 0)); auto). subst k.
      assert (o = 0) by congruence. subst o.
      constructor; simpl.
      * eapply dshape_step; eauto; repeat split; discriminate.
      * right; right. repeat split; auto; upd H; destruct (Nat.eqb_spec i i0);
          try (inversion H; discriminate).
        -- intros ->. apply n. apply (EX i i0 (QBuilt 0) QMissing); auto.
        -- intros o ->. apply n. apply (EX i i0 (QBuilt 0) (QBuilt o)); auto.
        -- intros r ->. exfalso. eapply D; eauto.
    + exfalso. destruct (D _ _ Hi) as (_ & X & _). eapply X; eauto.
  - exfalso. destruct (HP _ _ Hi) as (_ & X & _). congruence.
  - exfalso. destruct (HP _ _ Hi) as (_ & _ & X). congruence.
  - (* QReturn *)
    destruct HS as [(A & B & D)|[(A & B & (k & E) & D)|(A & B & D)]].
    + exfalso. destruct (D _ _ Hi) as (_ & X & _). congruence.
    + exfalso. assert (i = k) by (apply (EX i k QReturn (QBuilt 0)); auto). congruence.
    + constructor; simpl.
      * eapply dshape_step; eauto; repeat split; discriminate.
      * right; right. repeat split; auto; upd H; destruct (Nat.eqb_spec i i0);
          try (inversion H; discriminate); try (eapply D; eauto; fail).
        inversion H; subst. intros r Er. inversion Er; subst. congruence.
  - constructor; auto.
Qed.

Lemma deco_singleton : forall raises n sched,
  (forall k, exclusive (s_run (deco_step raises) (s_init n) (firstn k sched))) ->
  let c := s_run (deco_step raises) (s_init n) sched in
  s_made c <= 1 /\
  exists o, forall i r, nth_error (s_threads c) i = Some (QDone (Ok r)) -> r = Some o.
Proof.
  intros raises n sched EX c.
  assert (DI : forall k, k <= length sched ->
             dinv (s_run (deco_step raises) (s_init n) (firstn k sched))).
  { induction k; intros Hk; [apply dinv_init|].
    destruct (nth_error sched k) as [i|] eqn:Ei; [|apply nth_error_None in Ei; lia].
    assert (F : firstn (S k) sched = firstn k sched ++ [i]).
    { clear - Ei. revert k Ei. induction sched; intros [|k] E; simpl in *; try discriminate.
      - inversion E; reflexivity.
      - f_equal. auto. }
    pose proof (EX k) as E1. pose proof (EX (S k)) as E2. rewrite F in *.
    unfold s_run in *. rewrite fold_left_app in *. simpl in *.
    apply dinv_step; auto. apply IHk. lia. }
  specialize (DI (length sched) (le_n _)). rewrite firstn_all in DI. fold c in DI.
  destruct DI as [_ HS].
  destruct HS as [(A & B & D)|[(A & B & (k & E) & D)|(A & B & D)]].
  - split; [lia|]. exists 0. intros i r H. exfalso. destruct (D _ _ H) as (_ & _ & X). eapply X; eauto.
  - split; [lia|]. exists 0. intros i r H. exfalso. eapply D; eauto.
  - split; [lia|]. exists 0. intros i r H. destruct (D _ _ H) as (_ & _ & X). eapply X; eauto.
Qed.
