From Coq Require Import List ZArith Lia Permutation Bool.
From Verif Require Import Base ModelCounter SpecCounter.
Import ListNotations.
Local Open Scope Z_scope.

(** ** One thread *)

Lemma last_cons_indep : forall (l : list Z) a d, last (a :: l) d = last l a.
Proof.
  induction l as [|b l IH]; intros a d; [reflexivity|].
  change (last (a :: b :: l) d) with (last (b :: l) d).
  rewrite IH. symmetry. apply IH.
Qed.

Lemma new_objects_length : forall calls c rs c',
  new_objects c calls = (rs, c') -> length rs = length calls.
Proof.
  induction calls as [|x calls IH]; simpl; intros c rs c' H.
  - inversion H; reflexivity.
  - destruct (new_object c x) as [r c1]. destruct (new_objects c1 calls) as [rs1 c2] eqn:E.
    inversion H; subst. simpl. f_equal. eauto.
Qed.

Lemma new_object_spec : forall c x r c',
  new_object c x = (r, c') ->
  match r with
  | Ok i => c < i /\ c' = i /\ (x = Some i \/ (x = None /\ i = c + 1))
  | Raise e => e = ValueError /\ c' = c /\ exists i, x = Some i /\ i <= c
  end.
Proof.
  intros c [i|] r c' H; unfold new_object, counter_set, counter_increment in H.
  - destruct (Z.leb_spec i c); inversion H; subst; clear H.
    + repeat split; eauto.
    + repeat split; auto; lia.
  - inversion H; subst. repeat split; auto; lia.
Qed.

Lemma new_objects_increasing : forall calls c rs c',
  new_objects c calls = (rs, c') ->
  strictly_increasing (c :: successes rs) /\ c' = last (successes rs) c.
Proof.
  induction calls as [|x calls IH]; simpl; intros c rs c' H.
  - inversion H; subst; simpl. split; [|reflexivity].
    intros [|i] [|j] a b Hij Ha Hb; simpl in *; try lia.
    + destruct j; discriminate.
    + destruct j; discriminate.
  - destruct (new_object c x) as [r c1] eqn:E1.
    destruct (new_objects c1 calls) as [rs1 c2] eqn:E2.
    inversion H; subst; clear H. specialize (IH _ _ _ E2) as [I1 I2].
    apply new_object_spec in E1. destruct r as [i|e].
    + destruct E1 as (L & -> & _). simpl successes.
      split; [|rewrite last_cons_indep; exact I2].
      intros [|p] [|q] a b Hij Ha Hb; simpl in Ha, Hb; try lia.
      * inversion Ha; subst a. destruct q as [|q]; simpl in Hb.
        -- inversion Hb; subst; lia.
        -- specialize (I1 0%nat (S q) i b ltac:(lia) eq_refl Hb). lia.
      * exact (I1 p q a b ltac:(lia) Ha Hb).
    + destruct E1 as (_ & -> & _). simpl. auto.
Qed.

Lemma new_objects_outcome : forall calls c rs c' k x,
  new_objects c calls = (rs, c') ->
  nth_error calls k = Some x ->
  let given := last (successes (firstn k rs)) c in
  nth_error rs k =
    Some (match x with
          | None => Ok (given + 1)
          | Some i => if given <? i then Ok i else Raise ValueError
          end).
Proof.
  induction calls as [|y calls IH]; simpl; intros c rs c' k x H Hk.
  - destruct k; discriminate.
  - destruct (new_object c y) as [r c1] eqn:E1.
    destruct (new_objects c1 calls) as [rs1 c2] eqn:E2.
    inversion H; subst; clear H.
    destruct k as [|k]; simpl in *.
    + inversion Hk; subst y; clear Hk. f_equal.
      unfold new_object, counter_set, counter_increment in E1.
      destruct x as [i|]; [|inversion E1; reflexivity].
      destruct (Z.leb_spec i c), (Z.ltb_spec c i); inversion E1; subst; auto; lia.
    + rewrite (IH _ _ _ _ _ E2 Hk). f_equal.
      apply new_object_spec in E1. destruct r as [i|e].
      * destruct E1 as (_ & -> & _). rewrite last_cons_indep. reflexivity.
      * destruct E1 as (_ & -> & _). reflexivity.
Qed.

(** ** Many threads *)


Definition holds_lock (p : pc) : bool :=
  match p with PLocked | PRead _ | PWritten | PFailing => true | _ => false end.

(** [Some ok] once the outcome of the call on the counter is decided. *)
Definition decided (p : pc) : option bool :=
  match p with
  | PStart | PLocked | PRead _ => None
  | PWritten | PUnlocked => Some true
  | PFailing => Some false
  | PReturned (Ok _) => Some true
  | PReturned (Raise _) => Some false
  end.

Definition log_entry (ths : list thread) (i : nat) : request * bool :=
  match nth_error ths i with
  | Some th => (request_of (t_call th),
                match decided (t_pc th) with Some b => b | None => false end)
  | None => (Add 0, false)
  end.

Record inv (v0 : Z) (calls : list call) (c : config) : Prop := {
  inv_calls : map t_call (c_threads c) = calls;
  inv_lock : forall i th, nth_error (c_threads c) i = Some th ->
      (holds_lock (t_pc th) = true <-> c_lock c = Some i);
  inv_owner : forall i, c_lock c = Some i -> exists th, nth_error (c_threads c) i = Some th;
  inv_read : forall i th v, nth_error (c_threads c) i = Some th ->
      t_pc th = PRead v -> v = c_value c;
  inv_log : exists log, NoDup log /\
      (forall i, In i log <-> exists th b, nth_error (c_threads c) i = Some th /\
                                           decided (t_pc th) = Some b) /\
      serve_all v0 (map (log_entry (c_threads c)) log) (c_value c)
}.

Lemma map_call_set_pc : forall ths i th p,
  nth_error ths i = Some th -> map t_call (set_pc i th p ths) = map t_call ths.
Proof.
  unfold set_pc. induction ths as [|x ths IH]; intros [|i] th p H; simpl in *; try discriminate.
  - inversion H; subst; reflexivity.
  - f_equal. apply IH; exact H.
Qed.

Lemma nth_set_pc : forall ths i th p j,
  nth_error ths i = Some th ->
  nth_error (set_pc i th p ths) j =
    if Nat.eqb i j then Some (mkThread (t_call th) p) else nth_error ths j.
Proof.
  intros. unfold set_pc. destruct (Nat.eqb_spec i j).
  - subst. eapply nth_error_update_eq; eauto.
  - apply nth_error_update_neq; auto.
Qed.

Lemma serve_all_snoc : forall l v v1 r ok v2,
  serve_all v l v1 -> serve v1 r ok v2 -> serve_all v (l ++ [(r, ok)]) v2.
Proof.
  intros l v v1 r ok v2 H. revert r ok v2. induction H; intros.
  - simpl. econstructor; eauto. constructor.
  - simpl. econstructor; eauto.
Qed.

Lemma log_entry_same : forall ths i th p log,
  nth_error ths i = Some th -> decided p = decided (t_pc th) ->
  map (log_entry (set_pc i th p ths)) log = map (log_entry ths) log.
Proof.
  intros. apply map_ext. intros j. unfold log_entry. rewrite nth_set_pc by auto.
  destruct (Nat.eqb_spec i j); [|reflexivity].
  subst. rewrite H. simpl. rewrite H0. reflexivity.
Qed.

Lemma log_entry_notin : forall ths i th p log,
  nth_error ths i = Some th -> ~ In i log ->
  map (log_entry (set_pc i th p ths)) log = map (log_entry ths) log.
Proof.
  intros. apply map_ext_in. intros j Hj. unfold log_entry. rewrite nth_set_pc by auto.
  destruct (Nat.eqb_spec i j); [subst; contradiction|reflexivity].
Qed.

(** A step that changes neither the value nor what is decided keeps the log. *)
Lemma keep_log : forall v0 ths i th p value,
  nth_error ths i = Some th -> decided p = decided (t_pc th) ->
  (exists log, NoDup log /\
     (forall i, In i log <-> exists th b, nth_error ths i = Some th /\ decided (t_pc th) = Some b) /\
     serve_all v0 (map (log_entry ths) log) value) ->
  exists log, NoDup log /\
     (forall j, In j log <-> exists th0 b, nth_error (set_pc i th p ths) j = Some th0 /\
                                           decided (t_pc th0) = Some b) /\
     serve_all v0 (map (log_entry (set_pc i th p ths)) log) value.
Proof.
  intros v0 ths i th p value Hi Hd (log & N & I & S). exists log. split; [auto|]. split.
  - intros j. rewrite I. rewrite nth_set_pc by auto.
    destruct (Nat.eqb_spec i j); [|reflexivity]. subst. split.
    + intros (t & b & E & D). rewrite Hi in E. inversion E; subst.
      eexists _, b. split; [reflexivity|]. simpl. congruence.
    + intros (t & b & E & D). inversion E; subst. simpl in D. eexists th, b. split; [auto|].
      congruence.
  - rewrite log_entry_same by auto. exact S.
Qed.

Lemma extend_log : forall v0 ths i th p value value' ok,
  nth_error ths i = Some th -> decided (t_pc th) = None -> decided p = Some ok ->
  serve value (request_of (t_call th)) ok value' ->
  (exists log, NoDup log /\
     (forall i, In i log <-> exists th b, nth_error ths i = Some th /\ decided (t_pc th) = Some b) /\
     serve_all v0 (map (log_entry ths) log) value) ->
  exists log, NoDup log /\
     (forall j, In j log <-> exists th0 b, nth_error (set_pc i th p ths) j = Some th0 /\
                                           decided (t_pc th0) = Some b) /\
     serve_all v0 (map (log_entry (set_pc i th p ths)) log) value'.
Proof.
  intros v0 ths i th p value value' ok Hi Hd Hp Hs (log & N & I & S).
  assert (NI : ~ In i log).
  { rewrite I. intros (t & b & E & D). rewrite Hi in E. inversion E; subst. congruence. }
  exists (log ++ [i]). split; [|split].
  - apply (Permutation_NoDup (l := i :: log)).
    + apply Permutation_cons_append.
    + constructor; auto.
  - intros j. rewrite in_app_iff, I. rewrite nth_set_pc by auto. simpl.
    destruct (Nat.eqb_spec i j).
    + subst. split; [|intros _; auto]. intros _. eexists _, ok. split; [reflexivity|]. auto.
    + split; [intros [H|[H|[]]]; [auto|congruence] | auto].
  - rewrite map_app. simpl. rewrite log_entry_notin by auto.
    unfold log_entry at 2. rewrite nth_set_pc, Nat.eqb_refl by auto. simpl. rewrite Hp.
    eapply serve_all_snoc; eauto.
Qed.

Lemma inv_init : forall v0 calls, inv v0 calls (init_config v0 calls).
Proof.
  intros. constructor; simpl.
  - rewrite map_map. simpl. apply map_id.
  - intros i th H. apply nth_error_In, in_map_iff in H. destruct H as (x & <- & _). simpl.
    split; discriminate.
  - discriminate.
  - intros i th v H. apply nth_error_In, in_map_iff in H. destruct H as (x & <- & _). discriminate.
  - exists []. split; [constructor|]. split; [|constructor].
    intros i. split; [intros []|]. intros (th & b & H & D).
    apply nth_error_In, in_map_iff in H. destruct H as (x & <- & _). discriminate.
Qed.

Lemma inv_step : forall v0 calls c i, inv v0 calls c -> inv v0 calls (step c i).
Proof.
  intros v0 calls c i [Hc Hl Ho Hr Hlog]. unfold step.
  destruct (nth_error (c_threads c) i) as [th|] eqn:Hi; [|constructor; auto].
  assert (Hli := Hl i th Hi).
  destruct (t_pc th) as [| |v| | | |r] eqn:Hp; simpl in Hli.
  - (* PStart *)
    destruct (c_lock c) eqn:Lk; [constructor; auto; rewrite Lk; auto|].
    constructor; simpl.
    + rewrite map_call_set_pc; auto.
    + intros j t. rewrite nth_set_pc by auto. destruct (Nat.eqb_spec i j).
      * subst. intros E; inversion E; subst; simpl. tauto.
      * intros E. rewrite (Hl j t E). split; congruence.
    + intros j E. inversion E; subst. rewrite nth_set_pc, Nat.eqb_refl by auto. eauto.
    + intros j t v. rewrite nth_set_pc by auto. destruct (Nat.eqb_spec i j); eauto.
      intros E; inversion E; subst; discriminate.
    + apply keep_log; auto. rewrite Hp. reflexivity.
  - (* PLocked *)
    constructor; simpl.
    + rewrite map_call_set_pc; auto.
    + intros j t. rewrite nth_set_pc by auto. destruct (Nat.eqb_spec i j); auto.
      subst. intros E; inversion E; subst; simpl. exact Hli.
    + intros j E. rewrite nth_set_pc by auto. destruct (Nat.eqb_spec i j); eauto.
    + intros j t v. rewrite nth_set_pc by auto. destruct (Nat.eqb_spec i j); eauto.
      intros E; inversion E; subst; simpl. congruence.
    + apply keep_log; auto. rewrite Hp. reflexivity.
  - (* PRead *)
    assert (v = c_value c) by eauto. subst v.
    assert (Lk : c_lock c = Some i) by (apply Hli; reflexivity).
    assert (Hothers : forall j t v, i <> j -> nth_error (c_threads c) j = Some t ->
                        t_pc t <> PRead v).
    { intros j t v Hij E P. assert (c_lock c = Some j) by (apply (Hl j t E); rewrite P; reflexivity).
      congruence. }
    assert (AUX : forall p value' ok, holds_lock p = true -> decided p = Some ok ->
              (forall v, p <> PRead v) ->
              serve (c_value c) (request_of (t_call th)) ok value' ->
              inv v0 calls (mkConfig value' (c_lock c) (set_pc i th p (c_threads c)))).
    { intros p value' ok Hh Hd Hnr Hs. constructor; simpl.
      + rewrite map_call_set_pc; auto.
      + intros j t. rewrite nth_set_pc by auto. destruct (Nat.eqb_spec i j); auto.
        subst. intros E; inversion E; subst; simpl. rewrite Hh. tauto.
      + intros j E. rewrite nth_set_pc by auto. destruct (Nat.eqb_spec i j); eauto.
      + intros j t v. rewrite nth_set_pc by auto. destruct (Nat.eqb_spec i j).
        * intros E; inversion E; subst; simpl. intros E'. exfalso. eapply Hnr; eauto.
        * intros E P. exfalso. eapply Hothers; eauto.
      + eapply extend_log; eauto. rewrite Hp; reflexivity. }
    destruct (t_call th) as [a|w] eqn:Hcall.
    + apply (AUX PWritten (c_value c + a) true); auto; try discriminate. constructor.
    + destruct (Z.leb_spec w (c_value c)).
      * apply (AUX PFailing (c_value c) false); auto; try discriminate. constructor; auto.
      * apply (AUX PWritten w true); auto; try discriminate. constructor; auto.
  - (* PWritten *)
    assert (Lk : c_lock c = Some i) by (apply Hli; reflexivity).
    assert (AUX : forall p, holds_lock p = false -> decided p = Some true ->
              inv v0 calls (mkConfig (c_value c) None (set_pc i th p (c_threads c)))).
    { intros p Hh Hd. constructor; simpl.
      + rewrite map_call_set_pc; auto.
      + intros j t. rewrite nth_set_pc by auto. destruct (Nat.eqb_spec i j).
        * subst. intros E; inversion E; subst; simpl. rewrite Hh. split; discriminate.
        * intros E. rewrite (Hl j t E), Lk. split; congruence.
      + discriminate.
      + intros j t v. rewrite nth_set_pc by auto. destruct (Nat.eqb_spec i j); eauto.
        intros E; inversion E; subst; simpl. intros ->. discriminate.
      + apply keep_log; auto. rewrite Hp, Hd. reflexivity. }
    destruct (t_call th); apply AUX; reflexivity.
  - (* PFailing *)
    assert (Lk : c_lock c = Some i) by (apply Hli; reflexivity).
    constructor; simpl.
    + rewrite map_call_set_pc; auto.
    + intros j t. rewrite nth_set_pc by auto. destruct (Nat.eqb_spec i j).
      * subst. intros E; inversion E; subst; simpl. split; discriminate.
      * intros E. rewrite (Hl j t E), Lk. split; congruence.
    + discriminate.
    + intros j t v. rewrite nth_set_pc by auto. destruct (Nat.eqb_spec i j); eauto.
      intros E; inversion E; subst; simpl. discriminate.
    + apply keep_log; auto. rewrite Hp. reflexivity.
  - (* PUnlocked *)
    constructor; simpl.
    + rewrite map_call_set_pc; auto.
    + intros j t. rewrite nth_set_pc by auto. destruct (Nat.eqb_spec i j); auto.
      subst. intros E; inversion E; subst; simpl. exact Hli.
    + intros j E. rewrite nth_set_pc by auto. destruct (Nat.eqb_spec i j); eauto.
    + intros j t v. rewrite nth_set_pc by auto. destruct (Nat.eqb_spec i j); eauto.
      intros E; inversion E; subst; simpl. discriminate.
    + apply keep_log; auto. rewrite Hp. reflexivity.
  - constructor; auto.
Qed.

Lemma inv_run : forall v0 calls sched c, inv v0 calls c -> inv v0 calls (run c sched).
Proof.
  unfold run. induction sched; simpl; intros; auto. apply IHsched, inv_step; auto.
Qed.


Lemma counter_linearised : forall v0 calls sched,
  let c := run (init_config v0 calls) sched in
  forallb finished (c_threads c) = true ->
  exists order,
    Permutation order (seq 0 (length calls)) /\
    serve_all v0
      (map (fun i => (request_of (nth i calls (CIncrement 0)),
                      succeeded (nth i (c_threads c) (mkThread (CIncrement 0) PStart)))) order)
      (c_value c).
Proof.
  intros v0 calls sched c Hf.
  destruct (inv_run v0 calls sched _ (inv_init v0 calls)) as [Hc Hl Ho Hr (log & N & I & S)].
  fold c in Hc, Hl, Ho, Hr, I, S.
  rewrite forallb_forall in Hf.
  exists log. split.
  - apply NoDup_Permutation; auto using seq_NoDup. intros i. rewrite I, in_seq.
    assert (length (c_threads c) = length calls) by (rewrite <- Hc, map_length; reflexivity).
    split.
    + intros (th & b & E & _). assert (nth_error (c_threads c) i <> None) by congruence.
      apply nth_error_Some in H0. lia.
    + intros [_ L]. destruct (nth_error (c_threads c) i) as [th|] eqn:E.
      * specialize (Hf th (nth_error_In _ _ E)). unfold finished in Hf.
        destruct (t_pc th) as [| | | | | |[r|e]] eqn:P; try discriminate.
        -- exists th, true. rewrite P. auto.
        -- exists th, false. rewrite P. auto.
      * apply nth_error_None in E. lia.
  - erewrite map_ext_in; [exact S|]. intros i Hi. apply I in Hi. destruct Hi as (th & b & E & D).
    unfold log_entry. rewrite E.
    rewrite (nth_error_nth _ _ _ E).
    assert (nth i calls (CIncrement 0) = t_call th) as ->.
    { apply nth_error_nth. rewrite <- Hc, nth_error_map, E. reflexivity. }
    f_equal. unfold succeeded. specialize (Hf th (nth_error_In _ _ E)). unfold finished in Hf.
    destruct (t_pc th) as [| | | | | |[r|e]] eqn:P; try discriminate; reflexivity.
Qed.

Lemma serve_all_adds : forall l v v',
  serve_all v l v' ->
  (forall x, In x l -> exists a, fst x = Add a) ->
  v' = v + sum (map (fun x => match fst x with Add a => a | MoveTo _ => 0 end) l).
Proof.
  intros l v v' H. induction H; intros HA; simpl; [lia|].
  rewrite IHserve_all by (intros; apply HA; right; auto).
  destruct (HA (r, ok)) as (a & E); [left; reflexivity|]. simpl in E. subst r.
  simpl. inversion H; subst. lia.
Qed.

Lemma sum_permutation : forall l l', Permutation l l' -> sum l = sum l'.
Proof. induction 1; simpl in *; lia. Qed.

Lemma map_nth_seq : forall A (l : list A) d, map (fun i => nth i l d) (seq 0 (length l)) = l.
Proof.
  intros. apply nth_ext with d d; [rewrite map_length, seq_length; auto|].
  intros n. rewrite map_length, seq_length. intros H.
  rewrite nth_indep with (d' := nth 0 l d) by (rewrite map_length, seq_length; auto).
  rewrite map_nth with (f := fun i => nth i l d). rewrite seq_nth by auto. reflexivity.
Qed.

Lemma increments_all_counted : forall v0 amounts sched,
  let c := run (init_config v0 (map CIncrement amounts)) sched in
  forallb finished (c_threads c) = true ->
  c_value c = v0 + sum amounts.
Proof.
  intros v0 amounts sched c Hf.
  destruct (counter_linearised v0 (map CIncrement amounts) sched Hf) as (order & P & S).
  fold c in S.
  assert (HA : forall x, In x (map (fun i => (request_of (nth i (map CIncrement amounts) (CIncrement 0)),
          succeeded (nth i (c_threads c) (mkThread (CIncrement 0) PStart)))) order) ->
          exists a, fst x = Add a).
  { intros x Hx. apply in_map_iff in Hx. destruct Hx as (i & <- & _). simpl.
    rewrite map_nth. simpl. eauto. }
  rewrite (serve_all_adds _ _ _ S HA). f_equal.
  rewrite map_map. simpl.
  rewrite (sum_permutation _ (map (fun i => nth i amounts 0) (seq 0 (length amounts)))).
  - rewrite map_nth_seq. reflexivity.
  - rewrite map_length in P.
    eapply Permutation_trans; [apply Permutation_map; exact P|].
    apply Permutation_refl'. apply map_ext. intros i. rewrite map_nth. reflexivity.
Qed.

(** ** What increments return *)


(** Bounds for thread [j] relative to a value [V] the counter had before [j] started. *)
Definition above (V : Z) (j : nat) (c : config) : Prop :=
  V <= c_value c /\
  forall th a, nth_error (c_threads c) j = Some th -> t_call th = CIncrement a ->
    (decided (t_pc th) <> None -> V + a <= c_value c) /\
    (forall r, t_pc th = PReturned (Ok (Some r)) -> V + a <= r).

Lemma nth_call_in : forall calls c i th,
  map t_call (c_threads c) = calls -> nth_error (c_threads c) i = Some th -> In (t_call th) calls.
Proof.
  intros. subst. apply in_map. eapply nth_error_In; eauto.
Qed.

Lemma step_monotone : forall v0 calls c i,
  nonneg_increments calls -> inv v0 calls c -> c_value c <= c_value (step c i).
Proof.
  intros v0 calls c i NN I. unfold step.
  destruct (nth_error (c_threads c) i) as [th|] eqn:Hi; [|lia].
  destruct (t_pc th) eqn:P; simpl; try lia.
  - destruct (c_lock c); simpl; lia.
  - destruct (NN _ (nth_call_in _ _ _ _ (inv_calls _ _ _ I) Hi)) as (a & -> & Ha). simpl.
    rewrite (inv_read _ _ _ I _ _ _ Hi P). lia.
  - destruct (t_call th); simpl; lia.
Qed.

Lemma above_step : forall v0 calls V j c i,
  nonneg_increments calls -> inv v0 calls c -> above V j c -> above V j (step c i).
Proof.
  intros v0 calls V j c i NN I [HV HA].
  pose proof (step_monotone v0 calls c i NN I) as Mono.
  split; [lia|].
  unfold step in *.
  destruct (nth_error (c_threads c) i) as [t|] eqn:Hi; [|exact HA].
  destruct (NN _ (nth_call_in _ _ _ _ (inv_calls _ _ _ I) Hi)) as (a0 & Hcall & Ha0).
  assert (KEEP : forall value lock p, c_value c <= value ->
      (i = j -> (decided p <> None -> V + a0 <= value) /\
                (forall r, p = PReturned (Ok (Some r)) -> V + a0 <= r)) ->
      forall th a, nth_error (c_threads (mkConfig value lock (set_pc i t p (c_threads c)))) j = Some th ->
        t_call th = CIncrement a ->
        (decided (t_pc th) <> None ->
         V + a <= c_value (mkConfig value lock (set_pc i t p (c_threads c)))) /\
        (forall r, t_pc th = PReturned (Ok (Some r)) -> V + a <= r)).
  { intros value lock p Hv Hp th a. simpl. rewrite nth_set_pc by auto.
    destruct (Nat.eqb_spec i j).
    - intros E; inversion E; subst; simpl. intros E2. rewrite Hcall in E2. inversion E2; subst. auto.
    - intros E1 E2. destruct (HA th a E1 E2) as [H1 H2]. split; [|auto].
      intros D. specialize (H1 D). lia. }
  assert (OWN : forall a, i = j -> t_call t = CIncrement a ->
            (decided (t_pc t) <> None -> V + a <= c_value c)).
  { intros a -> E. apply (HA t a Hi E). }
  destruct (t_pc t) as [| |v| | | |r] eqn:P.
  - destruct (c_lock c); [exact HA|]. apply KEEP; [lia|]. intros _. split; [simpl; congruence|discriminate].
  - apply KEEP; [lia|]. intros _. split; [simpl; congruence|discriminate].
  - rewrite Hcall in *. assert (v = c_value c) by (eapply inv_read; eauto). subst v.
    apply KEEP; [lia|]. intros _. split; [intros _; lia|discriminate].
  - rewrite Hcall in *. apply KEEP; [lia|]. intros E. split; [|discriminate].
    intros _. eapply OWN; eauto. simpl; discriminate.
  - apply KEEP; [simpl; lia|]. intros E. split; [|discriminate].
    intros _. eapply OWN; eauto. simpl; discriminate.
  - apply KEEP; [simpl; lia|]. intros E. split.
    + intros _. eapply OWN; eauto. simpl; discriminate.
    + intros r Er. inversion Er; subst. eapply OWN; eauto. simpl; discriminate.
  - exact HA.
Qed.

Lemma above_run : forall v0 calls V j sched c,
  nonneg_increments calls -> inv v0 calls c -> above V j c -> above V j (run c sched).
Proof.
  unfold run. induction sched; simpl; intros; auto.
  apply IHsched; auto using inv_step. eapply above_step; eauto.
Qed.

(** Every returned value was a value of the counter, hence at most its current value. *)
Definition returned_below (c : config) : Prop :=
  forall i th r, nth_error (c_threads c) i = Some th ->
    t_pc th = PReturned (Ok (Some r)) -> r <= c_value c.

Lemma below_step : forall v0 calls c i,
  nonneg_increments calls -> inv v0 calls c -> returned_below c -> returned_below (step c i).
Proof.
  intros v0 calls c i NN I HB.
  pose proof (step_monotone v0 calls c i NN I) as Mono.
  unfold step in *. destruct (nth_error (c_threads c) i) as [t|] eqn:Hi; [|exact HB].
  assert (KEEP : forall value lock p, c_value c <= value ->
      (forall r, p = PReturned (Ok (Some r)) -> r <= value) ->
      returned_below (mkConfig value lock (set_pc i t p (c_threads c)))).
  { intros value lock p Hv Hp j th r. simpl. rewrite nth_set_pc by auto.
    destruct (Nat.eqb_spec i j).
    - intros E; inversion E; subst; simpl. auto.
    - intros E1 E2. specialize (HB _ _ _ E1 E2). lia. }
  destruct (t_pc t) as [| |v| | | |r] eqn:P.
  - destruct (c_lock c); [exact HB|]. apply KEEP; [lia|discriminate].
  - apply KEEP; [lia|discriminate].
  - destruct (t_call t).
    + apply KEEP; [simpl in Mono; lia|discriminate].
    + destruct (v0 <=? v); destruct (v1 <=? v); simpl in Mono; apply KEEP; try lia; discriminate.
  - destruct (t_call t); apply KEEP; try lia; discriminate.
  - apply KEEP; [lia|discriminate].
  - apply KEEP; [lia|]. intros r Er. inversion Er; subst. lia.
  - exact HB.
Qed.

Lemma below_run : forall v0 calls sched c,
  nonneg_increments calls -> inv v0 calls c -> returned_below c -> returned_below (run c sched).
Proof.
  unfold run. induction sched; simpl; intros; auto.
  apply IHsched; auto using inv_step. eapply below_step; eauto.
Qed.

Lemma run_app : forall c s1 s2, run c (s1 ++ s2) = run (run c s1) s2.
Proof. intros. unfold run. apply fold_left_app. Qed.

Lemma returned_below_init : forall v0 calls, returned_below (init_config v0 calls).
Proof.
  intros v0 calls i th r H. simpl in H.
  apply nth_error_In, in_map_iff in H. destruct H as (x & <- & _). discriminate.
Qed.

(** A call that begins after another returned gets a value at least its own amount higher. *)
Lemma non_overlapping_increase : forall v0 calls s1 s2 i j thi thj a ri rj thi',
  nonneg_increments calls ->
  let c1 := run (init_config v0 calls) s1 in
  let c2 := run c1 s2 in
  nth_error (c_threads c1) i = Some thi -> t_pc thi = PReturned (Ok (Some ri)) ->
  nth_error (c_threads c1) j = Some thj -> t_pc thj = PStart -> t_call thj = CIncrement a ->
  nth_error (c_threads c2) j = Some thi' -> t_pc thi' = PReturned (Ok (Some rj)) ->
  ri + a <= rj.
Proof.
  intros v0 calls s1 s2 i j thi thj a ri rj thj' NN c1 c2 Ei Pi Ej Pj Cj Ej' Pj'.
  pose proof (inv_run v0 calls s1 _ (inv_init v0 calls)) as I1. fold c1 in I1.
  pose proof (below_run v0 calls s1 _ NN (inv_init v0 calls) (returned_below_init v0 calls)) as B1.
  fold c1 in B1.
  assert (A1 : above (c_value c1) j c1).
  { split; [lia|]. intros th b E C. rewrite Ej in E. inversion E; subst. rewrite Pj. simpl.
    split; [congruence|discriminate]. }
  pose proof (above_run v0 calls _ j s2 c1 NN I1 A1) as [_ A2]. fold c2 in A2.
  assert (Cj' : t_call thj' = CIncrement a).
  { pose proof (inv_run v0 calls s2 _ I1) as I2. fold c2 in I2.
    pose proof (inv_calls _ _ _ I1) as M1. pose proof (inv_calls _ _ _ I2) as M2.
    assert (nth_error calls j = Some (t_call thj)) by (rewrite <- M1, nth_error_map, Ej; reflexivity).
    assert (nth_error calls j = Some (t_call thj')) by (rewrite <- M2, nth_error_map, Ej'; reflexivity).
    congruence. }
  destruct (A2 _ _ Ej' Cj') as [_ R]. specialize (R _ Pj').
  specialize (B1 _ _ _ Ei Pi). lia.
Qed.
