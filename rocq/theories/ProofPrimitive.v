(** Proofs about point primitives. *)
From Coq Require Import Reals List Arith Bool Lra Lia.
From Verif Require Import Base ModelVector ModelTransformation.
From Verif Require Import ModelPrimitive SpecPrimitive.
Import ListNotations.
Local Open Scope result_scope.

Lemma upd_nth A i (x : A) : forall l j, nth_error (update i x l) j =
  match nth_error l j with Some y => Some (if Nat.eqb i j then x else y) | None => None end.
Proof.
  induction i; intros [|y l] [|j]; simpl; auto.
  - now destruct (nth_error l j).
Qed.

Definition wf (s : store) : Prop :=
  (forall i p k a, nth_error (prims s) i = Some p -> nth_error (p_cells p) k = Some a -> a < length (cells s)) /\
  (forall i j p q k m a, nth_error (prims s) i = Some p -> nth_error (prims s) j = Some q ->
     nth_error (p_cells p) k = Some a -> nth_error (p_cells q) m = Some a -> i = j /\ k = m).

Lemma wf_empty : wf empty.
Proof. split; intros *; simpl; destruct i; discriminate. Qed.

Lemma wf_same s s' : wf s -> prims s' = prims s -> length (cells s) <= length (cells s') -> wf s'.
Proof.
  intros [A B] E L. split; rewrite E.
  - intros. eapply Nat.lt_le_trans; [eapply A; eauto | auto].
  - auto.
Qed.

Lemma nth_seq a n k x : nth_error (seq a n) k = Some x -> x = a + k /\ k < n.
Proof.
  revert a k. induction n; intros a [|k]; simpl; try discriminate.
  - intros [= <-]. lia.
  - intros H. apply IHn in H. lia.
Qed.

(** A new primitive with fresh cells. *)
Lemma wf_add s l p : wf s -> p_cells p = seq (length (cells s)) (length l) ->
  wf (Store (cells s ++ l) (prims s ++ [p])).
Proof.
  intros [A B] E.
  assert (K : forall i q k a, nth_error (prims s ++ [p]) i = Some q -> nth_error (p_cells q) k = Some a ->
    (i < length (prims s) /\ nth_error (prims s) i = Some q /\ a < length (cells s)) \/
    (i = length (prims s) /\ a = length (cells s) + k /\ k < length l)).
  { intros i q k a Hi Hk. destruct (Nat.lt_ge_cases i (length (prims s))) as [L|G].
    - rewrite nth_error_app1 in Hi by auto. left. repeat split; auto. eapply A; eauto.
    - right. rewrite nth_error_app2 in Hi by auto.
      destruct (i - length (prims s)) as [|m] eqn:Hm; simpl in Hi.
      + injection Hi as <-. rewrite E in Hk. apply nth_seq in Hk. split; [lia | tauto].
      + destruct m; discriminate. }
  split; simpl.
  - intros i q k a Hi Hk. rewrite app_length. destruct (K i q k a Hi Hk) as [(?&?&?)|(?&?&?)]; lia.
  - intros i j q r k m a Hi Hj Hk Hm.
    destruct (K i q k a Hi Hk) as [(Li&Ei&Ai)|(Ei&Ai&Ki)];
      destruct (K j r m a Hj Hm) as [(Lj&Ej&Aj)|(Ej&Aj&Kj)]; try lia.
    eapply B; eauto.
Qed.

(** A primitive whose cells are replaced by fresh ones or kept at their place. *)
Lemma wf_set s i p l new : wf s -> nth_error (prims s) i = Some p ->
  (forall k a, nth_error new k = Some a -> nth_error (p_cells p) k = Some a \/
    (length (cells s) <= a < length (cells s) + length l)) ->
  (forall k m a, nth_error new k = Some a -> nth_error new m = Some a -> k = m) ->
  forall e, wf (Store (cells s ++ l) (update i (Prim (p_class p) new e) (prims s))).
Proof.
  intros [A B] Hi N D e.
  assert (K : forall j q k a, nth_error (update i (Prim (p_class p) new e) (prims s)) j = Some q ->
    nth_error (p_cells q) k = Some a ->
    (j = i /\ nth_error new k = Some a) \/ (j <> i /\ nth_error (prims s) j = Some q /\ a < length (cells s))).
  { intros j q k a Hj Hk. rewrite upd_nth in Hj. destruct (nth_error (prims s) j) as [y|] eqn:Ej; [|discriminate].
    destruct (Nat.eqb_spec i j); injection Hj as <-.
    - left. split; auto.
    - right. repeat split; auto. eapply A; eauto. }
  split; cbn [cells prims].
  - intros j q k a Hj Hk. rewrite app_length.
    destruct (K j q k a Hj Hk) as [(->&H)|(H&H1&H2)]; [|lia].
    destruct (N k a H) as [H1|H1]; [|lia]. pose proof (A _ _ _ _ Hi H1). lia.
  - intros j j' q r k m a Hj Hj' Hk Hm.
    destruct (K j q k a Hj Hk) as [(->&H)|(H&H1&H2)]; destruct (K j' r m a Hj' Hm) as [(->&H')|(H'&H1'&H2')].
    + split; auto. eapply D; eauto.
    + exfalso. destruct (N k a H) as [H3|H3]; [|lia].
      destruct (B i j' p r k m a Hi H1' H3 Hm). congruence.
    + exfalso. destruct (N m a H') as [H3|H3]; [|lia].
      destruct (B j i q p k m a H1 Hi Hk H3). congruence.
    + eapply B; eauto.
Qed.

Lemma update_le A i (x : A) l : length (update i x l) = length l.
Proof. apply update_length. Qed.

Lemma construct_ok c args s s' i : construct c args s = Ok (s', i) ->
  i = length (prims s) /\
  s' = Store (cells s ++ reads s args)
             (prims s ++ [Prim c (seq (length (cells s)) (length args)) None]).
Proof.
  unfold construct, alloc, bind. destruct (accepts c (reads s args)); [|discriminate].
  intros [= <- <-]. split; auto. unfold reads at 2. now rewrite map_length.
Qed.

Lemma construct_wf c args s s' i : wf s -> construct c args s = Ok (s', i) -> wf s'.
Proof.
  intros W H. apply construct_ok in H as [_ ->]. apply wf_add; auto. simpl. unfold reads. now rewrite map_length.
Qed.

Lemma clone_construct i s s' j : clone i s = Ok (s', j) -> exists p,
  nth_error (prims s) i = Some p /\ construct (p_class p) (p_cells p) s = Ok (s', j).
Proof.
  unfold clone, get, bind. destruct (nth_error (prims s) i) as [p|] eqn:E; [|discriminate].
  intros H. exists p. split; auto. destruct (p_class p); auto.
  destruct (_ || _); discriminate.
Qed.

Lemma apply_ok i t s s' : apply_transformation i t s = Ok s' -> exists p,
  nth_error (prims s) i = Some p /\
  s' = Store (cells s ++ map (on_point t) (reads s (p_cells p)))
    (update i (Prim (p_class p) (seq (length (cells s)) (length (p_cells p))) (p_edges p)) (prims s)).
Proof.
  unfold apply_transformation, get, bind, alloc. destruct (nth_error (prims s) i) as [p|] eqn:E; [|discriminate].
  intros [= <-]. exists p. split; auto. unfold reads at 2. now rewrite !map_length.
Qed.

Lemma apply_wf i t s s' : wf s -> apply_transformation i t s = Ok s' -> wf s'.
Proof.
  intros W H. apply apply_ok in H as (p&E&->).
  apply wf_set; auto.
  - intros k a Hk. apply nth_seq in Hk. right. unfold reads. rewrite !map_length. lia.
  - intros k m a H1 H2. apply nth_seq in H1, H2. lia.
Qed.

Lemma clone_wf i s s' j : wf s -> clone i s = Ok (s', j) -> wf s'.
Proof. intros W H. apply clone_construct in H as (p&_&H). eapply construct_wf; eauto. Qed.

Lemma transform_wf i t c s s' j : wf s -> transform i t c s = Ok (s', j) -> wf s'.
Proof.
  intros W. unfold transform, bind.
  destruct (if c then clone i s else Ok (s, i)) as [[s1 j1]|] eqn:E; [|discriminate].
  assert (W1 : wf s1).
  { destruct c; [eapply clone_wf; eauto | now injection E as <- <-]. }
  destruct (is_identity t); [intros [= <- <-]; auto|].
  destruct (apply_transformation j1 t s1) eqn:E1; [|discriminate].
  intros [= <- <-]. eapply apply_wf; eauto.
Qed.

Lemma set_point_ok i k a s s' : set_point i k a s = Ok s' -> exists p,
  nth_error (prims s) i = Some p /\ (exists n, arity (p_class p) = Some n /\ k < n) /\
  s' = Store (cells s ++ [read s a])
    (update i (Prim (p_class p) (update k (length (cells s)) (p_cells p)) (p_edges p)) (prims s)).
Proof.
  unfold set_point, get, bind, alloc. destruct (nth_error (prims s) i) as [p|] eqn:E; [|discriminate].
  destruct (arity (p_class p)) as [n|] eqn:En; [|discriminate].
  destruct (Nat.ltb_spec k n); [|discriminate].
  intros [= <-]. exists p. repeat split; eauto.
Qed.

Lemma set_point_wf i k a s s' : wf s -> set_point i k a s = Ok s' -> wf s'.
Proof.
  intros W H. apply set_point_ok in H as (p&E&_&->). destruct W as [A B].
  apply wf_set; auto; [split; auto | |].
  - intros m b. rewrite upd_nth. destruct (nth_error (p_cells p) m) as [y|] eqn:Em; [|discriminate].
    destruct (Nat.eqb_spec k m); intros [= <-]; [right; simpl; lia | left; auto].
  - intros m n b. rewrite !upd_nth.
    destruct (nth_error (p_cells p) m) as [y|] eqn:Em; [|discriminate].
    destruct (nth_error (p_cells p) n) as [z|] eqn:En; [|discriminate].
    pose proof (A _ _ _ _ E Em). pose proof (A _ _ _ _ E En).
    destruct (Nat.eqb_spec k m), (Nat.eqb_spec k n); intros HA HB; injection HA as HA; injection HB as HB; try lia.
    rewrite <- HA in HB. subst z. now destruct (B i i p p m n y E E Em En).
Qed.

Lemma length_ok i s s' r : polyline_length i s = Ok (s', r) -> exists p e,
  nth_error (prims s) i = Some p /\ s' = Store (cells s) (update i (Prim (p_class p) (p_cells p) (Some e)) (prims s)) /\
  e = match p_edges p with Some e => e | None => consecutive (reads s (p_cells p)) end /\
  r = fold_right Rplus 0%R (map (fun e => magnitude (vsub (snd e) (fst e))) e).
Proof.
  unfold polyline_length, edges, get, bind. destruct (nth_error (prims s) i) as [p|] eqn:E; [|discriminate].
  destruct (p_edges p) as [e|] eqn:Ee; intros [= <- <-]; exists p; eexists; rewrite Ee;
    (split; [reflexivity|]; split; [|split; reflexivity]); [|reflexivity].
  rewrite <- Ee. destruct s as [cs ps]. f_equal. cbn [prims] in E. symmetry. clear - E.
  destruct p as [c l e]. cbn [p_class p_cells p_edges].
  revert i E. induction ps; intros [|i]; simpl; intros H; try discriminate; f_equal; auto. congruence.
Qed.

Lemma length_wf i s s' r : wf s -> polyline_length i s = Ok (s', r) -> wf s'.
Proof.
  intros W H. apply length_ok in H as (p&e&E&->&_&_). rewrite <- (app_nil_r (cells s)). apply wf_set; auto.
  intros k m a H1 H2. now destruct W as [_ B], (B i i p p k m a E E H1 H2).
Qed.

Lemma step_wf s e : wf s -> wf (step s e).
Proof.
  intros W. destruct e; simpl; unfold or_same.
  - eapply wf_same; eauto. simpl. rewrite app_length. lia.
  - eapply wf_same; eauto. simpl. now rewrite update_length.
  - destruct (forallb _ _); auto. destruct (construct c args s) as [[s' j]|] eqn:E; auto. eapply construct_wf; eauto.
  - destruct (clone i s) as [[s' j]|] eqn:E; auto. eapply clone_wf; eauto.
  - destruct (transform i t cloned s) as [[s' j]|] eqn:E; auto. eapply transform_wf; eauto.
  - destruct (a <? length (cells s)); auto. destruct (set_point i k a s) eqn:E; auto. eapply set_point_wf; eauto.
  - destruct (polyline_length i s) as [[s' j]|] eqn:E; auto. eapply length_wf; eauto.
  - unfold reverse, get, bind. now destruct (nth_error (prims s) i).
Qed.

Lemma history_wf l : wf (history l).
Proof.
  unfold history. generalize wf_empty. generalize empty. induction l; simpl; auto.
  intros s W. apply IHl, step_wf, W.
Qed.

(** ** What stays *)

Definition keeps (s s' : store) (j : nat) : Prop :=
  forall p, nth_error (prims s) j = Some p ->
    exists p', nth_error (prims s') j = Some p' /\ p_class p' = p_class p /\ p_cells p' = p_cells p /\
      reads s' (p_cells p) = reads s (p_cells p).

Lemma keeps_refl s j : keeps s s j.
Proof. intros p E. exists p. auto. Qed.

Lemma keeps_trans a b c j : keeps a b j -> keeps b c j -> keeps a c j.
Proof.
  intros H1 H2 p E. destruct (H1 p E) as (p1&E1&C1&D1&R1). destruct (H2 p1 E1) as (p2&E2&C2&D2&R2).
  exists p2. repeat split; congruence.
Qed.

Lemma reads_app s l ps args : (forall a, In a args -> a < length (cells s)) ->
  reads (Store (cells s ++ l) ps) args = reads s args.
Proof.
  intros H. apply map_ext_in. intros a Ha. unfold read; simpl. apply app_nth1; auto.
Qed.

Lemma wf_in s i p a : wf s -> nth_error (prims s) i = Some p -> In a (p_cells p) -> a < length (cells s).
Proof. intros [A _] E H. apply In_nth_error in H as [k Hk]. eapply A; eauto. Qed.

Lemma keeps_add s l ps j : wf s -> keeps s (Store (cells s ++ l) (prims s ++ ps)) j.
Proof.
  intros W p E. exists p. repeat split; auto.
  - simpl. rewrite nth_error_app1; auto. apply nth_error_Some. congruence.
  - apply reads_app. intros a. eapply wf_in; eauto.
Qed.

Lemma keeps_update s l i q j : wf s -> i <> j -> keeps s (Store (cells s ++ l) (update i q (prims s))) j.
Proof.
  intros W N p E. exists p. repeat split; auto.
  - simpl. rewrite upd_nth, E. destruct (Nat.eqb_spec i j); congruence.
  - apply reads_app. intros a. eapply wf_in; eauto.
Qed.

Lemma construct_keeps c args s s' i j : wf s -> construct c args s = Ok (s', i) -> keeps s s' j.
Proof. intros W H. apply construct_ok in H as [_ ->]. now apply keeps_add. Qed.

Lemma clone_keeps i s s' k j : wf s -> clone i s = Ok (s', k) -> keeps s s' j.
Proof. intros W H. apply clone_construct in H as (p&_&H). eapply construct_keeps; eauto. Qed.

Lemma nth_upd A i (x d : A) : forall l j, i <> j -> nth j (update i x l) d = nth j l d.
Proof. induction i; intros [|y l] [|j] N; simpl; auto; try congruence; try lia. Qed.

Lemma step_keeps s e j : wf s -> ~ touches s e j -> keeps s (step s e) j.
Proof.
  intros W N. destruct e; simpl in *; unfold or_same.
  - rewrite <- (app_nil_r (prims s)). now apply keeps_add.
  - intros p E. exists p. repeat split; auto. apply map_ext_in. intros b Hb. unfold read; simpl.
    apply nth_upd. intros <-. apply N. exists p. auto.
  - destruct (forallb _ _); [|apply keeps_refl].
    destruct (construct c args s) as [[s' i]|] eqn:E; [|apply keeps_refl]. eapply construct_keeps; eauto.
  - destruct (clone i s) as [[s' k]|] eqn:E; [|apply keeps_refl]. eapply clone_keeps; eauto.
  - destruct (transform i t cloned s) as [[s' k]|] eqn:E; [|apply keeps_refl].
    unfold transform, bind in E. cbn [fst].
    destruct cloned.
    + destruct (clone i s) as [[s1 j1]|] eqn:E1; [|discriminate].
      assert (K : keeps s s1 j) by (eapply clone_keeps; eauto).
      destruct (is_identity t); [now injection E as <- <-|].
      destruct (apply_transformation j1 t s1) as [s2|] eqn:E2; [|discriminate]. injection E as <- <-.
      destruct (Nat.eq_dec j1 j) as [->|Nj].
      * (* the clone is new *)
        intros p Ep. exfalso. apply clone_construct in E1 as (q&_&E1). apply construct_ok in E1 as [-> _].
        assert (length (prims s) < length (prims s)) by (apply nth_error_Some; congruence). lia.
      * apply keeps_trans with s1; auto.
        apply apply_ok in E2 as (q&_&->). apply keeps_update; auto. eapply clone_wf; eauto.
    + destruct (is_identity t); [injection E as <- <-; apply keeps_refl|].
      destruct (apply_transformation i t s) as [s2|] eqn:E2; [|discriminate]. injection E as <- <-.
      apply apply_ok in E2 as (q&_&->). apply keeps_update; auto.
  - destruct (a <? length (cells s)); [|apply keeps_refl].
    destruct (set_point i k a s) eqn:E; [|apply keeps_refl].
    apply set_point_ok in E as (q&_&_&->). now apply keeps_update.
  - destruct (polyline_length i s) as [[s' k]|] eqn:E; [|apply keeps_refl].
    apply length_ok in E as (q&e&E&->&_&_). intros p Ep. cbn [fst prims]. rewrite upd_nth, Ep.
    destruct (Nat.eqb_spec i j) as [->|]; eexists; repeat split; eauto; cbn [p_class p_cells]; congruence.
  - unfold reverse, get, bind. destruct (nth_error (prims s) i); apply keeps_refl.
Qed.

Lemma points_of s i c l : has_points s i c l <-> exists p, nth_error (prims s) i = Some p /\ p_class p = c /\ l = reads s (p_cells p).
Proof. reflexivity. Qed.

Lemma untouched l : forall s j c pts, wf s -> has_points s j c pts -> never_touches s l j ->
  has_points (fold_left step l s) j c pts /\ forall a, owns s j a -> owns (fold_left step l s) j a.
Proof.
  induction l; simpl; intros s j c pts W H N; auto.
  destruct N as [N1 N2]. destruct H as (p&E&C&Ep).
  destruct (step_keeps s a j W N1 p E) as (p'&E'&C'&D'&R').
  destruct (IHl (step s a) j c pts) as [H1 H2]; auto.
  - now apply step_wf.
  - exists p'. repeat split; [auto | congruence |]. change (pts = reads (step s a) (p_cells p')).
    rewrite D', R'. exact Ep.
  - split; auto. intros b (q&Eq&Hb). apply H2. exists p'. split; auto. rewrite D'. congruence.
Qed.

Theorem history_separate : forall l i j p q k m a, nth_error (prims (history l)) i = Some p ->
  nth_error (prims (history l)) j = Some q -> nth_error (p_cells p) k = Some a -> nth_error (p_cells q) m = Some a ->
  i = j /\ k = m.
Proof. intros l. apply history_wf. Qed.

Theorem history_untouched : forall l m j c pts, has_points (history l) j c pts -> never_touches (history l) m j ->
  has_points (history (l ++ m)) j c pts.
Proof.
  intros l m j c pts H N. unfold history. rewrite fold_left_app. apply untouched; auto. apply history_wf.
Qed.

(** ** New primitives *)

Lemma reads_seq s l ps : reads (Store (cells s ++ l) ps) (seq (length (cells s)) (length l)) = l.
Proof.
  unfold reads, read. cbn [cells]. generalize (cells s). intros c. revert c. induction l; intros c; auto.
  simpl. rewrite app_nth2, Nat.sub_diag by auto. f_equal.
  specialize (IHl (c ++ [a])). rewrite app_length, Nat.add_1_r, <- app_assoc in IHl. exact IHl.
Qed.

Theorem constructed : forall l c args s i, let s0 := history l in
  (forall a, In a args -> a < length (cells s0)) -> construct c args s0 = Ok (s, i) ->
  i = length (prims s0) /\ has_points s i c (map (read s0) args) /\
  (forall a, In a args -> ~ owns s i a) /\ (forall j a, owns s0 j a -> ~ owns s i a).
Proof.
  intros l c args s i s0 A H. pose proof (history_wf l) as W. fold s0 in W.
  apply construct_ok in H as [-> ->].
  assert (N : forall p, nth_error (prims s0 ++ [p]) (length (prims s0)) = Some p).
  { intros p. rewrite nth_error_app2, Nat.sub_diag by auto. reflexivity. }
  assert (O : forall a, owns (Store (cells s0 ++ reads s0 args)
      (prims s0 ++ [Prim c (seq (length (cells s0)) (length args)) None])) (length (prims s0)) a ->
    length (cells s0) <= a).
  { intros a (p&E&Ha). cbn [prims] in E. rewrite N in E. injection E as <-. simpl in Ha. apply in_seq in Ha. lia. }
  repeat split; auto.
  - eexists. cbn [prims]. split; [apply N|]. split; auto.
    change (reads s0 args = reads (Store (cells s0 ++ reads s0 args)
      (prims s0 ++ [Prim c (seq (length (cells s0)) (length args)) None])) (seq (length (cells s0)) (length args))).
    replace (length args) with (length (reads s0 args)) at 2 by (unfold reads; apply map_length).
    now rewrite reads_seq.
  - intros a Ha Ho. specialize (A a Ha). specialize (O a Ho). lia.
  - intros j a (p&E&Ha) Ho. pose proof (wf_in _ _ _ _ W E Ha). specialize (O a Ho). lia.
Qed.

(** ** Clones *)

Definition good (c : pclass) (n : nat) : Prop :=
  match c with
  | CPolyline => 2 <= n
  | CPolygon => 3 <= n
  | CBSpline d => d + 1 <= n
  | _ => arity c = Some n
  end.

Definition arities (s : store) : Prop :=
  forall i p, nth_error (prims s) i = Some p -> 
    good (p_class p) (length (p_cells p)).

Lemma accepts_arity c l : accepts c l = Ok tt ->
    good c (length l).
Proof.
  destruct c; cbn [accepts arity good];
    try (destruct (Nat.eqb_spec (length l) 2); [congruence|discriminate]);
    try (destruct (Nat.eqb_spec (length l) 3); [congruence|discriminate]);
    try (destruct (Nat.eqb_spec (length l) 4); [congruence|discriminate]).
  - destruct l as [|a [|b [|d [|]]]]; try discriminate. auto.
  - destruct (Nat.ltb_spec (length l) (degree + 1)); [discriminate | auto].
  - destruct (Nat.ltb_spec (length l) 2); [discriminate | auto].
  - destruct (Nat.ltb_spec (length l) 3); [discriminate | auto].
Qed.

Lemma arities_add s l p : arities s -> 
    good (p_class p) (length (p_cells p)) -> arities (Store l (prims s ++ [p])).
Proof.
  intros A H i q E. cbn [prims] in E. destruct (Nat.lt_ge_cases i (length (prims s))).
  - rewrite nth_error_app1 in E by auto. eapply A; eauto.
  - rewrite nth_error_app2 in E by auto. destruct (i - length (prims s)) as [|[|]]; simpl in E; try discriminate.
    injection E as <-. exact H.
Qed.

Lemma construct_arities c args s s' i : arities s -> construct c args s = Ok (s', i) -> arities s'.
Proof.
  intros A H. assert (K : accepts c (reads s args) = Ok tt).
  { unfold construct, bind in H. destruct (accepts c (reads s args)) as [[]|]; [auto|discriminate]. }
  apply construct_ok in H as [_ ->]. apply arities_add; auto. cbn [p_class p_cells].
  apply accepts_arity in K. unfold reads in K. rewrite map_length in K. rewrite seq_length. exact K.
Qed.

Lemma arities_update s l i p q : arities s -> nth_error (prims s) i = Some p -> p_class q = p_class p ->
  length (p_cells q) = length (p_cells p) -> arities (Store l (update i q (prims s))).
Proof.
  intros A E C L j r. cbn [prims]. rewrite upd_nth. destruct (nth_error (prims s) j) as [y|] eqn:Ej; [|discriminate].
  destruct (Nat.eqb_spec i j) as [->|]; intros [= <-].
  - rewrite C, L. apply (A j). congruence.
  - apply (A j). auto.
Qed.

Lemma apply_arities i t s s' : arities s -> apply_transformation i t s = Ok s' -> arities s'.
Proof.
  intros A H. apply apply_ok in H as (p&E&->). eapply arities_update; eauto. apply seq_length.
Qed.

Lemma step_arities s e : arities s -> arities (step s e).
Proof.
  intros A. destruct e; simpl; unfold or_same; auto.
  - destruct (forallb _ _); auto. destruct (construct c args s) as [[s' j]|] eqn:E; auto. eapply construct_arities; eauto.
  - destruct (clone i s) as [[s' j]|] eqn:E; auto. apply clone_construct in E as (p&_&E). eapply construct_arities; eauto.
  - destruct (transform i t cloned s) as [[s' j]|] eqn:E; auto. unfold transform, bind in E.
    destruct (if cloned then clone i s else Ok (s, i)) as [[s1 j1]|] eqn:E1; [|discriminate].
    assert (W1 : arities s1).
    { destruct cloned; [|now injection E1 as <- <-]. apply clone_construct in E1 as (p&_&E1). eapply construct_arities; eauto. }
    destruct (is_identity t); [injection E as <- <-; auto|].
    destruct (apply_transformation j1 t s1) eqn:E2; [|discriminate].
    injection E as <- <-. eapply apply_arities; eauto.
  - destruct (a <? length (cells s)); auto. destruct (set_point i k a s) eqn:E; auto.
    apply set_point_ok in E as (p&E&_&->). eapply arities_update; eauto. cbn [p_cells]. now rewrite update_length.
  - destruct (polyline_length i s) as [[s' j]|] eqn:E; auto.
    apply length_ok in E as (p&e&E&->&_). eapply arities_update; eauto.
  - unfold reverse, get, bind. now destruct (nth_error (prims s) i).
Qed.

Lemma history_arities l : arities (history l).
Proof.
  unfold history. assert (K : arities empty) by (intros i p; simpl; destruct i; discriminate).
  revert K. generalize empty. induction l; simpl; auto.
  intros s W. apply IHl, step_arities, W.
Qed.

Lemma accepts_again c pts : good c (length pts) -> (c = CTriangle -> ~ flat pts) -> accepts c pts = Ok tt.
Proof.
  intros H F. destruct c; cbn [accepts arity good] in *;
    try (injection H as <-; now rewrite Nat.eqb_refl);
    try (match goal with |- context [if ?a <? ?b then _ else _] => destruct (Nat.ltb_spec a b) end; [lia|auto]).
  injection H as H. destruct pts as [|a [|b [|d [|]]]]; try discriminate.
  specialize (F eq_refl). unfold is_parallel, round7_is_zero, Rleb. destruct (Rle_dec _ _) as [G|]; auto.
  exfalso. apply F. exact G.
Qed.

Theorem equality : forall s i j c d a b, has_points s i c a -> has_points s j d b ->
  exists r, equal i j s = Ok r /\ (r = true <-> a = b).
Proof.
  intros s i j c d a b (p&E&_&->) (q&E'&_&->). unfold equal, get, bind. rewrite E, E'.
  eexists. split; [reflexivity|]. unfold reads, read.
  generalize (map (fun a => nth a (cells s) (V 0 0)) (p_cells p)), (map (fun a => nth a (cells s) (V 0 0)) (p_cells q)).
  induction l as [|x l IH]; intros [|y m]; simpl; split; intros H; try discriminate; auto.
  - apply andb_prop in H as [H1 H2]. apply IH in H2 as ->. f_equal.
    unfold veqb, Reqb in H1. destruct x as [x1 x2], y as [y1 y2]; simpl in *.
    destruct (Req_EM_T x1 y1) as [->|]; [|discriminate]. destruct (Req_EM_T x2 y2) as [->|]; [auto|discriminate].
  - injection H as <- <-. rewrite (proj2 (IH l) eq_refl), andb_true_r. unfold veqb, Reqb.
    destruct (Req_EM_T (vx x) (vx x)), (Req_EM_T (vy x) (vy x)); simpl; congruence.
Qed.

Theorem clone_exact : forall l i c pts, let s0 := history l in
  has_points s0 i c pts -> (forall d, c <> CBSpline d) -> (c = CTriangle -> ~ flat pts) ->
  exists s j, clone i s0 = Ok (s, j) /\ j <> i /\ has_points s j c pts /\ has_points s i c pts /\
    equal i j s = Ok true /\ (forall a, ~ (owns s i a /\ owns s j a)).
Proof.
  intros l i c pts s0 (p&E&C&Hp) NB NF.
  pose proof (history_wf l) as W. fold s0 in W.
  assert (K : accepts (p_class p) (reads s0 (p_cells p)) = Ok tt).
  { pose proof (history_arities l i p E) as A. apply accepts_again.
    - unfold reads. rewrite map_length. exact A.
    - rewrite C. intros T. change (reads s0 (p_cells p)) with (map (fun a => nth a (cells s0) (V 0 0)) (p_cells p)).
      rewrite <- Hp. auto. }
  assert (Q : construct (p_class p) (p_cells p) s0 = Ok (Store (cells s0 ++ reads s0 (p_cells p))
             (prims s0 ++ [Prim (p_class p) (seq (length (cells s0)) (length (p_cells p))) None]), length (prims s0))).
  { unfold construct, alloc, bind. rewrite K.
    replace (length (reads s0 (p_cells p))) with (length (p_cells p)) by (unfold reads; now rewrite map_length).
    reflexivity. }
  assert (L : i < length (prims s0)) by (apply nth_error_Some; congruence).
  destruct (constructed l (p_class p) (p_cells p) _ _ (fun a Ha => wf_in _ _ _ _ W E Ha) Q) as (J&HP&_&HO).
  assert (CL : clone i s0 = construct (p_class p) (p_cells p) s0).
  { unfold clone, get, bind. fold s0. rewrite E. clear - NB C. destruct (p_class p); auto.
    exfalso. apply (NB degree). congruence. }
  eexists _, _. split; [rewrite CL; exact Q|].
  assert (Hi : has_points (Store (cells s0 ++ reads s0 (p_cells p))
             (prims s0 ++ [Prim (p_class p) (seq (length (cells s0)) (length (p_cells p))) None])) i c pts).
  { exists p. cbn [prims]. rewrite nth_error_app1 by auto. repeat split; auto. rewrite Hp.
    symmetry. apply (reads_app s0 _ _ (p_cells p)). intros a. eapply wf_in; eauto. }
  assert (Hj : has_points (Store (cells s0 ++ reads s0 (p_cells p))
             (prims s0 ++ [Prim (p_class p) (seq (length (cells s0)) (length (p_cells p))) None])) (length (prims s0)) c pts).
  { replace c with (p_class p). rewrite Hp. exact HP. }
  split; [lia|]. split; [exact Hj|]. split; [exact Hi|]. split.
  - destruct (equality _ _ _ _ _ _ _ Hi Hj) as (r&->&Hr). f_equal. now apply Hr.
  - intros a [Hoi Hoj]. refine (HO i a _ Hoj). destruct Hoi as (q&Eq&Ha). cbn [prims] in Eq.
    rewrite nth_error_app1 in Eq by auto. exists q. auto.
Qed.

Theorem clone_spline : forall l i d pts, has_points (history l) i (CBSpline d) pts -> ~ is_ok (clone i (history l)).
Proof.
  intros l i d pts (p&E&C&_) [x H]. unfold clone, get, bind in H. rewrite E, C in H.
  destruct (_ || _); discriminate.
Qed.
