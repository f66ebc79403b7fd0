(** Proofs about the Graham scan of lists with repeated points, Patro/GeometryEngine/Polygon.py 663-775. *)
From Coq Require Import Reals List Lra Lia Psatz Bool Permutation Sorted.
From Verif Require Import Base ModelVector SpecVector SpecLine ModelPolygon SpecPolygon.
From Verif Require Import ProofVector ProofSegment ProofPolygon ProofPolygon2 ProofHull.
Import ListNotations.
Local Open Scope R_scope.
Local Open Scope result_scope.

Definition over (p q : vec) : Prop := q = p \/ upper p q.

Lemma upper_irr p : ~ upper p p.
Proof. unfold upper. lra. Qed.

(** The direction of the null vector is 90 degrees. *)
Lemma angle_self p : orientation (vsub p p) = Ok 90.
Proof.
  unfold orientation, vbool. cbn [Nat.eqb negb]. unfold vsub. cbn [vx vy].
  destruct (Reqb_spec (vx p - vx p) 0) as [_|X]; [|lra]. destruct (Rltb_spec (vy p - vy p) 0); [lra|reflexivity].
Qed.
Lemma over_ok p q : over p q -> orientation (vsub q p) = Ok (angle_of p q).
Proof. intros [->|U]; [unfold angle_of; rewrite angle_self; reflexivity|exact (angle_of_ok p q U)]. Qed.

Lemma angle_up p q : upper p q -> (angle_of p q = 90 <-> vx q = vx p).
Proof.
  intro U. destruct (upper_angle p q U) as (t & E & B & D & X & Y). pose proof (angle_of_ok p q U) as A.
  rewrite E in A. injection A as A. rewrite <- A. split; intro H.
  - subst t. assert (C : cos (rad 90) = 0).
    { unfold rad. replace (90 / 180 * PI) with (PI / 2) by field. apply cos_PI2. }
    rewrite H, C in X. lra.
  - unfold orientation, vbool in E. cbn [Nat.eqb negb] in E. unfold vsub in E. cbn [vx vy] in E.
    destruct (Reqb_spec (vx q - vx p) 0) as [_|Z]; [|lra]. unfold upper in U.
    destruct (Rltb_spec (vy q - vy p) 0); [lra|]. injection E as E. lra.
Qed.

Lemma same_eq p a b : over p a -> over p b -> (angle_of p a = angle_of p b <-> same_way p a b).
Proof.
  assert (S0 : angle_of p p = 90) by (unfold angle_of; rewrite angle_self; reflexivity).
  intros [->|Ua] [->|Ub]; unfold same_way.
  - split; [left; auto|reflexivity].
  - rewrite S0. split.
    + intro H. left. split; [reflexivity|]. apply (angle_up p b Ub). auto.
    + intros [[_ H]|[[-> _]|(H & _)]]; [symmetry; apply (angle_up p b Ub), H|destruct (upper_irr p Ub)|congruence].
  - rewrite S0. split.
    + intro H. right. left. split; [reflexivity|]. apply (angle_up p a Ua). auto.
    + intros [[-> _]|[[_ H]|(_ & H & _)]]; [destruct (upper_irr p Ua)|apply (angle_up p a Ua), H|congruence].
  - pose proof (angle_cr p a b _ _ Ua Ub (angle_of_ok p a Ua) (angle_of_ok p b Ub)) as [L1 E1].
    pose proof (angle_cr p b a _ _ Ub Ua (angle_of_ok p b Ub) (angle_of_ok p a Ua)) as [L2 _].
    split.
    + intro H. right. right. split; [intros ->; destruct (upper_irr p Ua)|].
      split; [intros ->; destruct (upper_irr p Ub)|]. specialize (E1 H). unfold cr in E1. unfold tri. lra.
    + intros [[-> _]|[[-> _]|(_ & _ & H)]]; [destruct (upper_irr p Ua)|destruct (upper_irr p Ub)|].
      unfold tri in H. unfold cr in L1, L2. destruct (Rtotal_order (angle_of p a) (angle_of p b)) as [L|[L|L]]; [|exact L|].
      * specialize (L1 L). lra.
      * specialize (L2 L). lra.
Qed.

Lemma lowest_over l : l <> [] -> exists p others, stable_sort y_le l = p :: others /\
  Permutation (p :: others) l /\ (forall q, In q others -> over p q).
Proof.
  intro E. pose proof (sort_perm y_le l) as P.
  pose proof (sort_sorted y_le l y_le_total y_le_trans) as S0.
  destruct (stable_sort y_le l) as [|p others] eqn:H.
  - apply Permutation_nil in P. congruence.
  - exists p, others. split; [reflexivity|]. split; [exact P|]. intros q Hq.
    inversion S0 as [|? ? S1 S2]; subst. pose proof (proj1 (Forall_forall _ _) S2 q Hq) as L. apply y_le_spec in L.
    unfold over, upper. destruct L as [L|[L1 L2]]; [right; left; exact L|].
    destruct (Req_dec (vx p) (vx q)) as [X|X]; [left; apply vec_eq; congruence|right; right; split; lra].
Qed.
Lemma data_over p others : (forall q, In q others -> over p q) ->
  graham_data p others = Ok (map (fun q => (q, angle_of p q)) others).
Proof.
  unfold graham_data. induction others as [|q t IH]; intro H; [reflexivity|]. cbn [traverse map].
  rewrite (over_ok p q) by (apply H; left; reflexivity). cbn [bind]. rewrite IH; [reflexivity|].
  intros x Hx. apply H. right. exact Hx.
Qed.

Lemma two_out {A} (a b : A) r s t : Permutation (a :: b :: r ++ s ++ t) (r ++ a :: s ++ b :: t).
Proof.
  eapply Permutation_trans; [|apply Permutation_middle]. apply perm_skip.
  replace (r ++ s ++ b :: t) with ((r ++ s) ++ b :: t) by (rewrite <- app_assoc; reflexivity).
  eapply Permutation_trans; [|apply Permutation_middle]. rewrite <- app_assoc. apply Permutation_refl.
Qed.

(** The sort, in general: it fails when two points are seen in the same direction from the lowest one. *)
Lemma graham_sort_any l : l <> [] -> exists p, (forall q, In q l -> over p q) /\
  ((sort_point_for_graham_scan l = Raise TypeError /\
      exists a b r, Permutation (p :: a :: b :: r) l /\ angle_of p a = angle_of p b) \/
   (exists m, sort_point_for_graham_scan l = Ok (p :: m) /\ Permutation (p :: m) l /\
      ForallOrdPairs (fun x y => angle_of p x < angle_of p y) m)).
Proof.
  intros E. destruct (lowest_over l E) as (p & others & H & P & U). exists p.
  split; [intros q Hq; apply (Permutation_in _ (Permutation_sym P)) in Hq; destruct Hq as [<-|Hq]; [left; reflexivity|auto]|].
  unfold sort_point_for_graham_scan. rewrite H, (data_over p others U). cbn [bind].
  set (le := fun a b : vec * R => Rleb (snd a) (snd b)).
  set (d := stable_sort le (map (fun q => (q, angle_of p q)) others)).
  assert (Pd : Permutation d (map (fun q => (q, angle_of p q)) others)) by apply sort_perm.
  assert (Sd : StronglySorted (fun a b => le a b = true) d).
  { apply sort_sorted.
    - intros a b. unfold le. destruct (Rleb_spec (snd a) (snd b)), (Rleb_spec (snd b) (snd a)); auto; lra.
    - intros a b c. unfold le. destruct (Rleb_spec (snd a) (snd b)), (Rleb_spec (snd b) (snd c)), (Rleb_spec (snd a) (snd c)); auto; lra. }
  assert (Dd : forall x, In x d -> snd x = angle_of p (fst x)).
  { intros x Hx. apply (Permutation_in _ Pd) in Hx. apply in_map_iff in Hx. destruct Hx as (q & <- & Hq). auto. }
  assert (Pm : Permutation (map fst d) others).
  { eapply Permutation_trans; [apply Permutation_map, Pd|]. rewrite map_map. cbn. rewrite map_id. apply Permutation_refl. }
  clearbody d. destruct (same_angle d) eqn:S0.
  - left. split; [reflexivity|]. apply same_angle_true in S0. destruct S0 as (a & b & r & s & t & Ed & Eab).
    assert (Ha : In a d) by (rewrite Ed, in_app_iff; right; left; reflexivity).
    assert (Hb : In b d) by (rewrite Ed, in_app_iff; right; right; rewrite in_app_iff; right; left; reflexivity).
    exists (fst a), (fst b), (map fst (r ++ s ++ t)). split; [|rewrite <- (Dd a Ha), <- (Dd b Hb); exact Eab].
    eapply Permutation_trans; [|exact P]. apply perm_skip. eapply Permutation_trans; [|exact Pm].
    change (fst a :: fst b :: map fst (r ++ s ++ t)) with (map fst (a :: b :: r ++ s ++ t)). rewrite Ed. apply Permutation_map, two_out.
  - right. exists (map fst d). split; [reflexivity|]. split; [eapply Permutation_trans; [apply perm_skip, Pm|exact P]|].
    pose proof (same_angle_false d Sd S0) as SS. clear - SS Dd. induction SS as [|a d SS IH F]; [constructor|].
    cbn [map]. constructor.
    + apply Forall_forall. intros x Hx. apply in_map_iff in Hx. destruct Hx as (b & <- & Hb).
      rewrite <- (Dd a (or_introl eq_refl)), <- (Dd b (or_intror Hb)). exact (proj1 (Forall_forall _ _) F b Hb).
    + apply IH. intros x Hx. apply Dd. right. exact Hx.
Qed.

Lemma over_unique p p' l : In p l -> In p' l -> (forall q, In q l -> over p q) -> (forall q, In q l -> over p' q) -> p = p'.
Proof.
  intros H H' L L'. destruct (L p' H') as [E|U]; [auto|]. destruct (L' p H) as [E|U']; [auto|]. unfold upper in *. lra.
Qed.
Lemma strict_nodup p m : ForallOrdPairs (fun x y => angle_of p x < angle_of p y) m -> NoDup (map (angle_of p) m).
Proof.
  induction 1 as [|x s F1 F2 IH]; cbn [map]; constructor; [|exact IH]. intro H. apply in_map_iff in H. destruct H as (y & E & Hy).
  pose proof (proj1 (Forall_forall _ _) F1 y Hy) as G. cbn beta in G. lra.
Qed.

Lemma hull_error l : l <> [] ->
  is_ok (convex_hull l) /\ (forall p a b r, lowest p l -> Permutation (p :: a :: b :: r) l -> ~ same_way p a b) \/
  convex_hull l = Raise TypeError /\ exists p a b r, lowest p l /\ Permutation (p :: a :: b :: r) l /\ same_way p a b.
Proof.
  intro E. destruct (graham_sort_any l E) as (p & L & [(H & a & b & r & P & A)|(m & H & P & F)]).
  - right. split; [unfold convex_hull; rewrite H; reflexivity|]. exists p, a, b, r. split; [exact L|]. split; [exact P|].
    apply same_eq; [apply L, (Permutation_in _ P); cbn; auto..|exact A].
  - left. split; [unfold convex_hull; rewrite H; eexists; reflexivity|]. intros p' a b r L' P' S0.
    assert (p = p') as <-.
    { apply (over_unique p p' l); [apply (Permutation_in _ P); cbn; auto|apply (Permutation_in _ P'); cbn; auto|exact L|exact L']. }
    apply same_eq in S0; [|apply L, (Permutation_in _ P'); cbn; auto..].
    assert (Q : Permutation (a :: b :: r) m).
    { apply (Permutation_cons_inv (a := p)). eapply Permutation_trans; [exact P'|apply Permutation_sym, P]. }
    apply (Permutation_map (angle_of p)) in Q. cbn [map] in Q.
    pose proof (Permutation_NoDup (Permutation_sym Q) (strict_nodup p m F)) as N. inversion N as [|? ? N1 N2]; subst.
    apply N1. rewrite S0. left. reflexivity.
Qed.

(** ** The scan with the lowest point met again *)
Lemma strict_cr p m : (forall q, In q m -> upper p q) ->
  ForallOrdPairs (fun x y => angle_of p x < angle_of p y) m -> ForallOrdPairs (fun x y => 0 < cr p x y) m.
Proof.
  intros U F. induction F as [|x s F1 F2 IH]; constructor.
  - apply Forall_forall. intros y Hy. pose proof (proj1 (Forall_forall _ _) F1 y Hy) as G. cbn beta in G.
    apply (angle_cr p x y (angle_of p x) (angle_of p y)); [apply U; left; reflexivity|apply U; right; exact Hy| | |exact G];
    apply angle_of_ok, U; [left; reflexivity|right; exact Hy].
  - apply IH. intros q Hq. apply U. right. exact Hq.
Qed.
Lemma fop_prefix {A} (P : A -> A -> Prop) r s : ForallOrdPairs P (r ++ s) -> ForallOrdPairs P r.
Proof.
  induction r as [|x r IH]; intro H; [constructor|]. inversion H as [|? ? H1 H2]; subst. constructor; [|apply IH, H2].
  apply Forall_app in H1. tauto.
Qed.
Lemma fop_cross {A} (P : A -> A -> Prop) r s x y : ForallOrdPairs P (r ++ s) -> In x r -> In y s -> P x y.
Proof.
  induction r as [|z r IH]; intros H Hx Hy; [destruct Hx|]. inversion H as [|? ? H1 H2]; subst. destruct Hx as [->|Hx]; [|apply IH; assumption].
  apply (proj1 (Forall_forall _ _) H1). apply in_app_iff. auto.
Qed.
Lemma fop_drop {A} (P : A -> A -> Prop) r x s : ForallOrdPairs P (r ++ x :: s) -> ForallOrdPairs P (r ++ s).
Proof.
  induction r as [|z r IH]; intro H; inversion H as [|? ? H1 H2]; subst; [exact H2|]. cbn [app]. constructor; [|apply IH, H2].
  rewrite Forall_app in *. destruct H1 as [H1 H3]. inversion H3; auto.
Qed.

(** Below the doubled lowest point nothing is popped. *)
Lemma pop_doubled p q : forall s, graham_pop (s ++ [p; p]) q = graham_pop (s ++ [p]) q ++ [p].
Proof.
  assert (Z : forall x, ccw p p x = 0) by (intro x; unfold ccw; ring).
  induction s as [|t s IH]; cbn [app graham_pop].
  - rewrite Z. destruct (Rltb_spec 0 0); [lra|reflexivity].
  - destruct s as [|u s]; cbn [app] in *.
    + destruct (Rltb (ccw p t q) 0); [|reflexivity]. rewrite IH. reflexivity.
    + destruct (Rltb (ccw u t q) 0); [exact IH|]. cbn [app]. rewrite <- app_assoc. reflexivity.
Qed.
Lemma pop_base p q s : exists s', graham_pop (s ++ [p]) q = s' ++ [p].
Proof.
  induction s as [|t s IH]; [exists []; reflexivity|]. destruct s as [|u s]; cbn [app graham_pop] in *.
  - destruct (Rltb (ccw p t q) 0); [exists []|exists [t]]; reflexivity.
  - destruct (Rltb (ccw u t q) 0); [exact IH|exists (t :: u :: s); reflexivity].
Qed.
Lemma fold_doubled p m : forall s,
  fold_left (fun stack point => point :: graham_pop stack point) m (s ++ [p; p]) =
  fold_left (fun stack point => point :: graham_pop stack point) m (s ++ [p]) ++ [p].
Proof.
  induction m as [|q m IH]; intro s; cbn [fold_left]; [rewrite <- app_assoc; reflexivity|].
  rewrite pop_doubled. destruct (pop_base p q s) as [s' ->]. rewrite <- app_assoc. exact (IH (q :: s')).
Qed.

Lemma scan_again p m1 m2 : (forall q, In q (m1 ++ m2) -> upper p q) ->
  ForallOrdPairs (fun x y => 0 < cr p x y) (m1 ++ m2) ->
  let h := scan (p :: m1 ++ m2) in
  scan (p :: m1 ++ p :: m2) = h \/ scan (p :: m1 ++ p :: m2) = p :: h \/ scan (p :: m1 ++ p :: m2) = h ++ [p].
Proof.
  intros U O. cbn zeta. unfold scan. cbn [fold_left graham_pop]. rewrite !fold_left_app. cbn [fold_left].
  destruct (scan_ok p m1 [] ltac:(constructor) Logic.I ltac:(constructor) (fop_prefix _ _ _ O)) as (s & Es & F & C & Inc & Hull & Len).
  rewrite app_nil_r in *. cbn [app] in Es. rewrite !Es. destruct s as [|x s].
  - right. left. cbn [app graham_pop]. pose proof (fold_doubled p m2 []) as X. cbn [app] in X. rewrite X, rev_app_distr. reflexivity.
  - assert (E : graham_pop ((x :: s) ++ [p]) p = (x :: s) ++ [p]).
    { cbn [app]. destruct s as [|y s]; cbn [app graham_pop].
      - replace (ccw p x p) with 0 by (unfold ccw; ring). destruct (Rltb_spec 0 0); [lra|reflexivity].
      - inversion F as [|? ? F1 F2]; subst. inversion F1 as [|? ? F3 F4]; subst.
        unfold cr in F3. destruct (Rltb_spec (ccw y x p) 0) as [L|L]; [unfold ccw in L; lra|reflexivity]. }
    rewrite E. destruct m2 as [|q m2]; [right; right; reflexivity|]. left. cbn [fold_left]. f_equal. f_equal. f_equal.
    cbn [app graham_pop].
    assert (L : 0 < cr p x q).
    { apply (fop_cross _ m1 (q :: m2) x q O); [|left; reflexivity]. specialize (Inc x (or_introl eq_refl)). exact Inc. }
    destruct (Rltb_spec (ccw x p q) 0) as [_|L']; [reflexivity|]. unfold ccw in L'. unfold cr in L. lra.
Qed.

(** ** The edges of a polygon with a doubled first vertex *)
Lemma ring_first p t : ring (p :: p :: t) = (p, p) :: ring (p :: t).
Proof. rewrite !ring_chain. reflexivity. Qed.
Lemma ring_last p t : ring ((p :: t) ++ [p]) = ring (p :: t) ++ [(p, p)].
Proof.
  change ((p :: t) ++ [p]) with (p :: (t ++ [p])). rewrite !ring_chain. cbn [app].
  change (p :: (t ++ [p]) ++ [p]) with ((p :: (t ++ [p])) ++ [p]).
  replace ((p :: t ++ [p]) ++ [p]) with ((p :: t) ++ [p; p]) by (cbn [app]; rewrite <- app_assoc; reflexivity).
  rewrite chain_snoc. reflexivity.
Qed.
Lemma tri_self a p : tri a p p = 0.
Proof. unfold tri. field. Qed.
Lemma tri_same p q : tri p p q = 0.
Proof. unfold tri. field. Qed.
Lemma sumR_app a b : sumR (a ++ b) = sumR a + sumR b.
Proof. induction a as [|x a IH]; cbn [app sumR]; [lra|]. rewrite IH. lra. Qed.

Lemma hull_any l h : convex_hull l = Ok h ->
  incl h l /\
  (exists p t, lowest p l /\ NoDup (p :: t) /\ (h = p :: t \/ h = p :: p :: t \/ h = (p :: t) ++ [p])) /\
  (NoDup l -> NoDup h) /\
  (forall a b p, In (a, b) (ring h) -> In p l -> on_left a b p) /\
  (forall A B p, In p l -> exists v, In v h /\ A * vx p + B * vy p <= A * vx v + B * vy v) /\
  (forall a b c, In a l -> In b l -> In c l -> NoDup [a; b; c] -> (3 <= length h)%nat /\ 0 < sweep o0 h).
Proof.
  intro H. assert (E : l <> []) by (intros ->; discriminate H).
  assert (D : NoDup l -> NoDup h) by (intro N; exact (proj1 (proj2 (hull_ok l h N H)))).
  unfold convex_hull in H. destruct (graham_sort_any l E) as (p & L & [(S0 & _)|(m & S0 & P & F)]); rewrite S0 in H; [discriminate H|].
  cbn [bind] in H. change (Ok (scan (p :: m)) = Ok h) in H.
  assert (K : exists m0, (forall q, In q m0 -> upper p q) /\ ForallOrdPairs (fun x y => 0 < cr p x y) m0 /\
     (forall q, In q (p :: m0) <-> In q l) /\
     (h = scan (p :: m0) \/ h = p :: scan (p :: m0) \/ h = scan (p :: m0) ++ [p])).
  { assert (Dec : In p m \/ ~ In p m).
    { destruct (in_dec (fun a b : vec => ltac:(decide equality; apply Req_EM_T)) p m); auto. }
    assert (Um : forall q, In q m -> over p q).
    { intros q Hq. apply L, (Permutation_in _ P). right. exact Hq. }
    destruct Dec as [I|I].
    - apply in_split in I. destruct I as (m1 & m2 & ->). exists (m1 ++ m2).
      assert (U : forall q, In q (m1 ++ m2) -> upper p q).
      { intros q Hq. destruct (Um q) as [->|U]; [rewrite in_app_iff in *; cbn; tauto| |exact U].
        exfalso. pose proof (strict_nodup p _ F) as N. rewrite map_app in N. cbn [map] in N. apply NoDup_remove_2 in N.
        apply N. rewrite <- map_app. apply in_map, Hq. }
      pose proof (strict_cr p _ U (fop_drop _ _ _ _ F)) as O.
      split; [exact U|]. split; [exact O|]. split.
      + intro q. split; intro Hq.
        * apply (Permutation_in _ P). cbn in *. rewrite in_app_iff in *. cbn. tauto.
        * apply (Permutation_in _ (Permutation_sym P)) in Hq. cbn in *. rewrite in_app_iff in *. cbn in Hq. tauto.
      + pose proof (scan_again p m1 m2 U O) as A. cbn zeta in A. injection H as <-. exact A.
    - exists m. assert (U : forall q, In q m -> upper p q).
      { intros q Hq. destruct (Um q Hq) as [->|U]; [contradiction|exact U]. }
      split; [exact U|]. split; [exact (strict_cr p m U F)|]. split.
      + intro q. split; [apply (Permutation_in _ P)|apply (Permutation_in _ (Permutation_sym P))].
      + left. injection H as <-. reflexivity. }
  clear m S0 P F H. destruct K as (m & U & O & M & H).
  destruct (scan_hull p m U O (p :: m) (Permutation_refl _)) as (H1 & H2 & H3 & H4 & H5 & p' & t & H6 & _). cbn zeta in *.
  set (h0 := scan (p :: m)) in *.
  assert (p' = p) as ->.
  { pose proof (H1 p') as I. destruct (H4 0 (-1) p (or_introl eq_refl)) as (v & Hv & _). unfold h0 in H6.
    destruct (scan_ok p m [] ltac:(constructor) Logic.I ltac:(constructor) O) as (s & Es & _). cbn [app] in Es.
    unfold scan in H6. cbn [fold_left graham_pop] in H6. rewrite Es, rev_app_distr in H6. injection H6 as -> _. reflexivity. }
  assert (RH : forall a b, In (a, b) (ring h) -> In (a, b) (ring h0) \/ (a = p /\ b = p)).
  { intros a b. destruct H as [-> | [-> | ->]]; rewrite H6.
    - tauto.
    - rewrite ring_first. intros [X|X]; [injection X as <- <-; auto|left; exact X].
    - rewrite ring_last. intro X. apply in_app_iff in X. destruct X as [X|[X|[]]]; [left; exact X|injection X as <- <-; auto]. }
  assert (SH : sweep o0 h = sweep o0 h0).
  { unfold sweep. destruct H as [-> | [-> | ->]]; [reflexivity| |]; rewrite H6.
    - rewrite ring_first. cbn [map sumR fst snd]. rewrite tri_self. lra.
    - rewrite ring_last, map_app, sumR_app. cbn [map sumR fst snd]. rewrite tri_self. lra. }
  assert (IH : forall v, In v h <-> In v h0).
  { intro v. destruct H as [-> | [-> | ->]]; [tauto| |]; rewrite H6; cbn; rewrite ?in_app_iff; cbn; tauto. }
  split; [|split; [|split; [|split; [|split]]]].
  - intros v Hv. apply M, H1, IH, Hv.
  - exists p, t. split; [exact L|]. rewrite <- H6. split; [exact H2|exact H].
  - exact D.
  - intros a b q Hab Hq. destruct (RH a b Hab) as [X|[-> ->]]; [apply (H3 a b q X), M, Hq|].
    unfold on_left. rewrite tri_same. lra.
  - intros A B q Hq. destruct (H4 A B q (proj2 (M q) Hq)) as (v & Hv & X). exists v. split; [apply IH, Hv|exact X].
  - intros a b c Ha Hb Hc N.
    assert (L3 : (3 <= length (p :: m))%nat).
    { change 3%nat with (length [a; b; c]). apply NoDup_incl_length; [exact N|].
      intros x [<-|[<-|[<-|[]]]]; apply M; assumption. }
    destruct (H5 L3) as [L0 S0]. rewrite SH. split; [|exact S0].
    destruct H as [-> | [-> | ->]]; [exact L0|cbn [length]; lia|rewrite app_length; cbn [length]; lia].
Qed.

(** The lowest point given twice is twice in the hull. *)
Lemma hull_twice : convex_hull [V 0 0; V 1 0; V 0 0] = Ok [V 0 0; V 1 0; V 0 0].
Proof.
  assert (O1 : orientation (vsub (V 1 0) (V 0 0)) = Ok 0).
  { unfold orientation, vbool, vsub. cbn -[Reqb Rltb Rleb]. rewrite Reqb_false by lra.
    replace (0 - 0) with 0 by ring. rewrite Reqb_refl, Rleb_true by lra. reflexivity. }
  pose proof (angle_self (V 0 0)) as O2.
  unfold convex_hull, sort_point_for_graham_scan, stable_sort, y_le. cbn -[Reqb Rleb graham_data].
  repeat (rewrite ?Reqb_refl, ?(Rleb_true (0 - 0)), ?(Rleb_true (0 - 1)), ?(Rleb_false (1 - 0)) by lra;
    cbn -[Reqb Rleb graham_data]).
  unfold graham_data. cbn -[Reqb Rleb orientation vsub Rltb]. rewrite O1, O2. cbn -[Reqb Rleb Rltb ccw].
  repeat (rewrite ?(Rleb_true 0 90), ?(Rleb_false 90 0), ?(Reqb_false 0 90) by lra; cbn -[Reqb Rleb Rltb ccw]).
  replace (ccw (V 0 0) (V 1 0) (V 0 0)) with 0 by (unfold ccw; cbn; ring).
  rewrite (Rltb_false 0 0) by lra. reflexivity.
Qed.
