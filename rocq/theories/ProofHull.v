(** Proofs about the Graham scan, Patro/GeometryEngine/Polygon.py 663-775. *)
From Coq Require Import Reals List Lra Lia Psatz Bool Permutation Sorted.
From Verif Require Import Base ModelVector SpecVector SpecLine ModelPolygon SpecPolygon.
From Verif Require Import ProofVector ProofSegment ProofPolygon ProofPolygon2.
Import ListNotations.
Local Open Scope R_scope.
Local Open Scope result_scope.

(** ** The stable sort *)
Lemma insert_perm {A} (le : A -> A -> bool) x l : Permutation (insert_sorted le x l) (x :: l).
Proof.
  induction l as [|y l IH]; [apply Permutation_refl|]. cbn [insert_sorted]. destruct (le x y); [apply Permutation_refl|].
  eapply Permutation_trans; [apply perm_skip, IH|apply perm_swap].
Qed.
Lemma sort_perm {A} (le : A -> A -> bool) l : Permutation (stable_sort le l) l.
Proof.
  induction l as [|x l IH]; [apply Permutation_refl|]. cbn. eapply Permutation_trans; [apply insert_perm|].
  apply perm_skip, IH.
Qed.
Lemma sort_sorted {A} (le : A -> A -> bool) l : (forall a b, le a b = true \/ le b a = true) ->
  (forall a b c, le a b = true -> le b c = true -> le a c = true) ->
  StronglySorted (fun a b => le a b = true) (stable_sort le l).
Proof.
  intros T R. induction l as [|x l IH]; [constructor|]. cbn [stable_sort fold_right].
  change (fold_right (insert_sorted le) [] l) with (stable_sort le l).
  induction IH as [|y m S IH1 F]; cbn [insert_sorted]; [repeat constructor|].
  destruct (le x y) eqn:E.
  - constructor; [constructor; assumption|]. constructor; [exact E|].
    apply (Forall_impl _ (fun a H => R x y a E H) F).
  - constructor; [exact IH1|]. apply Forall_forall. intros a Ha.
    apply (Permutation_in _ (insert_perm le x m)) in Ha. destruct Ha as [<-|Ha].
    + destruct (T x y); congruence.
    + exact (proj1 (Forall_forall _ _) F a Ha).
Qed.

Lemma y_le_spec a b : y_le a b = true <-> (vy a < vy b \/ (vy a = vy b /\ vx a <= vx b)).
Proof.
  unfold y_le. destruct (Reqb_spec (vy a) (vy b)) as [E|E].
  - destruct (Rleb_spec (vx a - vx b) 0); split; intro H; try congruence; try lra.
  - destruct (Rleb_spec (vy a - vy b) 0); split; intro H; try congruence; try lra.
Qed.
Lemma y_le_total a b : y_le a b = true \/ y_le b a = true.
Proof. rewrite !y_le_spec. destruct (Rtotal_order (vy a) (vy b)) as [H|[H|H]]; [lra| |lra]. destruct (Rle_dec (vx a) (vx b)); lra. Qed.
Lemma y_le_trans a b c : y_le a b = true -> y_le b c = true -> y_le a c = true.
Proof. rewrite !y_le_spec. lra. Qed.

(** ** The angles seen from the lowest point *)
(** [q] is seen from [p] in the upper half plane, or on the right. *)
Definition upper (p q : vec) : Prop := vy p < vy q \/ (vy p = vy q /\ vx p < vx q).
Definition cr (o a b : vec) : R := (vx a - vx o) * (vy b - vy o) - (vy a - vy o) * (vx b - vx o).

Lemma upper_angle p q : upper p q -> exists t, orientation (vsub q p) = Ok t /\ 0 <= t < 180 /\
  0 < dist q p /\ vx q - vx p = dist q p * cos (rad t) /\ vy q - vy p = dist q p * sin (rad t).
Proof.
  intro U. assert (N : ~ null (vsub q p)).
  { intros [H1 H2]. unfold vsub in *. cbn in *. unfold upper in U. lra. }
  destruct (orientation_ok _ N) as (t & E & B & X & Y). rewrite len_dist0 in X, Y. cbn [vsub vx vy] in X, Y.
  assert (D : 0 < dist q p).
  { destruct (Rle_lt_or_eq_dec 0 (dist q p) (dist_nonneg _ _)) as [H|H]; [exact H|]. exfalso. rewrite <- H in X, Y.
    unfold upper in U. lra. }
  pose proof PI_RGT_0 as PI0.
  exists t. split; [exact E|]. split; [|auto].
  unfold upper in U. destruct (Rlt_dec t 0) as [H|H].
  - exfalso. assert (S0 : sin (rad t) < 0).
    { apply sin_lt_0_var; unfold rad; [|nra]. nra. }
    nra.
  - split; [lra|]. destruct (Req_dec t 180) as [Ht|Ht]; [|lra]. exfalso. subst t.
    replace (rad 180) with PI in X, Y by (unfold rad; field). rewrite cos_PI, sin_PI in *. lra.
Qed.

Lemma angle_cr p a b ta tb : upper p a -> upper p b -> orientation (vsub a p) = Ok ta -> orientation (vsub b p) = Ok tb ->
  (ta < tb -> 0 < cr p a b) /\ (ta = tb -> cr p a b = 0).
Proof.
  intros Ua Ub Ea Eb. destruct (upper_angle p a Ua) as (t & E & B & D & X & Y).
  destruct (upper_angle p b Ub) as (t' & E' & B' & D' & X' & Y'). rewrite Ea in E. injection E as <-.
  rewrite Eb in E'. injection E' as <-. unfold cr. rewrite X, Y, X', Y'.
  replace (dist a p * cos (rad ta) * (dist b p * sin (rad tb)) - dist a p * sin (rad ta) * (dist b p * cos (rad tb)))
    with (dist a p * dist b p * sin (rad tb - rad ta)) by (rewrite sin_minus; ring).
  pose proof PI_RGT_0 as PI0. split.
  - intro L. apply Rmult_lt_0_compat; [apply Rmult_lt_0_compat; assumption|].
    apply sin_gt_0; unfold rad; nra.
  - intros <-. replace (rad ta - rad ta) with 0 by ring. rewrite sin_0. ring.
Qed.

(** ** The scan *)
Section Scan.
Variable o : vec.
Local Notation "[ a , b ]" := (cr o a b).

Lemma ccw_cr a b c : ccw a b c = [b , c] - [a , c] + [a , b].
Proof. unfold ccw, cr. ring. Qed.
Lemma plucker a b c d : [a , b] * [c , d] - [a , c] * [b , d] + [a , d] * [b , c] = 0.
Proof. unfold cr. ring. Qed.
Lemma four_points a b c d : 0 < [a , b] -> 0 < [b , c] -> 0 < [a , c] -> 0 < [c , d] -> 0 < [b , d] ->
  0 <= ccw a b c -> 0 <= ccw b c d -> 0 <= ccw a b d /\ 0 <= ccw a c d.
Proof.
  intros ab bc ac cd bd X Y. rewrite (ccw_cr a b c) in X. rewrite (ccw_cr b c d) in Y.
  rewrite (ccw_cr a b d), (ccw_cr a c d). pose proof (plucker a b c d) as P.
  set (AB := [a , b]) in *. set (BC := [b , c]) in *. set (AC := [a , c]) in *. set (CD := [c , d]) in *.
  set (BD := [b , d]) in *. set (AD := [a , d]) in *. clearbody AB BC AC CD BD AD.
  split; apply (Rmult_le_reg_l BC); try assumption.
  - replace (BC * (BD - AD + AB)) with (BD * (BC - AC + AB) + AB * (CD - BD + BC)) by lra.
    pose proof (Rmult_le_pos _ _ (Rlt_le _ _ bd) X). pose proof (Rmult_le_pos _ _ (Rlt_le _ _ ab) Y). lra.
  - replace (BC * (CD - AD + AC)) with (CD * (BC - AC + AB) + AC * (CD - BD + BC)) by lra.
    pose proof (Rmult_le_pos _ _ (Rlt_le _ _ cd) X). pose proof (Rmult_le_pos _ _ (Rlt_le _ _ ac) Y). lra.
Qed.

(** The stack without [o], the top first: the angles decrease, and all triples turn left. *)
Definition falling := ForallOrdPairs (fun x y : vec => 0 < [y , x]).
Definition left_of (q : vec) := ForallOrdPairs (fun y z : vec => 0 <= ccw z y q).
Fixpoint convex_stack (s : list vec) : Prop :=
  match s with [] => True | q :: s => left_of q s /\ convex_stack s end.
Definition after_all (q : vec) (s : list vec) := Forall (fun y => 0 < [y , q]) s.

(** No half plane separates [p] from the points of [S]. *)
Definition in_hull (S : list vec) (p : vec) : Prop :=
  forall A B C, (forall s, In s S -> 0 <= A * vx s + B * vy s + C) -> 0 <= A * vx p + B * vy p + C.

Lemma hull_in S p : In p S -> in_hull S p.
Proof. intros H A B C HS. apply HS, H. Qed.
Lemma hull_trans S T p : (forall s, In s S -> in_hull T s) -> in_hull S p -> in_hull T p.
Proof. intros H Hp A B C HT. apply Hp. intros s Hs. apply (H s Hs). exact HT. Qed.

(** A popped point is in the triangle of [o], the point below it and the new point. *)
Lemma popped b t q S : 0 < [b , t] -> 0 < [t , q] -> 0 < [b , q] -> ccw b t q < 0 ->
  In o S -> In b S -> In q S -> in_hull S t.
Proof.
  intros bt tq bq C Ho Hb Hq A B D HS. rewrite (ccw_cr b t q) in C.
  pose proof (HS o Ho) as Fo. pose proof (HS b Hb) as Fb. pose proof (HS q Hq) as Fq.
  set (fo := A * vx o + B * vy o + D) in *. set (fb := A * vx b + B * vy b + D) in *.
  set (fq := A * vx q + B * vy q + D) in *. set (ft := A * vx t + B * vy t + D).
  assert (E : [b , q] * (ft - fo) = [t , q] * (fb - fo) + [b , t] * (fq - fo)).
  { unfold ft, fo, fb, fq, cr. ring. }
  apply (Rmult_le_reg_l [b , q]); [exact bq|].
  replace ([b , q] * 0) with 0 by ring.
  replace ([b , q] * ft) with ([t , q] * fb + [b , t] * fq + ([b , q] - [t , q] - [b , t]) * fo) by lra.
  pose proof (Rmult_le_pos _ _ (Rlt_le _ _ tq) Fb). pose proof (Rmult_le_pos _ _ (Rlt_le _ _ bt) Fq).
  assert (0 <= ([b , q] - [t , q] - [b , t]) * fo) by (apply Rmult_le_pos; [lra|exact Fo]). lra.
Qed.

Lemma convex_tail_ q s : convex_stack (q :: s) -> convex_stack s.
Proof. intros [_ H]. exact H. Qed.

(** After the pops, the new point is on the left of all the pairs of the stack. *)
Lemma pop_ok s q : falling s -> convex_stack s -> after_all q s ->
  exists s', graham_pop (s ++ [o]) q = s' ++ [o] /\ (exists r, s = r ++ s') /\ left_of q s' /\ (s <> [] -> s' <> []) /\
    forall p, In p s -> in_hull (q :: s' ++ [o]) p.
Proof.
  induction s as [|t s IH]; intros F C A.
  - exists []. split; [reflexivity|]. split; [exists []; reflexivity|]. split; [constructor|]. split; [tauto|intros p []].
  - inversion F as [|? ? F1 F2]; subst. destruct C as [C1 C2]. inversion A as [|? ? A1 A2]; subst.
    destruct s as [|b s].
    + exists [t]. cbn [app graham_pop]. rewrite Rltb_false by (unfold ccw; unfold cr in A1; lra).
      split; [reflexivity|]. split; [exists []; reflexivity|]. split; [repeat constructor|]. split; [discriminate|].
      intros p [<-|[]]. apply hull_in. right. left. reflexivity.
    + cbn [app graham_pop].
      inversion F1 as [|? ? F11 F12]; subst. inversion A2 as [|? ? A21 A22]; subst.
      inversion F2 as [|? ? F21 F22]; subst.
      destruct (Rltb_spec (ccw b t q) 0) as [L|L].
      * destruct (IH F2 C2 A2) as (s' & E & (r & Er) & S1 & S2 & S3).
        exists s'. split; [exact E|]. split; [exists (t :: r); rewrite Er; reflexivity|]. split; [exact S1|].
        split; [intros _; apply S2; discriminate|].
        intros p [<-|Hp]; [|apply S3, Hp].
        apply (hull_trans (o :: q :: b :: nil)).
        -- intros x [<-|[<-|[<-|[]]]].
           ++ apply hull_in. right. apply in_app_iff. right. left. reflexivity.
           ++ apply hull_in. left. reflexivity.
           ++ apply S3. left. reflexivity.
        -- apply (popped b t q); auto; cbn; tauto.
      * exists (t :: b :: s). split; [reflexivity|]. split; [exists []; reflexivity|].
        split; [|split; [discriminate|intros p Hp; apply hull_in; right; apply in_app_iff; left; exact Hp]].
        apply Rnot_lt_le in L.
        (* the pairs with the top *)
        assert (T : Forall (fun z => 0 <= ccw z t q) (b :: s)).
        { constructor; [exact L|]. inversion C1 as [|? ? C11 C12]; subst.
          apply Forall_forall. intros z Hz.
          rewrite Forall_forall in C11, F12, F21, A22.
          apply (four_points z b t q); auto. }
        constructor; [exact T|].
        assert (Sub : forall s0, falling s0 -> left_of t s0 -> Forall (fun z => 0 < [z , t]) s0 ->
            Forall (fun z => 0 < [z , q]) s0 -> Forall (fun z => 0 <= ccw z t q) s0 -> left_of q s0).
        { induction s0 as [|y s0 IH0]; intros G1 G2 G3 G4 G5; [constructor|].
          inversion G1; inversion G2; inversion G3; inversion G4; inversion G5; subst. constructor.
          - rewrite Forall_forall in *. intros z Hz. apply (four_points z y t q); auto.
          - apply IH0; assumption. }
        apply Sub; assumption.
Qed.

Lemma fop_suffix {A} (P : A -> A -> Prop) r s : ForallOrdPairs P (r ++ s) -> ForallOrdPairs P s.
Proof. induction r as [|x r IH]; intro H; [exact H|]. apply IH. inversion H; assumption. Qed.
Lemma convex_suffix r s : convex_stack (r ++ s) -> convex_stack s.
Proof. induction r as [|x r IH]; intro H; [exact H|]. apply IH. apply H. Qed.

(** The scan of points in the order of their angles. *)
Lemma scan_ok rest : forall s, falling s -> convex_stack s ->
  (forall q, In q rest -> after_all q s) -> ForallOrdPairs (fun x y => 0 < [x , y]) rest ->
  exists s', fold_left (fun stack point => point :: graham_pop stack point) rest (s ++ [o]) = s' ++ [o] /\
    falling s' /\ convex_stack s' /\ incl s' (rest ++ s) /\
    (forall p, In p (rest ++ s) -> in_hull (s' ++ [o]) p) /\
    (length (rest ++ s) <= 1 \/ 2 <= length s')%nat.
Proof.
  induction rest as [|q rest IH]; intros s F C A R.
  - exists s. split; [reflexivity|]. split; [exact F|]. split; [exact C|]. split; [apply incl_refl|].
    split; [intros p Hp; apply hull_in, in_app_iff; left; exact Hp|cbn; lia].
  - inversion R as [|? ? R1 R2]; subst. cbn [fold_left].
    destruct (pop_ok s q F C (A q (or_introl eq_refl))) as (s1 & E & (r & Er) & S1 & S2 & S3). rewrite E.
    change (q :: s1 ++ [o]) with ((q :: s1) ++ [o]).
    assert (A1 : after_all q s1).
    { pose proof (A q (or_introl eq_refl)) as H. unfold after_all in *. rewrite Er in H. apply Forall_app in H. tauto. }
    destruct (IH (q :: s1)) as (s' & E' & F' & C' & I' & H' & L').
    + constructor; [exact A1|]. apply (fop_suffix _ r). rewrite <- Er. exact F.
    + split; [exact S1|]. apply (convex_suffix r). rewrite <- Er. exact C.
    + intros x Hx. constructor; [exact (proj1 (Forall_forall _ _) R1 x Hx)|].
      pose proof (A x (or_intror Hx)) as H. unfold after_all in *. rewrite Er in H. apply Forall_app in H. tauto.
    + exact R2.
    + exists s'. split; [exact E'|]. split; [exact F'|]. split; [exact C'|]. split; [|split].
      * intros x Hx. apply I' in Hx. apply in_app_iff in Hx. rewrite Er. cbn. rewrite !in_app_iff.
        destruct Hx as [Hx|[Hx|Hx]]; tauto.
      * intros p Hp. cbn [app] in Hp.
        assert (K : forall p, In p (q :: s) -> in_hull (s' ++ [o]) p).
        { intros x [<-|Hx]; [apply H', in_app_iff; right; left; reflexivity|].
          apply (hull_trans (q :: s1 ++ [o])); [|apply S3, Hx].
          intros y [<-|Hy]; [apply H', in_app_iff; right; left; reflexivity|].
          apply in_app_iff in Hy. destruct Hy as [Hy|[<-|[]]].
          - apply H', in_app_iff. right. right. exact Hy.
          - apply hull_in, in_app_iff. right. left. reflexivity. }
        destruct Hp as [<-|Hp]; [apply K; left; reflexivity|]. apply in_app_iff in Hp.
        destruct Hp as [Hp|Hp]; [apply H', in_app_iff; left; exact Hp|apply K; right; exact Hp].
      * destruct L' as [L'|L']; [|right; exact L']. rewrite app_length in L'. cbn [length] in L'.
        destruct s as [|x s]; [|destruct s1; [exfalso; apply S2; [discriminate|reflexivity]|cbn in L'; lia]].
        left. rewrite app_length. cbn. lia.
Qed.
End Scan.

(** ** The sorted points *)
Definition angle_of (p q : vec) : R := match orientation (vsub q p) with Ok t => t | Raise _ => 0 end.
Lemma angle_of_ok p q : upper p q -> orientation (vsub q p) = Ok (angle_of p q).
Proof. intro U. destruct (upper_angle p q U) as (t & E & _). unfold angle_of. rewrite E. reflexivity. Qed.

Lemma lowest_ok l : NoDup l -> l <> [] -> exists p others, stable_sort y_le l = p :: others /\
  Permutation (p :: others) l /\ (forall q, In q others -> upper p q).
Proof.
  intros N E. pose proof (sort_perm y_le l) as P.
  pose proof (sort_sorted y_le l y_le_total y_le_trans) as S0.
  destruct (stable_sort y_le l) as [|p others] eqn:H.
  - apply Permutation_nil in P. congruence.
  - exists p, others. split; [reflexivity|]. split; [exact P|]. intros q Hq.
    inversion S0 as [|? ? S1 S2]; subst. pose proof (proj1 (Forall_forall _ _) S2 q Hq) as L. apply y_le_spec in L.
    assert (D : p <> q).
    { apply (Permutation_NoDup (Permutation_sym P)) in N. inversion N; subst. intros <-. tauto. }
    unfold upper. destruct L as [L|[L1 L2]]; [left; exact L|right]. split; [exact L1|].
    destruct (Req_dec (vx p) (vx q)) as [X|X]; [|lra]. exfalso. apply D, vec_eq; assumption.
Qed.
Lemma data_ok p others : (forall q, In q others -> upper p q) ->
  graham_data p others = Ok (map (fun q => (q, angle_of p q)) others).
Proof.
  unfold graham_data. induction others as [|q t IH]; intro H; [reflexivity|]. cbn [traverse map].
  rewrite (angle_of_ok p q) by (apply H; left; reflexivity). cbn [bind]. rewrite IH; [reflexivity|].
  intros x Hx. apply H. right. exact Hx.
Qed.
Lemma same_angle_false d : StronglySorted (fun a b : vec * R => Rleb (snd a) (snd b) = true) d ->
  same_angle d = false -> StronglySorted (fun a b : vec * R => snd a < snd b) d.
Proof.
  induction 1 as [|a d S0 IH F]; intro H; [constructor|]. destruct d as [|b d]; [repeat constructor|].
  cbn [same_angle] in H. apply orb_false_iff in H. destruct H as [H1 H2]. specialize (IH H2).
  constructor; [exact IH|].
  inversion F as [|? ? F1 F2]; subst. inversion IH as [|? ? I1 I2]; subst.
  assert (L : snd a < snd b).
  { destruct (Rleb_spec (snd a) (snd b)) as [L|]; [|discriminate]. destruct (Reqb_spec (snd a) (snd b)); [discriminate|]. lra. }
  constructor; [exact L|]. apply (Forall_impl _ (fun c Hc => Rlt_trans _ _ _ L Hc) I2).
Qed.
Lemma same_angle_true d : same_angle d = true -> exists a b r s t, d = r ++ a :: s ++ b :: t /\ snd a = snd b.
Proof.
  induction d as [|a d IH]; intro H; [discriminate|]. destruct d as [|b d]; [discriminate|].
  cbn [same_angle] in H. apply orb_true_iff in H. destruct H as [H|H].
  - destruct (Reqb_spec (snd a) (snd b)) as [E|]; [|discriminate]. exists a, b, [], [], d. split; [reflexivity|exact E].
  - destruct (IH H) as (x & y & r & s & t & E & E'). exists x, y, (a :: r), s, t. rewrite E. split; [reflexivity|exact E'].
Qed.

(** The sort succeeds exactly when no two points are aligned with the lowest one, on the same side. *)
Lemma graham_sort_ok l : NoDup l -> l <> [] -> exists p, In p l /\ (forall q, In q l -> q = p \/ upper p q) /\
  ((exists a b, In a l /\ In b l /\ a <> b /\ upper p a /\ upper p b /\ cr p a b = 0 /\
      sort_point_for_graham_scan l = Raise TypeError) \/
   (exists m, sort_point_for_graham_scan l = Ok (p :: m) /\ Permutation (p :: m) l /\
      (forall q, In q m -> upper p q) /\ ForallOrdPairs (fun x y => 0 < cr p x y) m)).
Proof.
  intros N E. destruct (lowest_ok l N E) as (p & others & H & P & U). exists p.
  split; [apply (Permutation_in _ P); left; reflexivity|].
  split; [intros q Hq; apply (Permutation_in _ (Permutation_sym P)) in Hq; destruct Hq as [<-|Hq]; auto|].
  unfold sort_point_for_graham_scan. rewrite H, (data_ok p others U). cbn [bind].
  set (le := fun a b : vec * R => Rleb (snd a) (snd b)).
  set (d := stable_sort le (map (fun q => (q, angle_of p q)) others)).
  assert (Pd : Permutation d (map (fun q => (q, angle_of p q)) others)) by apply sort_perm.
  assert (Sd : StronglySorted (fun a b => le a b = true) d).
  { apply sort_sorted.
    - intros a b. unfold le. destruct (Rleb_spec (snd a) (snd b)), (Rleb_spec (snd b) (snd a)); auto; lra.
    - intros a b c. unfold le. destruct (Rleb_spec (snd a) (snd b)), (Rleb_spec (snd b) (snd c)), (Rleb_spec (snd a) (snd c)); auto; lra. }
  assert (Dd : forall x, In x d -> In (fst x) others /\ snd x = angle_of p (fst x)).
  { intros x Hx. apply (Permutation_in _ Pd) in Hx. apply in_map_iff in Hx. destruct Hx as (q & <- & Hq). auto. }
  assert (Pm : Permutation (map fst d) others).
  { eapply Permutation_trans; [apply Permutation_map, Pd|]. rewrite map_map. cbn. rewrite map_id. apply Permutation_refl. }
  clearbody d. destruct (same_angle d) eqn:S0.
  - left. apply same_angle_true in S0. destruct S0 as (a & b & r & s & t & Ed & Eab).
    assert (Ha : In a d) by (rewrite Ed, in_app_iff; right; left; reflexivity).
    assert (Hb : In b d) by (rewrite Ed, in_app_iff; right; right; rewrite in_app_iff; right; left; reflexivity).
    destruct (Dd a Ha) as [A1 A2]. destruct (Dd b Hb) as [B1 B2].
    exists (fst a), (fst b).
    split; [apply (Permutation_in _ P); right; exact A1|]. split; [apply (Permutation_in _ P); right; exact B1|].
    split; [|split; [auto|split; [auto|split; [|reflexivity]]]].
    + assert (ND : NoDup (map fst d)).
      { apply (Permutation_NoDup (Permutation_sym Pm)). apply (Permutation_NoDup (Permutation_sym P)) in N. inversion N; assumption. }
      rewrite Ed, map_app in ND. cbn [map] in ND. apply NoDup_remove_2 in ND. rewrite in_app_iff in ND.
      intro X. apply ND. right. rewrite X, map_app, in_app_iff. right. left. reflexivity.
    + apply (angle_cr p (fst a) (fst b) (angle_of p (fst a)) (angle_of p (fst b))); auto using angle_of_ok. congruence.
  - right. exists (map fst d). split; [reflexivity|]. split; [|split].
    + eapply Permutation_trans; [apply perm_skip, Pm|exact P].
    + intros q Hq. apply U, (Permutation_in _ Pm), Hq.
    + pose proof (same_angle_false d Sd S0) as SS. clear - SS Dd U. induction SS as [|a d SS IH F]; [constructor|].
      cbn [map]. constructor.
      * apply Forall_forall. intros x Hx. apply in_map_iff in Hx. destruct Hx as (b & <- & Hb).
        destruct (Dd a (or_introl eq_refl)) as [A1 A2]. destruct (Dd b (or_intror Hb)) as [B1 B2].
        apply (angle_cr p (fst a) (fst b) (angle_of p (fst a)) (angle_of p (fst b))); auto using angle_of_ok.
        rewrite <- A2, <- B2. exact (proj1 (Forall_forall _ _) F b Hb).
      * apply IH. intros x Hx. apply Dd. right. exact Hx.
Qed.

(** ** The hull *)
Definition triples (h : list vec) : Prop := forall l1 x l2 y l3 z l4,
  h = l1 ++ x :: l2 ++ y :: l3 ++ z :: l4 -> 0 <= ccw x y z.
Lemma fop_split {A} (P : A -> A -> Prop) l : ForallOrdPairs P l ->
  forall l1 x l2 y l3, l = l1 ++ x :: l2 ++ y :: l3 -> P x y.
Proof.
  intros H l1 x l2 y l3 ->. apply fop_suffix in H. inversion H as [|? ? H1 H2]; subst.
  apply (proj1 (Forall_forall _ _) H1). apply in_app_iff. right. left. reflexivity.
Qed.
Lemma triples_ok o s : falling o s -> convex_stack s -> triples (o :: rev s).
Proof.
  intros F C l1 x l2 y l3 z l4 E. destruct l1 as [|o' l1]; injection E as -> E.
  - assert (E' : s = rev l4 ++ z :: rev l3 ++ y :: rev l2).
    { rewrite <- (rev_involutive s), E.
      repeat (progress (cbn [rev app]; rewrite ?rev_app_distr, <- ?app_assoc)). reflexivity. }
    pose proof (fop_split _ _ F _ _ _ _ _ E') as G. cbn beta in G. unfold ccw. unfold cr in G. lra.
  - assert (E' : s = rev l4 ++ z :: rev l3 ++ y :: rev l2 ++ x :: rev l1).
    { rewrite <- (rev_involutive s), E.
      repeat (progress (cbn [rev app]; rewrite ?rev_app_distr, <- ?app_assoc)). reflexivity. }
    rewrite E' in C. apply convex_suffix in C. destruct C as [C _].
    exact (fop_split _ _ C _ _ _ _ _ eq_refl).
Qed.

Lemma chain_split l a b : In (a, b) (chain l) -> exists l1 l2, l = l1 ++ a :: b :: l2.
Proof.
  induction l as [|x l IH]; [intros []|]. destruct l as [|y l]; [intros []|]. intros [H|H].
  - injection H as -> ->. exists [], l. reflexivity.
  - destruct (IH H) as (l1 & l2 & E). exists (x :: l1), l2. rewrite E. reflexivity.
Qed.
Lemma ccw_cycle a b c : ccw a b c = ccw b c a.
Proof. unfold ccw. ring. Qed.
Lemma ring_left h a b v : triples h -> In (a, b) (ring h) -> In v h -> 0 <= ccw a b v.
Proof.
  intros T E Hv. destruct h as [|p t]; [destruct E|]. rewrite ring_chain in E. apply chain_split in E.
  destruct E as (l1 & l2 & E).
  destruct l2 as [|q l2] using rev_ind.
  - (* the closing edge *)
    change (l1 ++ [a; b]) with (l1 ++ [a] ++ [b]) in E. rewrite app_assoc in E. apply app_inj_tail in E.
    destruct E as [E <-]. rewrite E in Hv. apply in_app_iff in Hv. destruct Hv as [Hv|[<-|[]]].
    + destruct l1 as [|p' l1]; [destruct Hv|]. injection E as <- E. destruct Hv as [<-|Hv].
      * unfold ccw. lra.
      * apply in_split in Hv. destruct Hv as (m1 & m2 & ->). rewrite ccw_cycle.
        apply (T [] p m1 v m2 a []). rewrite E, <- app_assoc. reflexivity.
    + unfold ccw. lra.
  - clear IHl2. replace (l1 ++ a :: b :: l2 ++ [q]) with ((l1 ++ a :: b :: l2) ++ [q]) in E
      by (rewrite <- app_assoc; reflexivity).
    apply app_inj_tail in E. destruct E as [E _]. rewrite E in Hv. apply in_app_iff in Hv.
    destruct Hv as [Hv|[<-|[<-|Hv]]].
    + apply in_split in Hv. destruct Hv as (m1 & m2 & ->). rewrite ccw_cycle, ccw_cycle.
      apply (T m1 v m2 a [] b l2). rewrite E, <- app_assoc. reflexivity.
    + unfold ccw. lra.
    + unfold ccw. lra.
    + apply in_split in Hv. destruct Hv as (m1 & m2 & ->). apply (T l1 a [] b m1 v m2). exact E.
Qed.

Lemma in_hull_max h p A B : h <> [] -> in_hull h p -> exists v, In v h /\ A * vx p + B * vy p <= A * vx v + B * vy v.
Proof.
  intros N H.
  assert (M : exists v, In v h /\ forall w, In w h -> A * vx w + B * vy w <= A * vx v + B * vy v).
  { clear H. induction h as [|x h IH]; [congruence|]. destruct h as [|y h].
    - exists x. split; [left; reflexivity|]. intros w [<-|[]]. lra.
    - destruct (IH ltac:(discriminate)) as (v & Hv & M).
      destruct (Rle_dec (A * vx v + B * vy v) (A * vx x + B * vy x)) as [L|L].
      + exists x. split; [left; reflexivity|]. intros w [<-|Hw]; [lra|]. specialize (M w Hw). lra.
      + exists v. split; [right; exact Hv|]. intros w [<-|Hw]; [lra|]. exact (M w Hw). }
  destruct M as (v & Hv & M). exists v. split; [exact Hv|].
  specialize (H (- A) (- B) (A * vx v + B * vy v)).
  assert (0 <= - A * vx p + - B * vy p + (A * vx v + B * vy v)).
  { apply H. intros s Hs. specialize (M s Hs). lra. }
  lra.
Qed.

Lemma falling_nodup o s : falling o s -> NoDup s.
Proof.
  induction 1 as [|x s F1 F2 IH]; constructor; [|exact IH]. intro H.
  pose proof (proj1 (Forall_forall _ _) F1 x H) as G. cbn beta in G. unfold cr in G. lra.
Qed.
Lemma sumR_pos {A} (f : A -> R) l x : (forall y, In y l -> 0 <= f y) -> In x l -> 0 < f x -> 0 < sumR (map f l).
Proof.
  intros H Hx Px.
  assert (G : forall l, (forall y, In y l -> 0 <= f y) -> 0 <= sumR (map f l)).
  { clear. induction l as [|y l IH]; intro H; cbn [map sumR]; [lra|].
    pose proof (H y (or_introl eq_refl)). pose proof (IH (fun z Hz => H z (or_intror Hz))). lra. }
  induction l as [|y l IH]; [destruct Hx|]. cbn [map sumR].
  pose proof (H y (or_introl eq_refl)). pose proof (G l (fun z Hz => H z (or_intror Hz))).
  destruct Hx as [->|Hx]; [lra|]. pose proof (IH (fun z Hz => H z (or_intror Hz)) Hx). lra.
Qed.

Definition scan (l : list vec) : list vec :=
  rev (fold_left (fun stack point => point :: graham_pop stack point) l []).
Lemma scan_hull p m : (forall q, In q m -> upper p q) -> ForallOrdPairs (fun x y => 0 < cr p x y) m ->
  forall l, Permutation (p :: m) l -> let h := scan (p :: m) in
  incl h l /\ NoDup h /\
  (forall a b p, In (a, b) (ring h) -> In p l -> on_left a b p) /\
  (forall A B p, In p l -> exists v, In v h /\ A * vx p + B * vy p <= A * vx v + B * vy v) /\
  ((3 <= length l)%nat -> (3 <= length h)%nat /\ 0 < sweep o0 h) /\
  (exists p t, h = p :: t /\ forall q, In q l -> q = p \/ vy p < vy q \/ (vy p = vy q /\ vx p < vx q)).
Proof.
  intros U O l P. unfold scan. cbn zeta. cbn [fold_left graham_pop].
  assert (Hp : In p l) by (apply (Permutation_in _ P); left; reflexivity).
  assert (Low : forall q, In q l -> q = p \/ upper p q).
  { intros q Hq. apply (Permutation_in _ (Permutation_sym P)) in Hq. destruct Hq as [<-|Hq]; auto. }
  destruct (scan_ok p m [] ltac:(constructor) Logic.I ltac:(constructor) O) as (s & Es & F & C & Inc & Hull & Len).
  rewrite app_nil_r in *. cbn [app] in Es. rewrite !Es, !rev_app_distr. cbn [rev app].
  pose proof (triples_ok p s F C) as T.
  assert (HH : forall q, In q l -> in_hull (p :: rev s) q).
  { intros q Hq. apply (hull_trans (s ++ [p])).
    - intros x Hx. apply hull_in. apply in_app_iff in Hx. destruct Hx as [Hx|[<-|[]]]; [right; apply in_rev; rewrite rev_involutive; exact Hx|left; reflexivity].
    - apply (Permutation_in _ (Permutation_sym P)) in Hq. destruct Hq as [<-|Hq]; [apply hull_in, in_app_iff; right; left; reflexivity|].
      apply Hull, Hq. }
  split; [|split; [|split; [|split; [|split]]]].
  - intros x [<-|Hx]; [exact Hp|]. apply in_rev in Hx. apply Inc in Hx. apply (Permutation_in _ P). right. exact Hx.
  - constructor; [|apply NoDup_rev, (falling_nodup p), F]. intro Hx. apply in_rev, Inc, U in Hx. unfold upper in Hx. lra.
  - intros a b q Hab Hq. unfold on_left, tri.
    assert (G : 0 <= (- (vy b - vy a)) * vx q + (vx b - vx a) * vy q + (vx a * (vy b - vy a) - vy a * (vx b - vx a))).
    { apply (HH q Hq). intros v Hv. pose proof (ring_left _ a b v T Hab Hv) as G. unfold ccw in G. lra. }
    lra.
  - intros A B q Hq. apply in_hull_max; [discriminate|]. apply HH, Hq.
  - intro L3. assert (Lm : (2 <= length m)%nat).
    { apply Permutation_length in P. cbn [length] in P. lia. }
    assert (Ls : (2 <= length s)%nat) by lia.
    split; [cbn [length]; rewrite rev_length; lia|].
    rewrite (sweep_any o0 p). unfold sweep.
    destruct (rev s) as [|t1 [|t2 t]] eqn:Er; [apply (f_equal (@length vec)) in Er; rewrite rev_length in Er; cbn in Er; lia..|].
    apply (sumR_pos _ _ (t1, t2)).
    + intros [a b] Hab. cbn [fst snd]. pose proof (ring_left _ a b p T Hab (or_introl eq_refl)) as G.
      rewrite <- ccw_cycle in G. unfold ccw in G. unfold tri. lra.
    + rewrite ring_chain. cbn [app chain]. right. left. reflexivity.
    + assert (E' : s = rev t ++ t2 :: [] ++ t1 :: []).
      { rewrite <- (rev_involutive s), Er. cbn [rev]. rewrite <- app_assoc. reflexivity. }
      pose proof (fop_split _ _ F _ _ _ _ _ E') as G. cbn beta in G. unfold cr in G. unfold tri. cbn [fst snd]. lra.
  - exists p, (rev s). split; [reflexivity|]. exact Low.
Qed.

Lemma hull_ok l h : NoDup l -> convex_hull l = Ok h ->
  incl h l /\ NoDup h /\
  (forall a b p, In (a, b) (ring h) -> In p l -> on_left a b p) /\
  (forall A B p, In p l -> exists v, In v h /\ A * vx p + B * vy p <= A * vx v + B * vy v) /\
  ((3 <= length l)%nat -> (3 <= length h)%nat /\ 0 < sweep o0 h) /\
  (exists p t, h = p :: t /\ forall q, In q l -> q = p \/ vy p < vy q \/ (vy p = vy q /\ vx p < vx q)).
Proof.
  intros N H. unfold convex_hull in H. destruct l as [|l0 lt]; [discriminate|]. set (l := l0 :: lt) in *.
  destruct (graham_sort_ok l N ltac:(discriminate)) as (p & Hp & Low & [(a & b & _ & _ & _ & _ & _ & _ & E)|(m & E & P & U & O)]);
    rewrite E in H; cbn [bind] in H; [discriminate|]. injection H as <-. exact (scan_hull p m U O l P).
Qed.

Lemma hull_raises l : NoDup l -> l <> [] ->
  is_ok (convex_hull l) \/
  (convex_hull l = Raise TypeError /\ exists p a b, In p l /\ In a l /\ In b l /\ a <> b /\
     (forall q, In q l -> q = p \/ vy p < vy q \/ (vy p = vy q /\ vx p < vx q)) /\ a <> p /\ b <> p /\ tri p a b = 0).
Proof.
  intros N E. unfold convex_hull.
  destruct (graham_sort_ok l N E) as (p & Hp & Low & [(a & b & Ha & Hb & D & Ua & Ub & Z & H)|(m & H & _)]); rewrite H; cbn [bind].
  - right. split; [reflexivity|]. exists p, a, b. do 4 (split; [assumption|]). split; [exact Low|].
    split; [intros ->; unfold upper in Ua; lra|]. split; [intros ->; unfold upper in Ub; lra|].
    unfold tri. unfold cr in Z. lra.
  - left. eexists. reflexivity.
Qed.
