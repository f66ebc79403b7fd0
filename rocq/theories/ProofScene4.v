From Coq Require Import String Ascii List Bool Arith Reals Permutation Lia Lra.
From Verif Require Import Base ModelFormula ModelMeasure ModelVector ModelLine ModelScene SpecScene ProofVector ProofScene ProofScene2.
Import ListNotations.

Section Scene.
Variables shape geometry : Type.
Variable get_geometry : coordinates -> shape -> result geometry.
Variable geometry_box : geometry -> box.
Variable geometry_distance : geometry -> vec -> result (option R).
Variable arrange : list nat -> list nat.
Notation item := (item shape geometry).
Notation scene := (scene shape geometry).
Notation items := (s_items shape geometry).
Notation users := (s_users shape geometry).
Notation step := (step shape geometry get_geometry geometry_box geometry_distance arrange).
Notation run := (run shape geometry get_geometry geometry_box geometry_distance arrange).

(** ** User data *)
Definition tag (p : nat * item) : nat * option nat := (fst p, i_user_data _ _ (snd p)).
Lemma set_tag (l : list (nat * item)) id it it' : dict_get l id = Some it -> i_user_data _ _ it' = i_user_data _ _ it -> map tag (dict_set l id it') = map tag l.
Proof.
  intros G E. induction l as [|[i x] l IH]; [discriminate|]. cbn in *. destruct (Nat.eqb_spec i id) as [<-|N]; [injection G as <-; cbn; unfold tag; cbn; rewrite E; reflexivity|]. cbn. rewrite IH by exact G. reflexivity.
Qed.
Definition same (s s' : scene) : Prop := map tag (items s') = map tag (items s) /\ users s' = users s.
Lemma same_refl s : same s s. Proof. split; reflexivity. Qed.
Lemma same_trans a b c : same a b -> same b c -> same a c.
Proof. intros (A & B) (C & D). split; congruence. Qed.
Lemma set_same_tags s id it it' : dict_get (items s) id = Some it -> i_user_data _ _ it' = i_user_data _ _ it -> same s (with_items _ _ s (dict_set (items s) id it')).
Proof. intros G E. split; [apply (set_tag _ _ it); assumption|reflexivity]. Qed.
Lemma on_item_same s id f : (forall it, i_user_data shape geometry (f it) = i_user_data _ _ it) -> same s (on_item _ _ s id f).
Proof. intro F. unfold on_item. destruct (dict_get (items s) id) as [it|] eqn:G; [|apply same_refl]. apply (set_same_tags s id it); auto. Qed.
Lemma geometry_user c it it' g : item_geometry _ _ get_geometry c it = Ok (it', g) -> i_user_data _ _ it' = i_user_data shape geometry it.
Proof. unfold item_geometry. destruct (i_geometry _ _ it); [intro H; injection H as <- <-; reflexivity|]. destruct (get_geometry c _); [|discriminate]. intro H. injection H as <- <-. reflexivity. Qed.
Lemma box_user c it it' b : item_box _ _ get_geometry geometry_box c it = Ok (it', b) -> i_user_data _ _ it' = i_user_data shape geometry it.
Proof.
  unfold item_box. destruct (i_box _ _ it); [intro H; injection H as <- <-; reflexivity|]. destruct (item_geometry _ _ get_geometry c it) as [[it1 g]|e] eqn:E; [|discriminate]. cbn. intro H. injection H as <- <-. cbn. apply (geometry_user _ _ _ _ E).
Qed.
Lemma update_loop_same l : forall s, same s (fst (update_loop _ _ get_geometry geometry_box l s)).
Proof.
  induction l as [|id l IH]; intro s; [apply same_refl|]. cbn [update_loop]. destruct (dict_get (items s) id) as [it|] eqn:G; [|apply same_refl]. destruct (i_dirty _ _ it); [|apply IH].
  unfold update_item. destruct (item_box _ _ get_geometry geometry_box (s_coordinates _ _ s) it) as [[it' b]|e] eqn:E; [|split; reflexivity]. eapply same_trans; [|apply IH]. split; [|reflexivity].
  cbn [s_items]. apply (set_tag _ _ it); [exact G|apply (box_user _ _ _ _ E)].
Qed.
Lemma at_loop_users l : forall s p r, same s (fst (at_loop _ _ get_geometry geometry_distance s p r l)).
Proof.
  induction l as [|id l IH]; intros s p r; [apply same_refl|]. cbn [at_loop]. destruct (dict_get (items s) id) as [it|] eqn:G; [|apply same_refl].
  destruct (item_geometry _ _ get_geometry (s_coordinates _ _ s) it) as [[it' g]|e] eqn:E.
  - assert (S1 : same s (with_items _ _ s (dict_set (items s) id it'))) by (apply (set_same_tags s id it); [exact G|apply (geometry_user _ _ _ _ E)]). specialize (IH (with_items _ _ s (dict_set (items s) id it')) p r).
    destruct (geometry_distance g p) as [[d|]|e].
    + destruct (at_loop _ _ get_geometry geometry_distance _ p r l) as [s' m]. eapply same_trans; eassumption.
    + eapply same_trans; eassumption.
    + destruct e; try exact S1. eapply same_trans; eassumption.
  - destruct e; try apply same_refl. apply IH.
Qed.
Lemma step_same s o : match o with AddItem _ _ _ => True | _ => same s (step s o) end.
Proof.
  destruct o; cbn [ModelScene.step]; trivial; try apply same_refl; try (apply on_item_same; intro it; try reflexivity).
  - split; reflexivity.
  - unfold remove_coordinate. destruct (lookup _ _); split; reflexivity.
  - destruct b; reflexivity.
  - destruct (item_geometry _ _ get_geometry (s_coordinates _ _ s) it) as [[it' g]|e] eqn:E; [apply (geometry_user _ _ _ _ E)|reflexivity].
  - destruct (item_box _ _ get_geometry geometry_box (s_coordinates _ _ s) it) as [[it' g]|e] eqn:E; [apply (box_user _ _ _ _ E)|reflexivity].
  - apply update_loop_same.
  - unfold item_at. pose proof (at_loop_users (item_in_bounding_box _ _ arrange s (square p radius)) s p radius) as H. destruct (at_loop _ _ _ _ s p radius _). exact H.
Qed.
Definition having (u : nat) (l : list (nat * option nat)) : list nat := map fst (filter (fun p => match snd p with Some v => Nat.eqb v u | None => false end) l).
Definition mapped (s : scene) : Prop := forall u, dict_get (users s) u = match having u (map tag (items s)) with [] => None | l => Some l end.
Lemma having_app u l m : having u (l ++ m) = having u l ++ having u m.
Proof. unfold having. rewrite filter_app, map_app. reflexivity. Qed.
Lemma step_mapped s o : mapped s -> mapped (step s o).
Proof.
  intro M. pose proof (step_same s o) as H. destruct o as [sh w| | | | | | | | | | |]; try (destruct H as (H1 & H2); intro u; rewrite H1, H2; apply M). clear H. intro u.
  cbn [ModelScene.step add_item s_users s_items]. rewrite map_app, having_app. cbn [map]. unfold tag at 2. cbn [fst snd new_item i_user_data]. destruct w as [w|].
  - rewrite get_set. unfold having at 2. cbn [filter snd map fst]. destruct (Nat.eqb_spec w u) as [->|N].
    + rewrite M. destruct (having u (map tag (items s))); reflexivity.
    + rewrite M, app_nil_r. reflexivity.
  - unfold having at 2. cbn [filter snd map]. rewrite app_nil_r. apply M.
Qed.
Lemma run_mapped l : forall s, mapped s -> mapped (run s l).
Proof. induction l as [|o l IH]; intros s M; [exact M|]. cbn. apply IH, step_mapped, M. Qed.
Lemma having_items u (l : list (nat * item)) : having u (map tag l) = map fst (filter (fun p => match i_user_data _ _ (snd p) with Some v => Nat.eqb v u | None => false end) l).
Proof.
  unfold having. induction l as [|[i it] l IH]; [reflexivity|]. cbn [map filter tag fst snd]. destruct (i_user_data _ _ it) as [v|]; [|exact IH]. destruct (v =? u); cbn [map fst]; rewrite IH; reflexivity.
Qed.
Lemma user_ok l u : let s := run (new_scene _ _) l in
  item_for_user_data _ _ s u = match map fst (filter (fun p => match i_user_data _ _ (snd p) with Some v => Nat.eqb v u | None => false end) (items s)) with [] => None | ids => Some ids end.
Proof. cbv zeta. unfold item_for_user_data. rewrite (run_mapped l (new_scene _ _)); [rewrite having_items; reflexivity|]. intro v. reflexivity. Qed.

(** ** Selection *)
Lemma unselect_ok (s : scene) : selected_items _ _ (unselect_items _ _ s) = [] /\
  map (fun p => (fst p, i_shape _ _ (snd p), i_z_value _ _ (snd p), i_visible _ _ (snd p))) (items (unselect_items _ _ s)) = map (fun p => (fst p, i_shape _ _ (snd p), i_z_value _ _ (snd p), i_visible _ _ (snd p))) (items s).
Proof.
  unfold selected_items, unselect_items. cbn [s_items with_items]. split; induction (items s) as [|[i it] l IH]; [reflexivity| |reflexivity|]; cbn [map filter fst snd].
  - destruct (i_selected _ _ it) eqn:E; cbn [set_selected i_selected]; rewrite ?E; exact IH.
  - f_equal; [|exact IH]. destruct (i_selected _ _ it); reflexivity.
Qed.
Lemma selected_ok (s : scene) id : NoDup (map fst (items s)) -> (In id (selected_items _ _ s) <-> exists it, dict_get (items s) id = Some it /\ i_selected _ _ it = true).
Proof.
  intro N. unfold selected_items. rewrite in_map_iff. split.
  - intros ([i it] & <- & H). apply filter_In in H as (H & E). exists it. split; [apply in_get; assumption|exact E].
  - intros (it & G & E). exists (id, it). split; [reflexivity|]. apply filter_In. split; [apply get_in, G|exact E].
Qed.

(** ** What is not in the index is not found *)
Lemma at_loop_ids l : forall s p r m, snd (at_loop _ _ get_geometry geometry_distance s p r l) = Ok m -> forall d id, In (d, id) m -> In id l.
Proof.
  induction l as [|i l IH]; intros s p r m; [cbn; intro H; injection H as <-; intros d id []|]. cbn [at_loop]. destruct (dict_get (items s) i) as [it|]; [|discriminate].
  destruct (item_geometry _ _ get_geometry (s_coordinates _ _ s) it) as [[it' g]|e].
  - destruct (geometry_distance g p) as [[d'|]|e].
    + specialize (IH (with_items _ _ s (dict_set (items s) i it')) p r). destruct (at_loop _ _ _ _ _ p r l) as [s' [m'|e]]; [|discriminate]. cbn in *. intro H. injection H as <-. intros d id I.
      destruct (Rleb d' r); [destruct I as [I|I]; [injection I as <- <-; left; reflexivity|]|]; right; apply (IH m' eq_refl d id I).
    + intros H d id I. right. apply (IH _ _ _ _ H d id I).
    + destruct e; try discriminate. intros H d id I. right. apply (IH _ _ _ _ H d id I).
  - destruct e; try discriminate. intros H d id I. right. apply (IH _ _ _ _ H d id I).
Qed.
Lemma unindexed_missed (s : scene) p r l id : (forall l, Permutation (arrange l) l) -> entries (s_index _ _ s) id = [] -> snd (item_at _ _ get_geometry geometry_distance arrange s p r) = Ok l -> ~ In id (map snd l).
Proof.
  intros P E H I. unfold item_at in H. destruct (at_loop _ _ _ _ s p r _) as [s' [m|e]] eqn:A; [|discriminate]. cbn in H. injection H as <-. apply in_map_iff in I as ([d i] & X & I). cbn in X. subst i. apply sort_in in I.
  assert (Q : In id (item_in_bounding_box _ _ arrange s (square p r))) by (apply (at_loop_ids _ s p r m) with (d := d); [rewrite A; reflexivity|exact I]).
  unfold item_in_bounding_box, intersection in Q. apply (Permutation_in _ (P _)) in Q. apply in_map_iff in Q as ([i b] & X & Q). cbn in X. subst i. apply filter_In in Q as (Q & _).
  unfold entries in E. assert (In b []); [|contradiction]. rewrite <- E. apply in_map_iff. exists (id, b). split; [reflexivity|]. apply filter_In. split; [exact Q|]. cbn. apply Nat.eqb_refl.
Qed.
Lemma read_missed (h : list (op shape)) sh u g s p r l : (forall l, Permutation (arrange l) l) -> let s0 := run (new_scene _ _) h in
  get_geometry (s_coordinates _ _ s0) sh = Ok g ->
  update_rtree _ _ get_geometry geometry_box (run s0 [AddItem shape sh u; ReadGeometry shape (s_next _ _ s0)]) = (s, None) ->
  snd (item_at _ _ get_geometry geometry_distance arrange s p r) = Ok l -> dict_get (items s) (s_next _ _ s0) <> None /\ ~ In (s_next _ _ s0) (map snd l).
Proof.
  intros P s0 G U H. destruct (read_lost _ _ get_geometry geometry_box geometry_distance arrange s0 sh u g s (run_wf _ _ _ _ _ _ h _ (new_wf _ _)) G U) as (A & B). split; [exact A|]. apply (unindexed_missed s p r l _ P B H).
Qed.

(** ** Painters *)
Section Painters.
Variable out : Type.
Variable kind_of : item -> kind.
Variable draw : item -> out.
Lemma painter_loop p (l : list (nat * item)) ids : (forall id, In id ids -> exists it, dict_get l id = Some it) ->
  let r := paint_loop _ _ out (painter_method kind_of draw p) l ids in
  (snd r = None <-> forall id it, In id ids -> dict_get l id = Some it -> own_method p (kind_of it) = true) /\
  (snd r = None \/ snd r = Some NotImplementedError).
Proof.
  induction ids as [|id ids IH]; intro H; cbv zeta; [split; [split; [intros _ id it []|reflexivity]|left; reflexivity]|]. destruct (IH (fun i I => H i (or_intror I))) as (A & B). cbv zeta in A, B.
  cbn [paint_loop]. destruct (H id (or_introl eq_refl)) as (it & G). rewrite G. unfold painter_method at 1 3 5. destruct (own_method p (kind_of it)) eqn:M.
  - destruct (paint_loop _ _ out _ l ids) as [os e]. cbn [snd] in *. split; [|exact B]. rewrite A. split; [|intros Q j jt J; apply Q; right; exact J]. intros Q j jt [<-|J] Gj; [rewrite G in Gj; injection Gj as <-; exact M|apply (Q j jt J Gj)].
  - destruct (base_method (kind_of it)); cbn [snd]; (split; [split; [discriminate|intro Q; specialize (Q id it (or_introl eq_refl) G); congruence]|right; reflexivity]).
Qed.
Lemma painter_ok p (s : scene) : NoDup (map fst (items s)) ->
  (snd (paint _ _ out (painter_method kind_of draw p) s) = None <-> forall id it, dict_get (items s) id = Some it -> i_visible _ _ it = true -> own_method p (kind_of it) = true).
Proof.
  intro N. assert (Q : forall id, In id (z_value_iter _ _ s) <-> exists it, dict_get (items s) id = Some it /\ i_visible _ _ it = true).
  { intro id. split.
    - intro I. apply (Permutation_in _ (once_ok _ _ s N)) in I. apply in_map_iff in I as ([i it] & <- & I). apply filter_In in I as (I & V). exists it. split; [apply in_get; assumption|exact V].
    - intros (it & G & V). apply (Permutation_in _ (Permutation_sym (once_ok _ _ s N))). apply in_map_iff. exists (id, it). split; [reflexivity|]. apply filter_In. split; [apply get_in, G|exact V]. }
  unfold paint. destruct (painter_loop p (items s) (z_value_iter _ _ s)) as (A & _); [intros id I; apply Q in I as (it & G & _); exists it; exact G|]. cbv zeta in A. rewrite A. split.
  - intros H id it G V. apply (H id it); [apply Q; eauto|exact G].
  - intros H id it I G. apply Q in I as (jt & Gj & V). rewrite G in Gj. injection Gj as <-. apply (H id it G V).
Qed.
End Painters.
End Scene.

(** ** Segments *)
From Verif Require Import ModelTransformation SpecVector SpecLine ProofSegment.
Lemma dist_sym a b : dist a b = dist b a.
Proof. unfold dist. f_equal. ring. Qed.
Lemma segment_drawn : drawn segment segment_box segment_distance on_segment.
Proof.
  split.
  - intros s q (t & T & X & Y). unfold segment_box, bounding_box_from_points. cbn [bbox_loop bunion vbox iunion bx by_ inf sup].
    assert (A : forall a b u, (0 <= t <= 1 -> u = a + t * (b - a) -> Rmin a b <= u <= Rmax a b)%R).
    { intros a b u U E. unfold Rmin, Rmax. destruct (Rle_dec a b) as [L|L]; split; nra. }
    split; cbn [bx by_ bunion iunion inf sup vbox]; apply A; assumption.
  - intros s p d. unfold segment_distance. destruct (segment_distance_ok s p) as (m & -> & (q & Q & D) & _). cbn. intro H. injection H as <-. exists q. split; [exact Q|]. rewrite dist_sym. symmetry. exact D.
Qed.
Lemma segment_at t s p id d : at_distance _ _ (segment_geometry t) segment_distance s p id d <->
  exists it g, dict_get (s_items segment_shape segment s) id = Some it /\ segment_geometry t (s_coordinates _ _ s) (i_shape _ _ it) = Ok g /\ min_distance (on_segment g) p d.
Proof.
  split; intros (it & g & G & E & D); exists it, g; repeat split; try assumption; unfold segment_distance in *; destruct (segment_distance_ok g p) as (m & M & (q & Q & L) & B); rewrite M in *; cbn in *.
  - injection D as <-. exists q. auto.
  - injection D as <-. exact B.
  - f_equal. f_equal. destruct D as ((q' & Q' & L') & B'). apply Rle_antisym; [rewrite <- L'; apply B, Q'|rewrite <- L; apply B', Q].
Qed.
Lemma segment_returns s p : exists o, segment_distance s p = Ok o.
Proof. unfold segment_distance. destruct (segment_distance_ok s p) as (m & -> & _). cbn. eauto. Qed.
Lemma segment_pick t arrange (P : forall l, Permutation (arrange l) l) h s p r :
  careful _ _ (segment_geometry t) segment_box segment_distance arrange (new_scene _ _) h ->
  update_rtree _ _ (segment_geometry t) segment_box (run _ _ (segment_geometry t) segment_box segment_distance arrange (new_scene _ _) h) = (s, None) ->
  exists l, item_at _ _ (segment_geometry t) segment_distance arrange s p r = (s, Ok l) /\ Sorted.StronglySorted (fun a b => fst a <= fst b)%R l /\ NoDup (map snd l) /\
  forall d id, In (d, id) l <-> (exists it g, dict_get (s_items _ _ s) id = Some it /\ segment_geometry t (s_coordinates _ _ s) (i_shape _ _ it) = Ok g /\ min_distance (on_segment g) p d) /\ (d <= r)%R.
Proof.
  intros C U. destruct (careful_pick _ _ (segment_geometry t) segment_box segment_distance arrange P on_segment segment_drawn h s p r C U) as (A & B & E).
  destruct B as (l & L); [intro g; left; apply segment_returns|]. destruct (A l L) as (A1 & A2 & A3). exists l. destruct (item_at _ _ _ _ _ s p r) as [s' r']. cbn in *. subst.
  split; [reflexivity|]. split; [exact A1|]. split; [exact A2|]. intros d id. rewrite A3, segment_at. reflexivity.
Qed.
