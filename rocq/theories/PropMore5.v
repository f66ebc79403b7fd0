(** More on the operations of vectors of three classes (C145), straight legs of DXF polylines (C95), new graphic items (C46), files of
    stitches (C142) and clones of B-splines (C99). *)
From Coq Require Import Reals Lra Lia List ZArith Bool Arith String.
From Verif Require Import Base ModelVector SpecVector ProofVector ModelTransformation ModelHomogeneous.
From Verif Require ModelDxf ModelScene ModelYaml ModelYamlData ModelPrimitive SpecPrimitive ModelFormula.
Import ListNotations.
Local Open Scope R_scope.

(** ** C145 *)
Definition no_weight (b : vobj) : Prop := forall w, v_class b <> CHomogeneous w.
(** The coordinates are subtracted; the class is that of the left operand, a weight becomes one. *)
Theorem C145_difference : forall a b, no_weight b -> exists s, osub a b = Ok s /\
  vx (v_xy s) = vx (v_xy a) - vx (v_xy b) /\ vy (v_xy s) = vy (v_xy a) - vy (v_xy b) /\
  match v_class a with CHomogeneous _ => v_class s = CHomogeneous 1 | c => v_class s = c end.
Proof.
  intros a [[]] N; cbn; try (destruct (N w eq_refl); fail); eexists; (split; [reflexivity|]); cbn; destruct (v_class a); auto.
Qed.
Print Assumptions C145_difference.
(** Adding in place keeps the class, and the weight if there is one. *)
Theorem C145_in_place : forall a b, no_weight b -> exists s, oiadd a b = Ok s /\
  vx (v_xy s) = vx (v_xy a) + vx (v_xy b) /\ vy (v_xy s) = vy (v_xy a) + vy (v_xy b) /\ v_class s = v_class a.
Proof.
  intros a [[]] N; cbn; try (destruct (N w eq_refl); fail); eexists; (split; [reflexivity|]); cbn; auto.
Qed.
Print Assumptions C145_in_place.
(** The products are those of the coordinates. *)
Theorem C145_products : forall a b, no_weight b ->
  odot a b = Ok (vx (v_xy a) * vx (v_xy b) + vy (v_xy a) * vy (v_xy b)) /\
  ocross a b = Ok (vx (v_xy a) * vy (v_xy b) - vy (v_xy a) * vx (v_xy b)).
Proof.
  intros a [[]] N; cbn; try (destruct (N w eq_refl); fail); split; reflexivity.
Qed.
Print Assumptions C145_products.
(** Two vectors are equal when their coordinates are and when both, with the same weight, or none is homogeneous. *)
Definition weight (o : vobj) : option R := match v_class o with CHomogeneous w => Some w | _ => None end.
Theorem C145_equal : forall a b, oeqb a b = true <-> v_xy a = v_xy b /\ weight a = weight b.
Proof.
  assert (E : forall x y, Reqb x y = true <-> x = y).
  { intros x y. destruct (Reqb_spec x y); split; intro; congruence. }
  intros [c [x y]] [d [x' y']]. unfold oeqb, weight, array. cbn [v_class v_xy vx vy].
  assert (Q : V x y = V x' y' <-> x = x' /\ y = y') by (split; [intros [= -> ->]; auto|intros [-> ->]; reflexivity]).
  destruct c as [| |w], d as [| |w']; cbn [array_equal]; rewrite Q, ?andb_true_iff, ?E.
  all: try (split; [intros (? & ? & ?)|intros ((? & ?) & ?)]; try discriminate; auto; fail).
  split; [intros (? & ? & -> & _); auto|intros ((? & ?) & [= ->]); auto].
Qed.
Print Assumptions C145_equal.
Example C145_equal_case : oeqb (VO CVector (V 1 2)) (VO CNormalised (V 1 2)) = true /\
  oeqb (VO (CHomogeneous 2) (V 1 2)) (VO (CHomogeneous 1) (V 1 2)) = false /\
  osub (VO (CHomogeneous 5) (V 3 4)) (VO CVector (V 1 1)) = Ok (VO (CHomogeneous 1) (V (3 - 1) (4 - 1))).
Proof.
  split; [apply C145_equal; split; reflexivity|]. split; [|reflexivity].
  destruct (oeqb _ _) eqn:Q; [|reflexivity]. apply C145_equal in Q. destruct Q as (_ & Q). cbn in Q. injection Q. lra.
Qed.

(** ** C95: a leg without bulge *)
Theorem C95_straight : forall p i v, ModelDxf.getitem p i = Ok v -> ModelDxf.v_bulge v = 0 ->
  ModelDxf.bulge_radius p i = Ok 0 /\ ModelDxf.sagitta_dual p i = Ok 0 /\ ModelDxf.angle p i = Ok 0 /\
  (forall w, ModelDxf.next p i = Ok (Some w) -> ModelDxf.sagitta p i = Ok 0).
Proof.
  intros p i v G B. assert (E : Reqb (ModelDxf.v_bulge v) 0 = true) by (rewrite B; destruct (Reqb_spec 0 0); congruence).
  unfold ModelDxf.bulge_radius, ModelDxf.sagitta_dual, ModelDxf.angle. rewrite G. cbn [bind]. rewrite E.
  do 3 (split; [reflexivity|]). intros w N. unfold ModelDxf.sagitta, ModelDxf.demi_chord, ModelDxf.segment_vector.
  rewrite G, N. cbn [bind]. rewrite B. f_equal. lra.
Qed.
Print Assumptions C95_straight.
Example C95_straight_case : exists v, ModelDxf.getitem (ModelDxf.Polyline false [ModelDxf.Vertex (V 0 0) 0; ModelDxf.Vertex (V 1 0) 1]) 0 = Ok v /\ ModelDxf.v_bulge v = 0.
Proof. eexists. split; reflexivity. Qed.

(** ** C46: an item which was just added is painted at height zero, above those at the same height and below, and is not selected *)
Section Scene.
Import ModelScene.
Variables shape geometry : Type.
Variable get_geometry : coordinates -> shape -> result geometry.
Theorem C46_new_item : forall (s : scene shape geometry) sh u, dict_get (s_items _ _ s) (s_next _ _ s) = None ->
  exists it, dict_get (s_items _ _ (add_item _ _ s sh u)) (s_next _ _ s) = Some it /\
    i_shape _ _ it = sh /\ i_user_data _ _ it = u /\ i_z_value _ _ it = 0 /\ i_visible _ _ it = true /\ i_selected _ _ it = false /\
    i_dirty _ _ it = true /\ i_geometry _ _ it = None /\ i_box _ _ it = None.
Proof.
  intros s sh u N. exists (new_item _ _ sh u). split; [|repeat split]. unfold add_item. cbn [s_items].
  induction (s_items _ _ s) as [|[k it] l IH]; cbn in *.
  - rewrite Nat.eqb_refl. reflexivity.
  - destruct (Nat.eqb k (s_next _ _ s)); [discriminate|]. apply IH, N.
Qed.
End Scene.
Print Assumptions C46_new_item.
Example C46_new_item_case : ModelScene.dict_get (ModelScene.s_items nat nat (ModelScene.new_scene nat nat)) (ModelScene.s_next _ _ (ModelScene.new_scene nat nat)) = None.
Proof. reflexivity. Qed.

(** ** C142: the files which are read to their end *)
Section Stitches.
Import ModelFormula ModelYaml.
Local Open Scope string_scope.
Definition has (v : yvalue) (name : string) : Prop := exists l x, v = YMap l /\ find_key l (KText (lit name)) = Some x.
Definition good_stitch (v : yvalue) : Prop := v = YNull \/ has v "name".
Definition good_class (c : yvalue) : Prop := has c "name" /\ has c "description" /\
  exists l m, c = YMap l /\ find_key l (KText (lit "stitches")) = Some (YMap m) /\ Forall (fun kv => good_stitch (snd kv)) m.
Definition good_file (d : yvalue) : Prop := has d "introduction" /\
  exists l m, d = YMap l /\ find_key l (KText (lit "classes")) = Some (YMap m) /\ Forall (fun kv => good_class (snd kv)) m.

Lemma item_has v name : is_ok (item v name) <-> has v name.
Proof.
  unfold is_ok, has, item. destruct v as [|q|q|q|l]; try (split; [intros [x H]; discriminate|intros (l' & x & H & _); discriminate]).
  destruct (find_key l (KText (lit name))) eqn:F; split; eauto; [intros [x H]; discriminate|].
  intros (l' & x & [= <-] & G). congruence.
Qed.
Lemma bind_ok {A B} (r : result A) (f : A -> result B) : is_ok (bind r f) <-> exists a, r = Ok a /\ is_ok (f a).
Proof.
  unfold is_ok. destruct r; cbn; split; [eauto|intros (a' & [= <-] & H); exact H|intros [x H]; discriminate|intros (a & H & _); discriminate].
Qed.
Lemma traverse_is_ok {A B} (f : A -> result B) l : is_ok (traverse f l) <-> Forall (fun a => is_ok (f a)) l.
Proof.
  induction l as [|a l IH]; cbn.
  - split; [constructor|intros _; exists []; reflexivity].
  - split.
    + intro H. apply bind_ok in H. destruct H as (b & Hb & H). apply bind_ok in H. destruct H as (bs & Hl & _).
      constructor; [exists b; exact Hb|]. apply IH. exists bs. exact Hl.
    + intro H. inversion H as [|? ? [b Hb] Hl E]; subst. apply IH in Hl. destruct Hl as (bs & Hl). rewrite Hb, Hl. cbn. eexists. reflexivity.
Qed.
Lemma ignore {A} (r : result A) : is_ok (bind r (fun _ => Ok tt)) <-> is_ok r.
Proof. rewrite bind_ok. split; [intros (a & H & _); exists a; exact H|intros (a & H); exists a; split; [exact H|exists tt; reflexivity]]. Qed.
Lemma stitch_ok v : is_ok (read_stitch v) <-> good_stitch v.
Proof.
  unfold read_stitch, good_stitch. destruct v as [|q|q|q|l]; try (split; [intros [x H]; discriminate|intros [H|(l' & x & H & _)]; discriminate]).
  - split; [auto|intros _; exists tt; reflexivity].
  - rewrite bind_ok. split.
    + intros (a & H & _). right. apply item_has. exists a. exact H.
    + intros [H|H]; [discriminate|]. apply item_has in H. destruct H as (a & H). exists a. split; [exact H|]. cbn. exists tt. reflexivity.
Qed.
Lemma sub_items (v : yvalue) name : is_ok (bind (item v name) items) -> exists l m, v = YMap l /\ find_key l (KText (lit name)) = Some (YMap m) /\ bind (item v name) items = Ok m.
Proof.
  intros [m H]. destruct v as [|q|q|q|l]; try discriminate. cbn [item] in *.
  destruct (find_key l (KText (lit name))) as [v|] eqn:F; [|discriminate]. destruct v as [|q|q|q|m']; try discriminate.
  exists l, m'. repeat split. exact F.
Qed.
Lemma class_ok c : is_ok (read_class c) <-> good_class c.
Proof.
  unfold read_class, good_class. rewrite bind_ok. split.
  - intros (a & Ha & H). apply bind_ok in H. destruct H as (b & Hb & H). apply bind_ok in H. destruct H as (m & Hm & H).
    split; [apply item_has; exists a; exact Ha|]. split; [apply item_has; exists b; exact Hb|].
    destruct (sub_items c "stitches" (ex_intro _ m Hm)) as (l & m' & E & F & G).
    assert (M : m' = m) by (pose proof (eq_trans (eq_sym G) Hm) as X; congruence). subst m.
    exists l, m'. split; [exact E|]. split; [exact F|]. rewrite ignore in H. apply traverse_is_ok in H.
    eapply Forall_impl; [|exact H]. intros kv. apply stitch_ok.
  - intros (Ha & Hb & l & m & E & F & H). apply item_has in Ha, Hb. destruct Ha as (a & Ha), Hb as (b & Hb). exists a. split; [exact Ha|].
    rewrite Hb. cbn [bind]. rewrite bind_ok. exists m. split; [subst c; cbn; cbn in F; rewrite F; reflexivity|].
    apply ignore, traverse_is_ok. eapply Forall_impl; [|exact H]. intros kv. apply stitch_ok.
Qed.
Theorem C142_accepted : forall db data, is_ok (snd (load_stitches db data)) <-> good_file data.
Proof.
  intros db data. unfold load_stitches, good_file. cbn [snd]. rewrite bind_ok. split.
  - intros (a & Ha & H). apply bind_ok in H. destruct H as (b & Hb & H). apply bind_ok in H. destruct H as (m & Hm & H).
    split; [apply item_has; exists a; exact Ha|].
    assert (G : bind (item data "classes") items = Ok m) by (rewrite Hb; exact Hm).
    destruct (sub_items data "classes" (ex_intro _ m G)) as (l & m' & E & F & G'). rewrite G' in G. injection G as <-.
    exists l, m'. split; [exact E|]. split; [exact F|]. rewrite ignore in H. apply traverse_is_ok in H.
    eapply Forall_impl; [|exact H]. intros kv. apply class_ok.
  - intros (Ha & l & m & E & F & H). apply item_has in Ha. destruct Ha as (a & Ha). exists a. split; [exact Ha|].
    rewrite bind_ok. exists (YMap m). split; [subst data; cbn; cbn in F; rewrite F; reflexivity|].
    cbn [items bind]. apply ignore, traverse_is_ok. eapply Forall_impl; [|exact H]. intros kv. apply class_ok.
Qed.
End Stitches.
Print Assumptions C142_accepted.

(** ** C99: a clone of a B-spline never succeeds; which error is raised depends on the number of points *)
Theorem C99_clone_error_refuted : forall s i d l, SpecPrimitive.has_points s i (ModelPrimitive.CBSpline d) l ->
  (2 <= List.length l <= 4 -> ModelPrimitive.clone i s = Raise ValueError)%nat /\
  (~ (2 <= List.length l <= 4) -> ModelPrimitive.clone i s = Raise TypeError)%nat.
Proof.
  intros s i d l (p & E & C & L). unfold ModelPrimitive.clone, ModelPrimitive.get. rewrite E. cbn [bind]. rewrite C.
  assert (Q : List.length (ModelPrimitive.p_cells p) = List.length l) by (rewrite L, map_length; reflexivity).
  rewrite Q. destruct (Nat.ltb_spec (List.length l) 2), (Nat.ltb_spec 4 (List.length l)); cbn [orb]; split; intro; try reflexivity; lia.
Qed.
Print Assumptions C99_clone_error_refuted.
