(** Proofs about the Qt painter. *)
From Coq Require Import Reals List ZArith Bool Lra Lia String Ascii.
From Flocq Require Import Core.
From Verif Require Import Base ModelFormula ModelMeasure ModelXml ModelVector ModelTransformation ModelLine ModelBezier.
From Verif Require ModelScene.
Import ModelScene(position, PVector, PName, PNumber, coordinates, cast_position).
From Verif Require Import ModelPainter SpecPainter ProofPainter.
Import ListNotations.
Local Open Scope R_scope.

Lemma truncate_sixteenth a n : a * 16 = IZR n -> truncate (a * 16) = n.
Proof. intros ->. apply Ztrunc_IZR. Qed.

Lemma Rleb_true x y : Rleb x y = true <-> x <= y.
Proof. unfold Rleb. destruct (Rle_dec x y); split; auto; discriminate. Qed.

Lemma arc_swept start stop v rx ry : arc_ok start stop ->
  forall y, inked (qt_arc v rx ry start stop) y <->
    exists a, swept start stop a /\ y = V (vx v + rx * degrees_cos a) (vy v - ry * degrees_sin a).
Proof.
  intros A y. unfold qt_arc. destruct (Rleb 360 (Rabs (stop - start))) eqn:E.
  - apply Rleb_true in E. simpl. split.
    + intros [a ->]. exists (- a). split; [now left|]. unfold degrees_cos, degrees_sin.
      replace (- a * PI / 180) with (- (a * PI / 180)) by field. rewrite cos_neg, sin_neg. f_equal. ring.
    + intros (a&_&->). exists (- a). unfold degrees_cos, degrees_sin.
      replace (- a * PI / 180) with (- (a * PI / 180)) by field. rewrite cos_neg, sin_neg. f_equal. ring.
  - assert (L : ~ 360 <= Rabs (stop - start)) by (rewrite <- Rleb_true, E; discriminate).
    destruct A as [A|[[m M] [n N]]]; [contradiction|].
    rewrite (truncate_sixteenth _ _ M), (truncate_sixteenth _ _ N). cbn zeta.
    assert (Hm : IZR m / 16 = start) by lra. assert (Hn : IZR n / 16 = stop) by lra.
    destruct (n - m <? 0)%Z eqn:S_; cbn [inked].
    + apply Z.ltb_lt in S_. assert (stop < start).
      { assert (IZR n < IZR m) by (apply IZR_lt; lia). lra. }
      assert (E1 : IZR (m + (5760 + (n - m))) / 16 = stop + 360).
      { replace (m + (5760 + (n - m)))%Z with (5760 + n)%Z by lia. rewrite plus_IZR. lra. }
      assert (start < stop + 360).
      { apply Rnot_le_lt in L. apply Rabs_def2 in L. lra. }
      split; intros (a&H1&->); exists a; (split; [|reflexivity]).
      * right. right. rewrite E1, Hm in H1. split; auto. lra.
      * rewrite E1, Hm. destruct H1 as [H1|[H1|[_ H1]]]; lra.
    + apply Z.ltb_ge in S_. assert (start <= stop).
      { assert (IZR m <= IZR n) by (apply IZR_le; lia). lra. }
      assert (E1 : IZR (m + (n - m)) / 16 = stop) by (replace (m + (n - m))%Z with n by lia; lra).
      split; intros (a&H1&->); exists a; (split; [|reflexivity]).
      * right. left. rewrite E1, Hm in H1. lra.
      * rewrite E1, Hm. destruct H1 as [H1|[H1|[H2 H1]]]; lra.
Qed.

Lemma trig_zero : degrees_cos 0 = 1 /\ degrees_sin 0 = 0.
Proof. unfold degrees_cos, degrees_sin. replace (0 * PI / 180) with 0 by field. now rewrite cos_0, sin_0. Qed.

Lemma qt_arc_no_text v rx ry start stop p s : qt_arc v rx ry start stop <> FText p s.
Proof. unfold qt_arc. destruct (Rleb _ _); discriminate. Qed.

(** A quadratic curve and its cubic one *)
Lemma quadratic_cubic p q r y :
  on_quadratic p q r y <-> on_cubic p (vadd (vscale p (1/3)) (vscale q (2/3))) (vadd (vscale q (2/3)) (vscale r (1/3))) r y.
Proof. split; intros (t&T&->); exists t; (split; [exact T|]); apply vec_eq; cbn; field. Qed.

(** The points of a path of lines *)
Definition first_position (x : part) : position := match x with LinearPart p | QuadraticPart p _ | CubicPart p _ _ => p end.

Section Chain.
Variable cast : position -> result vec.
Lemma chain_cons v w l x : on_chain (v :: w :: l) x <-> on_segment v w x \/ on_chain (w :: l) x.
Proof.
  split.
  - intros (i&p&q&P&Q&H). destruct i as [|i].
    + injection P as ->. injection Q as ->. now left.
    + right. exists i, p, q. auto.
  - intros [H|(i&p&q&P&Q&H)].
    + exists O, v, w. auto.
    + exists (S i), p, q. auto.
Qed.
Lemma chain_one v x : ~ on_chain [v] x.
Proof. intros (i&p&q&P&Q&H). destruct i; discriminate Q. Qed.
Lemma lines_cover l : (forall x, In x l -> exists p, x = LinearPart p) -> forall v m x,
  traverse cast (map first_position l) = Ok m -> (parts_cover cast v l x <-> on_chain (v :: m) x).
Proof.
  induction l as [|p l IH]; intros L v m x.
  - intros [= <-]. simpl. split; [tauto | apply chain_one].
  - destruct (L p (or_introl eq_refl)) as [q ->]. simpl. destruct (cast q) as [w|] eqn:E; [|discriminate]. simpl.
    destruct (traverse cast (map first_position l)) as [m1|] eqn:E1; [|discriminate]. simpl. intros [= <-].
    assert (I := fun w => IH (fun y H => L y (or_intror H)) w m1 x eq_refl).
    rewrite chain_cons, <- I. split.
    + intros (v'&[= <-]&H). exact H.
    + intros H. exists w. auto.
Qed.
End Chain.

Lemma Reqb_3 : Reqb 3 0 = false.
Proof. unfold Reqb. destruct (Req_EM_T 3 0); auto. lra. Qed.
Lemma f_equal4_vec p q r s p' q' r' s' y : p = p' -> q = q' -> r = r' -> s = s' -> on_cubic p q r s y = on_cubic p' q' r' s' y.
Proof. now intros -> -> -> ->. Qed.

Section Qt.
Variables style ink : Type.
Variable graphic_style : style -> result ink.
Variable t : transformation.
Variable c : coordinates.
Variables a k b : R.
Variable place : vec -> result vec.
Variable len : R -> R.
Hypothesis place_ok : forall v, place v = Ok (placed a k b (- k) v).
Hypothesis len_ok : forall x, len x = x * k.
Notation f := (placed a k b (- k)).

Lemma qt_place p : qt_cast t c place p = bind (cast_position t c p) (fun v => Ok (f v)).
Proof. unfold qt_cast. destruct (cast_position t c p); simpl; auto. Qed.

Lemma qt_lines l m : (forall x, In x l -> exists p, x = LinearPart p) -> qt_parts t c place l = Ok m ->
  exists m', traverse (cast_position t c) (map first_position l) = Ok m' /\ m = map f m'.
Proof.
  revert m. induction l as [|p l IH]; intros m L H.
  - injection H as <-. exists []. auto.
  - destruct (L p (or_introl eq_refl)) as [q ->]. simpl in *. rewrite qt_place in H.
    destruct (cast_position t c q) as [w|]; [|discriminate H]. simpl in *.
    destruct (qt_parts t c place l) as [m1|]; [|discriminate H]. injection H as <-.
    destruct (IH m1 (fun y H => L y (or_intror H)) eq_refl) as (m'&->&->). exists (w :: m'). auto.
Qed.

Lemma arc_depicted sh p rx ry start stop v i : arc_ok start stop -> cast_position t c p = Ok v ->
  sh = SEllipse p rx ry 0 start stop \/ (sh = SCircle p rx start stop /\ rx = ry) ->
  depicts f (cast_position t c) sh [(qt_arc (f v) (len rx) (len ry) start stop, Some i : option ink)].
Proof.
  intros A E Hs. apply depicts_one.
  - intros y. rewrite (arc_swept _ _ _ _ _ A).
    assert (C : forall x, covers (cast_position t c) sh x <-> exists al, swept start stop al /\
              x = V (vx v + rx * degrees_cos al) (vy v + ry * degrees_sin al)).
    { destruct Hs as [->|[-> <-]]; intros x; cbn [covers]; split.
      - intros (v'&al&H1&H2&->). rewrite E in H1. injection H1 as <-. exists al. split; auto.
        destruct trig_zero as [-> ->]. apply vec_eq; cbn; ring.
      - intros (al&H2&->). exists v, al. split; [auto|]. split; auto. destruct trig_zero as [-> ->]. apply vec_eq; cbn; ring.
      - intros (v'&al&H1&H2&->). rewrite E in H1. injection H1 as <-. exists al. auto.
      - intros (al&H2&->). exists v, al. auto. }
    split.
    + intros (al&H1&->). eexists. split; [apply C; exists al; split; [exact H1 | reflexivity]|].
      rewrite !len_ok. apply vec_eq; cbn; ring.
    + intros (x&H&->). apply C in H as (al&H1&->). exists al. split; auto. rewrite !len_ok. apply vec_eq; cbn; ring.
  - intros s. split; intros [q H].
    + exfalso. exact (qt_arc_no_text _ _ _ _ _ _ _ H).
    + exfalso. destruct Hs as [->|[-> _]]; discriminate H.
Qed.

Theorem qt_depicts s show sh m : qt_ok t sh ->
  match sh with SCubic _ _ _ _ | SQuadratic _ _ _ => show = false | _ => True end ->
  qt_item style ink graphic_style t c place len s show sh = Ok m ->
  depicts f (cast_position t c) sh m.
Proof.
  pose proof (place_inv t c _ _ _ _ _ qt_place) as P. intros B C H. destruct sh; try (exfalso; exact B); unfold qt_item, cast_all in H.
  - basic_case P. injection H as <-. now apply text_depicted.
  - basic_case P. apply drawn_inv in H as [i ->]. eapply arc_depicted; eauto.
  - basic_case P. apply drawn_inv in H as [i ->]. cbn in B. destruct B as [-> B]. eapply arc_depicted; eauto.
  - basic_case P. apply drawn_inv in H as [i ->]. now apply line_depicted.
  - apply bind_ok in H as (l1&H1&H). apply (place_list t c _ _ _ _ _ qt_place) in H1 as (m1&H1&->).
    destruct m1; [discriminate H|]. apply drawn_inv in H as [i ->]. now apply polyline_depicted.
  - apply bind_ok in H as (l1&H1&H). apply (place_list t c _ _ _ _ _ qt_place) in H1 as (m1&H1&->).
    apply drawn_inv in H as [i ->]. now apply polygon_depicted.
  - basic_case P. injection H as <-. now apply image_depicted.
  - subst show. basic_case P. unfold qt_cubic in H. apply bind_ok in H as (m1&H5&H). apply drawn_inv in H5 as [i ->].
    injection H as <-. now apply cubic_depicted.
  - subst show. cbn in B. unfold cubic_positions in H. apply bind_ok in H as (l1&H1&H). apply bind_ok in H1 as (l2&H1&H2).
    apply traverse3 in H1 as (v&w&x&E1&E2&E3&->). unfold to_cubic, vdiv in H2. rewrite Reqb_3 in H2. cbn [bind] in H2.
    injection H2 as <-. cbn [map c0 c1 c2 c3p q0 q1 q2] in H.
    apply bind_ok in H as (l1&H1&H). apply traverse4 in H1 as (p1&p2&p3&p4&H1&H2&H3&H4&->).
    rewrite qt_place in H1, H2, H3, H4. cbn [cast_position bind] in *. rewrite B in H1, H2, H3, H4.
    injection H1 as <-. injection H2 as <-. injection H3 as <-. injection H4 as <-.
    unfold qt_cubic in H. apply bind_ok in H as (m1&H5&H). apply drawn_inv in H5 as [i ->]. injection H as <-.
    apply depicts_one; [|no_text]. intros y. cbn [inked covers]. rewrite cubic_image. split.
    + intros (z&H&->). exists z. split; [|reflexivity]. exists v, w, x. repeat split; auto.
      apply quadratic_cubic. erewrite (f_equal4_vec _ _ _ _ _ _ _ _); [exact H | | | | ]; apply vec_eq; cbn; field.
    + intros (z&(v'&w'&x'&H1&H2&H3&H)&->). rewrite E1 in H1. rewrite E2 in H2. rewrite E3 in H3.
      injection H1 as <-. injection H2 as <-. injection H3 as <-. exists z. split; [|reflexivity].
      apply quadratic_cubic in H. erewrite (f_equal4_vec _ _ _ _ _ _ _ _); [exact H | | | | ]; apply vec_eq; cbn; field.
  - cbn in B. destruct B as [-> L]. apply bind_ok in H as (v1&H1&H). apply P in H1 as (v&E1&->).
    apply bind_ok in H as (m1&H1&H). apply (qt_lines _ _ L) in H1 as (m'&H1&->).
    apply drawn_inv in H as [i ->]. apply depicts_one; [|no_text]. intros y. cbn [inked covers].
    change (placed a k b (- k) v :: map f m') with (map f (v :: m')). rewrite chain_image. split.
    + intros (x&H&->). exists x. split; auto. exists v. split; auto. left. now apply (lines_cover _ _ L _ m').
    + intros (x&(v'&H2&[H|[H _]])&->); [|discriminate H]. rewrite E1 in H2. injection H2 as <-. exists x. split; auto.
      now apply (lines_cover _ _ L _ m') in H.
Qed.

(** Nothing is refused when the style and the positions are known. *)
Lemma known_cast l : Forall (fun p => is_ok (cast_position t c p)) l -> exists m, traverse (cast_position t c) l = Ok m /\ List.length m = List.length l.
Proof.
  induction 1 as [|p l [v E] _ (m&IH&L)]; [exists []; auto|]. exists (v :: m). simpl. rewrite E. simpl. rewrite IH. simpl. auto.
Qed.
Lemma drawn_ok s g i : graphic_style s = Ok i -> drawn style ink graphic_style s g = Ok [(g, Some i)].
Proof. unfold drawn. now intros ->. Qed.
Lemma parts_ok l : (forall x, In x l -> exists p, x = LinearPart p) -> forall m,
  traverse (cast_position t c) (map first_position l) = Ok m -> qt_parts t c place l = Ok (map f m).
Proof.
  induction l as [|p l IH]; intros L m.
  - intros [= <-]. auto.
  - destruct (L p (or_introl eq_refl)) as [q ->]. simpl. rewrite qt_place.
    destruct (cast_position t c q) as [w|]; [|discriminate]. simpl.
    destruct (traverse (cast_position t c) (map first_position l)) as [m1|]; [|discriminate]. simpl.
    intros [= <-]. now rewrite (IH (fun y H => L y (or_intror H)) m1 eq_refl).
Qed.

Theorem qt_defined s show sh i : qt_ok t sh -> graphic_style s = Ok i ->
  Forall (fun p => is_ok (cast_position t c p)) (positions sh) ->
  is_ok (qt_item style ink graphic_style t c place len s show sh).
Proof.
  intros B I F. assert (D := fun g => drawn_ok s g i I).
  pose proof (place_defined t c _ _ _ _ _ qt_place) as PD.
  apply known_cast in F as (m&E&N). destruct sh; cbn [positions] in *; try (exfalso; exact B); unfold qt_item, cast_all.
  all: try (rewrite (PD _ _ E)).
  - destruct m as [|v [|]]; try discriminate N. simpl in E. rewrite qt_place. destruct (cast_position t c p); [|discriminate E].
    eexists; reflexivity.
  - destruct m as [|v [|]]; try discriminate N. simpl in E. rewrite qt_place. destruct (cast_position t c p); [|discriminate E].
    simpl. rewrite D. eexists; reflexivity.
  - destruct m as [|v [|]]; try discriminate N. simpl in E. rewrite qt_place. destruct (cast_position t c p); [|discriminate E].
    simpl. rewrite D. eexists; reflexivity.
  - destruct m as [|v [|w [|]]]; try discriminate N. simpl. rewrite D. eexists; reflexivity.
  - destruct l; [contradiction B; reflexivity|]. destruct m; [discriminate N|]. cbn [bind map]. rewrite D. eexists; reflexivity.
  - cbn [bind]. rewrite D. eexists; reflexivity.
  - destruct m as [|v [|w [|]]]; try discriminate N. eexists; reflexivity.
  - destruct m as [|v [|w [|x [|y [|]]]]]; try discriminate N. cbn [bind map]. unfold qt_cubic. rewrite D. eexists; reflexivity.
  - destruct m as [|v [|w [|x [|]]]]; try discriminate N. unfold cubic_positions. rewrite E. cbn [bind]. unfold to_cubic, vdiv.
    rewrite Reqb_3. cbn [bind map c0 c1 c2 c3p q0 q1 q2]. cbn [traverse]. rewrite !qt_place. cbn [cast_position bind].
    unfold qt_cubic. rewrite D. eexists; reflexivity.
  - cbn in B. destruct B as [-> L].
    assert (Q : flat_map (fun x => match x with LinearPart p => [p] | QuadraticPart p q => [p; q] | CubicPart p q r => [p; q; r] end) l
                = map first_position l).
    { clear - L. induction l as [|x l IH]; auto. destruct (L x (or_introl eq_refl)) as [q ->]. simpl. f_equal.
      apply IH. intros y H. apply L. now right. }
    rewrite Q in E. simpl in E. rewrite qt_place. destruct (cast_position t c p) as [v|]; [|discriminate E]. simpl in *.
    destruct (traverse (cast_position t c) (map first_position l)) as [m1|] eqn:E1; [|discriminate E].
    rewrite (parts_ok _ L _ E1). simpl. rewrite D. eexists; reflexivity.
Qed.
End Qt.

From Verif Require ModelViewport.
Section Window.
Variables style ink : Type.
Variable graphic_style : style -> result ink.
Variable t : transformation.
Variable c : coordinates.
Variable v : ModelViewport.viewport.
Variable f : vec -> vec.
Hypothesis window : forall p, ModelViewport.scene_to_viewport v p = Ok (f p).

Lemma window_placed : exists a k b, (forall p, f p = placed a k b (- k) p) /\
  (forall x, ModelViewport.length_scene_to_viewport v x = x * k).
Proof.
  pose proof window as W. unfold ModelViewport.scene_to_viewport in W.
  destruct (ModelViewport.v_translation v) as [tr|]; [|discriminate (W (V 0 0))].
  exists (vx tr * ModelViewport.v_scale v), (ModelViewport.v_scale v), (- vy tr * ModelViewport.v_scale v). split.
  - intros p. specialize (W p). injection W as W. rewrite <- W. apply vec_eq; cbn; ring.
  - reflexivity.
Qed.
Theorem window_depicts s show sh m : qt_ok t sh ->
  match sh with SCubic _ _ _ _ | SQuadratic _ _ _ => show = false | _ => True end ->
  qt_item style ink graphic_style t c (ModelViewport.scene_to_viewport v) (ModelViewport.length_scene_to_viewport v) s show sh = Ok m ->
  depicts f (cast_position t c) sh m.
Proof.
  destruct window_placed as (a&k&b&F&L). intros Q S_ H.
  apply (qt_depicts _ _ _ _ _ a k b) in H; auto.
  - destruct H as [H1 H2]. split; auto. intros y. rewrite H1. split; intros (x&X&->); exists x; rewrite F; auto.
  - intros p. now rewrite window, F.
Qed.
Theorem window_defined s show sh i : qt_ok t sh -> graphic_style s = Ok i ->
  Forall (fun p => is_ok (cast_position t c p)) (positions sh) ->
  is_ok (qt_item style ink graphic_style t c (ModelViewport.scene_to_viewport v) (ModelViewport.length_scene_to_viewport v) s show sh).
Proof.
  destruct window_placed as (a&k&b&F&L). intros. eapply (qt_defined _ _ _ _ _ a k b); eauto.
  intros p. now rewrite window, F.
Qed.
End Window.
