(** Proofs about the grid, and what can go wrong with a viewport. *)
From Coq Require Import Reals List ZArith Bool Lra Lia FinFun.
From Verif Require Import Base ModelVector ModelLine.
From Verif Require Import ModelViewport SpecViewport ProofViewport.
Import ListNotations.
Local Open Scope R_scope.

Lemma floor_spec x : IZR (floor x) <= x < IZR (floor x) + 1.
Proof. unfold floor. pose proof (base_Int_part x). lra. Qed.

Lemma floor_unique x z : IZR z <= x < IZR z + 1 -> floor x = z.
Proof.
  intros H. pose proof (floor_spec x).
  assert ((floor x < z + 1)%Z) by (apply lt_IZR; rewrite plus_IZR; lra).
  assert ((z < floor x + 1)%Z) by (apply lt_IZR; rewrite plus_IZR; lra). lia.
Qed.

Lemma in_zrange z a b : In z (zrange a b) <-> (a <= z < b)%Z.
Proof.
  unfold zrange. rewrite in_map_iff. split.
  - intros (k&<-&H). apply in_seq in H. lia.
  - intros H. exists (Z.to_nat (z - a)). split; [lia|]. apply in_seq. lia.
Qed.

Lemma nodup_zrange a b : NoDup (zrange a b).
Proof.
  unfold zrange. apply FinFun.Injective_map_NoDup; [|apply seq_NoDup]. intros x y. lia.
Qed.

Definition line (yinf ysup : R) (is_x : bool) (step i : Z) : vec * vec :=
  let x := IZR (i * step) in if is_x then (V x yinf, V x ysup) else (V yinf x, V ysup x).

Lemma axis_grid_map xinf xsup yinf ysup is_x step : axis_grid xinf xsup yinf ysup is_x step =
  map (line yinf ysup is_x step)
    (filter (fun i => Rleb xinf (IZR (i * step)) && Rleb (IZR (i * step)) xsup)
            (zrange (floor (xinf / IZR step)) (floor (xsup / IZR step) + 1))).
Proof.
  unfold axis_grid. generalize (zrange (floor (xinf / IZR step)) (floor (xsup / IZR step) + 1)).
  induction l as [|i l IH]; auto. cbn [flat_map filter]. rewrite IH.
  destruct (Rleb xinf (IZR (i * step)) && Rleb (IZR (i * step)) xsup); reflexivity.
Qed.

Lemma line_inj yinf ysup is_x step i j : (0 < step)%Z -> line yinf ysup is_x step i = line yinf ysup is_x step j -> i = j.
Proof.
  intros S H. unfold line in H. assert (E : IZR (i * step) = IZR (j * step)) by (destruct is_x; injection H; auto).
  apply eq_IZR in E. nia.
Qed.

Lemma Rleb_iff a b : Rleb a b = true <-> a <= b.
Proof. unfold Rleb. destruct (Rle_dec a b); split; auto; discriminate. Qed.

Lemma filter_nodup A (f : A -> bool) l : NoDup l -> NoDup (filter f l).
Proof.
  induction 1; simpl; [constructor|]. destruct (f x); auto. constructor; auto. rewrite filter_In. tauto.
Qed.

Theorem axis_grid_exact : forall xinf xsup yinf ysup is_x step, (0 < step)%Z ->
  NoDup (axis_grid xinf xsup yinf ysup is_x step) /\
  forall a b, In (a, b) (axis_grid xinf xsup yinf ysup is_x step) <->
    exists i, xinf <= IZR (i * step) <= xsup /\
      if is_x then a = V (IZR (i * step)) yinf /\ b = V (IZR (i * step)) ysup
      else a = V yinf (IZR (i * step)) /\ b = V ysup (IZR (i * step)).
Proof.
  intros xinf xsup yinf ysup is_x step S. rewrite axis_grid_map. split.
  - set (l := filter _ _). assert (N : NoDup l) by (apply filter_nodup, nodup_zrange).
    clearbody l. induction N as [|i l NI N IH]; simpl; constructor; auto.
    intros H. apply in_map_iff in H as (j&E&H). apply line_inj in E; auto. now subst.
  - assert (K : 0 < IZR step) by (now apply IZR_lt).
    intros a b. rewrite in_map_iff. split.
    + intros (i&E&H). apply filter_In in H as [_ H]. apply andb_prop in H as [H1 H2]. apply Rleb_iff in H1, H2.
      exists i. split; [lra|]. unfold line in E. destruct is_x; injection E as <- <-; auto.
    + intros (i&H&E). exists i. split.
      { unfold line. destruct is_x; destruct E as [-> ->]; auto. }
      apply filter_In. split.
      * apply in_zrange. rewrite mult_IZR in H.
        pose proof (floor_spec (xinf / IZR step)) as F1. pose proof (floor_spec (xsup / IZR step)) as F2.
        assert (G1 : xinf / IZR step <= IZR i) by (apply Rmult_le_reg_r with (IZR step); auto; unfold Rdiv; rewrite Rmult_assoc, Rinv_l by lra; lra).
        assert (G2 : IZR i <= xsup / IZR step) by (apply Rmult_le_reg_r with (IZR step); auto; unfold Rdiv; rewrite Rmult_assoc, Rinv_l by lra; lra).
        split; [apply le_IZR; lra | apply lt_IZR; rewrite plus_IZR; lra].
      * apply andb_true_intro. split; apply Rleb_iff; lra.
Qed.

(** ** The steps *)

Lemma ln10 : 0 < ln 10.
Proof. rewrite <- ln_1. apply ln_increasing; lra. Qed.

Lemma pow10 n : exp (INR n * ln 10) = IZR (10 ^ Z.of_nat n).
Proof.
  change (exp (INR n * ln 10)) with (Rpower 10 (INR n)). rewrite Rpower_pow by lra. now rewrite pow_IZR.
Qed.

Theorem grid_steps : forall length, 0 < length -> exists n, (1 <= n)%nat /\ grid_step length = Ok (10 ^ Z.of_nat n)%Z /\
  small_step (10 ^ Z.of_nat n) = (10 ^ Z.of_nat (n - 1))%Z /\
  length < 10 * IZR (10 ^ Z.of_nat n) /\ (IZR (10 ^ Z.of_nat n) <= length \/ n = 1%nat).
Proof.
  intros L HL. pose proof ln10 as P.
  assert (SM : forall n, (1 <= n)%nat -> small_step (10 ^ Z.of_nat n) = (10 ^ Z.of_nat (n - 1))%Z).
  { intros n Hn. unfold small_step. replace n with (S (n - 1)) at 1 by lia.
    rewrite Nat2Z.inj_succ, Z.pow_succ_r by lia. rewrite Z.mul_comm. now apply Z.div_mul. }
  assert (E : L = exp (ln L / ln 10 * ln 10)).
  { unfold Rdiv. rewrite Rmult_assoc, Rinv_l by lra. rewrite Rmult_1_r. now rewrite exp_ln. }
  set (x := ln L / ln 10) in *.
  assert (G : grid_step L = Ok (if (trunc x <? 0)%Z then 10%Z else Z.max (10 ^ trunc x) 10)).
  { unfold grid_step, Rltb. destruct (Rlt_dec 0 L); [reflexivity | lra]. }
  destruct (Rlt_le_dec x 1) as [X1|X1].
  - exists 1%nat. split; [lia|]. split; [|split; [apply SM; lia|split; [|auto]]].
    + rewrite G. f_equal. change (10 ^ Z.of_nat 1)%Z with 10%Z.
      destruct (Z.ltb_spec (trunc x) 0) as [|T]; auto.
      assert (T0 : (trunc x <= 0)%Z).
      { unfold trunc, Rltb. pose proof (base_Int_part x) as B1. pose proof (base_Int_part (- x)) as B2.
        destruct (Rlt_dec x 0).
        - assert (-1 < Int_part (- x))%Z by (apply lt_IZR; simpl; lra). lia.
        - assert (Int_part x < 1)%Z by (apply lt_IZR; simpl; lra). lia. }
      replace (trunc x) with 0%Z by lia. reflexivity.
    + change (IZR (10 ^ Z.of_nat 1)) with 10. rewrite E. apply Rlt_trans with (exp (1 * ln 10)).
      * apply exp_increasing. apply Rmult_lt_compat_r; lra.
      * rewrite Rmult_1_l, exp_ln; lra.
  - assert (T : trunc x = Int_part x) by (unfold trunc, Rltb; destruct (Rlt_dec x 0); [lra | auto]).
    pose proof (base_Int_part x) as B1.
    assert (I1 : (1 <= Int_part x)%Z).
    { assert (0 < Int_part x)%Z by (apply lt_IZR; simpl; lra). lia. }
    set (n := Z.to_nat (Int_part x)).
    assert (Hn : Z.of_nat n = Int_part x) by (unfold n; lia).
    assert (In : INR n = IZR (Int_part x)) by (rewrite INR_IZR_INZ, Hn; auto).
    exists n. split; [lia|]. split; [|split; [apply SM; lia|split]].
    + rewrite G, T. f_equal. destruct (Z.ltb_spec (Int_part x) 0); [lia|]. rewrite Hn. apply Z.max_l.
      replace 10%Z with (10 ^ 1)%Z at 1 by reflexivity. apply Z.pow_le_mono_r; lia.
    + replace (10 * IZR (10 ^ Z.of_nat n)) with (exp (INR (S n) * ln 10)).
      * rewrite E. apply exp_increasing. apply Rmult_lt_compat_r; auto. rewrite S_INR. lra.
      * rewrite pow10, Nat2Z.inj_succ, Z.pow_succ_r, mult_IZR by lia. ring.
    + left. rewrite <- pow10, E. destruct (Rle_lt_or_eq_dec (INR n) x) as [Q|Q]; [lra| |].
      * left. apply exp_increasing. apply Rmult_lt_compat_r; auto.
      * right. now rewrite Q.
Qed.

(** ** What goes wrong *)

Definition square_scene : scene := Scene (Some (Box (Itv 0 10) (Itv 0 10))) false.

Theorem zoom_zero : exists l, let v := fst (ModelViewport.zoom_at (V 5 5) 0 (history l)) in
  snd (ModelViewport.zoom_at (V 5 5) 0 (history l)) = Raise ZeroDivisionError /\
  sane_from new_viewport l /\ v_translation (history l) <> None /\ forall p, scene_to_viewport v p = Ok (V 0 0).
Proof.
  exists [Resize 100 100; SetScene square_scene; ZoomAt (V 5 5) 1]. cbn zeta.
  assert (S : sane_from new_viewport [Resize 100 100; SetScene square_scene; ZoomAt (V 5 5) 1]).
  { simpl. repeat split; try lra; try discriminate; injection H as <-; simpl; lra. }
  assert (Sh : shown (history [Resize 100 100; SetScene square_scene; ZoomAt (V 5 5) 1]) 100 100 1 (V 5 5)).
  { unfold history. simpl. 
    destruct (zoom_shown (fold_left step [Resize 100 100; SetScene square_scene] new_viewport) (V 5 5) 1 100 100); auto; try lra.
    apply (history_ok [Resize 100 100; SetScene square_scene]). simpl. repeat split; try lra; injection H as <-; simpl; lra. }
  set (v := history _) in *. destruct Sh as (Hs&Hk&Hc&Ht).
  assert (Z : ModelViewport.zoom_at (V 5 5) 0 v =
    (Viewport (v_scene v) (v_size v) 0 (Some (V 5 5)) (v_area v) (v_translation v), Raise ZeroDivisionError)).
  { unfold ModelViewport.zoom_at, update_viewport_area. cbn [v_size v_scale]. rewrite Hs.
    unfold Reqb. destruct (Req_EM_T 0 0); [reflexivity | congruence]. }
  rewrite Z. cbn [fst snd]. refine (conj eq_refl (conj S (conj Ht _))). intros p. unfold scene_to_viewport. cbn [v_translation v_scale].
  destruct (v_translation v) as [t|]; [|congruence]. f_equal. unfold vscale; cbn [vx vy]. f_equal; ring.
Qed.

Theorem point_scene : forall l p w h, v_size (history l) = Some (V w h) -> 0 < w -> 0 < h ->
  snd (item_set_scene (Scene (Some (Box (Itv (vx p) (vx p)) (Itv (vy p) (vy p)))) false) (history l)) = Raise NotANumber.
Proof.
  intros l p w h Hs W H. unfold item_set_scene, ModelViewport.set_scene, fit_scene. cbn [v_scene sc_box v_size].
  rewrite Hs. unfold compute_scale_to_fit_scene, box_size, axis_scale. cbn [vx vy bx by_ inf sup].
  unfold Reqb, Rltb. repeat (match goal with |- context [Req_EM_T ?a ?b] => destruct (Req_EM_T a b); [|exfalso; lra] end).
  destruct (Rlt_dec 0 w); [|lra]. destruct (Rlt_dec 0 h); [|lra]. reflexivity.
Qed.

Theorem no_box : forall v e, snd (item_set_scene (Scene None e) v) = Raise AttributeError.
Proof. reflexivity. Qed.

(** The window grows before there is a scene: the area is not updated. *)
Theorem early_zoom : exists l c q, v_size (history l) = Some (V 200 200) /\ v_center (history l) = Some c /\
  scene_to_viewport (history l) c = Ok q /\ q <> V 100 100.
Proof.
  exists [Resize 100 100; ZoomAt (V 0 0) 1; Resize 200 200], (V 0 0), (V 50 50).
  assert (E : exists a, history [Resize 100 100; ZoomAt (V 0 0) 1; Resize 200 200] =
    Viewport None (Some (V 200 200)) 1 (Some (V 0 0)) a (Some (V (- (0 - 100 / 2 * (1 / 1))) (- (0 + 100 / 2 * (1 / 1)))))).
  { unfold history. simpl. unfold step, ModelViewport.zoom_at, update_viewport_area, set_viewport_size.
    cbn [v_size v_scale v_center v_scene v_area v_translation fst]. rewrite Reqb_neq by lra.
    cbn [v_size v_scale v_center v_scene v_area v_translation fst]. eexists. reflexivity. }
  destruct E as [a ->]. split; [reflexivity|]. split; [reflexivity|]. split.
  - unfold scene_to_viewport. cbn [v_translation v_scale vscale vadd vx vy]. f_equal. f_equal; field.
  - intros H. injection H as H _. lra.
Qed.

Lemma both_axes b step : (0 < step)%Z -> forall p q,
  In (p, q) (axis_grid (inf (bx b)) (sup (bx b)) (inf (by_ b)) (sup (by_ b)) true step ++
             axis_grid (inf (by_ b)) (sup (by_ b)) (inf (bx b)) (sup (bx b)) false step) <-> grid_line b step p q.
Proof.
  intros S p q. rewrite in_app_iff.
  rewrite (proj2 (axis_grid_exact _ _ _ _ true step S) p q), (proj2 (axis_grid_exact _ _ _ _ false step S) p q).
  unfold grid_line. split.
  - intros [(i&H)|(i&H)]; exists i; [left|right]; tauto.
  - intros (i&[H|H]); [left|right]; exists i; tauto.
Qed.

Theorem whole_grid : forall b, inf (bx b) < sup (bx b) -> inf (by_ b) < sup (by_ b) -> exists n big small,
  paint_grid (Some b) = Ok (big, small) /\
  (forall p q, In (p, q) big <-> grid_line b (10 ^ Z.of_nat (S n)) p q) /\
  (forall p q, In (p, q) small <-> grid_line b (10 ^ Z.of_nat n) p q).
Proof.
  intros b X Y. unfold paint_grid.
  destruct (grid_steps (Rmin (sup (bx b) - inf (bx b)) (sup (by_ b) - inf (by_ b)))) as (m&M&->&Sm&_).
  { unfold Rmin. destruct (Rle_dec _ _); lra. }
  exists (m - 1)%nat. cbn [bind]. rewrite Sm. eexists _, _. split; [reflexivity|].
  replace (S (m - 1)) with m by lia.
  split; intros p q; apply both_axes; apply Z.pow_pos_nonneg; lia.
Qed.
