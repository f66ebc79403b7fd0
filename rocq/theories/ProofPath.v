(** Paths: the points of the parts. *)
From Coq Require Import Reals List ZArith Bool Lia Lra.
From Verif Require Import Base ModelVector ModelTransformation ModelLine ModelBezier ModelConic ModelPath
  SpecVector SpecPath GluePath ProofVector ProofConic ProofConic3.
Import ListNotations.
Local Open Scope R_scope.

Definition stop_of (p : path) (j : nat) (r : result vec) : result vec :=
  match nth_error (parts p) j with Some q => part_stop q r | None => Ok (p0 p) end.
Lemma start_succ p j : start_point p (S j) = stop_of p j (start_point p j).
Proof. unfold stop_of. simpl. reflexivity. Qed.

Lemma start_rel p p' i : start_point p 0 = start_point p' 0 ->
  (forall j, (j < i)%nat -> forall r, stop_of p j r = stop_of p' j r) -> start_point p i = start_point p' i.
Proof.
  intros H0. induction i as [|i IH]; intros H; [exact H0|].
  rewrite !start_succ, IH by (intros; apply H; lia). apply H. lia.
Qed.

(** The first part is not rounded. *)
Definition open_start (p : path) : Prop := forall s c, nth_error (parts p) 0 = Some (Linear s c) -> start_bulge c = false.
Lemma start_open p : open_start p -> start_point p 0 = Ok (p0 p).
Proof.
  unfold open_start. simpl. destruct (parts p) as [|[s c| | | |] l]; simpl; intros H; try reflexivity.
  rewrite (H s c eq_refl). reflexivity.
Qed.

Lemma open_app p q : open_start p -> (forall s c, q = Linear s c -> start_bulge c = false) ->
  open_start (set_parts p (parts p ++ [q])).
Proof.
  unfold open_start. simpl. destruct (parts p) as [|x l]; simpl; intros H Hq s c E; [|exact (H s c E)].
  injection E as ->. exact (Hq _ _ eq_refl).
Qed.

Lemma start_app p q i : open_start p -> (forall s c, q = Linear s c -> start_bulge c = false) ->
  (i <= length (parts p))%nat -> start_point (set_parts p (parts p ++ [q])) i = start_point p i.
Proof.
  intros H Hq Hi. apply start_rel.
  - rewrite (start_open _ (open_app _ _ H Hq)), (start_open _ H). reflexivity.
  - intros j Hj r. unfold stop_of. simpl. rewrite nth_error_app1 by lia. reflexivity.
Qed.

Lemma stop_app p q i : open_start p -> (forall s c, q = Linear s c -> start_bulge c = false) ->
  (i < length (parts p))%nat -> stop_point (set_parts p (parts p ++ [q])) i = stop_point p i.
Proof.
  intros H Hq Hi. unfold stop_point. rewrite start_app by (auto; lia). simpl.
  rewrite nth_error_app1 by lia. reflexivity.
Qed.
Lemma stop_new p q : open_start p -> (forall s c, q = Linear s c -> start_bulge c = false) ->
  stop_point (set_parts p (parts p ++ [q])) (length (parts p)) = part_stop q (start_point p (length (parts p))).
Proof.
  intros H Hq. unfold stop_point. rewrite start_app by (auto; lia). simpl.
  rewrite nth_error_app2, Nat.sub_diag by lia. reflexivity.
Qed.

(** ** Drawing *)

(** What a command appends. *)
Definition appended (p : path) (c : command) : result part :=
  match c with
  | HorizontalTo l r true => linear_part p (PLine (V l 0) true) r false
  | HorizontalTo l r false => linear_part p (PDir 0 l) r false
  | VerticalTo l r true => linear_part p (PLine (V 0 l) true) r false
  | VerticalTo l r false => linear_part p (PDir 90 l) r false
  | AbsoluteHorizontalTo x r => linear_part p (PAbsX x) r false
  | AbsoluteVerticalTo y r => linear_part p (PAbsY y) r false
  | CompassTo c l r => linear_part p (PDir (compass_angle c) l) r false
  | LineTo q r absolute => linear_part p (PLine q absolute) r false
  | Close r cr => linear_part p (PLine (p0 p) true) r (match cr with Some _ => true | None => false end)
  | QuadraticTo a b absolute => Ok (PQuad a b absolute)
  | CubicTo a b c absolute => Ok (PCubic a b c absolute)
  | StringedQuadraticTo a absolute => Raise NameError
  | StringedCubicTo a b absolute => Ok (PStringed absolute)
  | ArcTo q rx ry angle large sweep absolute => Ok (PArc q rx ry angle large sweep absolute)
  end.
Definition is_close (c : command) : bool := match c with Close _ _ => true | _ => false end.

Lemma linear_part_eq p s r cl q : linear_part p s r cl = Ok q -> q = Linear s (plain (to_radius r) cl).
Proof.
  unfold linear_part. destruct (to_radius r); [|congruence].
  destruct (length (parts p)) as [|j]; [discriminate|]. destruct (is_linear _); congruence.
Qed.

Lemma do_command_open p c p' : closed p = false -> is_close c = false -> do_command p c = Ok p' ->
  exists q, appended p c = Ok q /\ p' = set_parts p (parts p ++ [q]).
Proof.
  intros H Hc. unfold do_command, appended, add_part. rewrite H.
  assert (G : forall m : result part, bind m (fun q => Ok (set_parts p (parts p ++ [q]))) = Ok p' ->
    exists q, m = Ok q /\ p' = set_parts p (parts p ++ [q])).
  { intros [q|e]; simpl; [|discriminate]. intros E; injection E as <-. eauto. }
  destruct c; simpl in Hc; try discriminate; try (destruct absolute); apply G.
Qed.

Lemma appended_bulge p c q : appended p c = Ok q -> forall s k, q = Linear s k -> start_bulge k = false.
Proof.
  intros H s k ->. destruct c; simpl in H; try destruct absolute; try discriminate;
  apply linear_part_eq in H; injection H as -> ->; reflexivity.
Qed.

Definition rounds_start (c : command) : option R := match c with Close _ r => r | _ => None end.
Definition round_first (r : option R) (l : list part) : result (list part) :=
  match r with
  | Some _ =>
      match l with
      | Linear s c :: rest => Ok (Linear s (close_corner r c) :: rest)
      | _ :: _ => Raise AttributeError
      | [] => Raise IndexError
      end
  | None => Ok l
  end.

Lemma do_close_open p r cr p' : closed p = false -> do_command p (Close r cr) = Ok p' ->
  exists q l, appended p (Close r cr) = Ok q /\ round_first cr (parts p ++ [q]) = Ok l /\ p' = Path (p0 p) l true.
Proof.
  intros H. unfold do_command, close, add_part. rewrite H. simpl appended.
  destruct (linear_part p (PLine (p0 p) true) r _) as [q|e]; simpl; [|discriminate].
  intros E. exists q. destruct cr as [cr|]; simpl in *.
  - destruct (parts p ++ [q]) as [|[s c| | | |] rest]; try discriminate. injection E as <-. eauto.
  - injection E as <-. eauto.
Qed.

Lemma do_command_closed p c p' : closed p = true -> do_command p c = Ok p' ->
  exists l, round_first (rounds_start c) (parts p) = Ok l /\ p' = Path (p0 p) l true.
Proof.
  intros H. destruct p as [a l cl]. simpl in H. subst cl.
  destruct c; simpl; try destruct absolute; unfold add_part; simpl; try discriminate;
    try (intros E; injection E as <-; eauto; fail).
  unfold close, add_part; simpl. destruct close_radius as [cr|]; simpl.
  - destruct l as [|[s c| | | |] rest]; try discriminate. intros E; injection E as <-. eauto.
  - intros E; injection E as <-. eauto.
Qed.

Lemma round_first_length r l l' : round_first r l = Ok l' -> length l' = length l.
Proof.
  destruct r; simpl; [|congruence]. destruct l as [|[]]; try discriminate. intros E; injection E as <-. reflexivity.
Qed.

(** The last part goes to a point. *)
Definition ends_at (a : vec) (l : list part) : Prop := exists c, last l (PStringed true) = Linear (PLine a true) c.

Lemma round_first_ends r l l' a : round_first r l = Ok l' -> ends_at a l -> ends_at a l'.
Proof.
  destruct r; simpl; [|congruence]. destruct l as [|[s c| | | |] rest]; try discriminate.
  intros E; injection E as <-. intros [k Hk]. destruct rest as [|x rest].
  - simpl in Hk. injection Hk as -> _. exists (close_corner (Some r) c). reflexivity.
  - exists k. exact Hk.
Qed.

Lemma round_first_stop r l l' j : round_first r l = Ok l' ->
  forall a cl cl' v, stop_of (Path a l' cl') j v = stop_of (Path a l cl) j v.
Proof.
  destruct r; simpl; [|intros E; injection E as ->; reflexivity].
  destruct l as [|[s c| | | |] rest]; try discriminate. intros E; injection E as <-.
  intros a cl cl' v. unfold stop_of. simpl. destruct j; reflexivity.
Qed.

Lemma round_first_start r l l' i a cl cl' : round_first r l = Ok l' -> ends_at a l ->
  start_point (Path a l cl) 0 = Ok a ->
  start_point (Path a l' cl') i = start_point (Path a l cl) i.
Proof.
  intros E He H0. apply start_rel.
  - rewrite H0. destruct r as [r|]; simpl in E; [|injection E as <-; exact H0].
    assert (He' : ends_at a l') by (apply (round_first_ends (Some r) l l' a E He)).
    destruct l as [|[s c| | | |] rest]; try discriminate. injection E as <-.
    destruct He' as [k Hk].
    change (match last (Linear s (close_corner (Some r) c) :: rest) (PStringed true) with
      Linear (PLine point true) _ => Ok point | _ => Raise RecursionError end = Ok a).
    rewrite Hk. reflexivity.
  - intros j Hj v. apply (round_first_stop _ _ _ j E).
Qed.
Lemma round_first_stop_point r l l' i a cl cl' : round_first r l = Ok l' -> ends_at a l ->
  start_point (Path a l cl) 0 = Ok a -> stop_point (Path a l' cl') i = stop_point (Path a l cl) i.
Proof.
  intros E He H0. unfold stop_point. rewrite (round_first_start r l l' i a cl cl' E He H0).
  pose proof (round_first_stop _ _ _ i E a cl cl') as G. unfold stop_of in G. simpl in *.
  pose proof (round_first_length _ _ _ E) as L.
  destruct (nth_error l' i) as [q'|] eqn:E1, (nth_error l i) as [q|] eqn:E2; try apply G; try reflexivity; exfalso.
  - apply nth_error_None in E2. assert (nth_error l' i <> None) as K by congruence. apply nth_error_Some in K. lia.
  - apply nth_error_None in E1. assert (nth_error l i <> None) as K by congruence. apply nth_error_Some in K. lia.
Qed.

(** The strokes of a list of commands, from a pen position. *)
Definition pen_after (home at_ : vec) (m : move) := arrive home at_ m.

Lemma cos_sin_45 : cos (rad 45) = sqrt 2 / 2 /\ sin (rad 45) = sqrt 2 / 2.
Proof.
  replace (rad 45) with (PI / 4) by (unfold rad; field). rewrite cos_PI4, sin_PI4.
  assert (0 < sqrt 2) by (apply sqrt_lt_R0; lra).
  assert (sqrt 2 * sqrt 2 = 2) by (apply sqrt_sqrt; lra).
  split; apply (Rmult_eq_reg_r (sqrt 2)); try lra; field_simplify; try lra.
Qed.

Lemma from_polar_eq r a : from_polar r a = V (r * cos (rad a)) (r * sin (rad a)).
Proof. unfold from_polar, from_angle, vscale. simpl. rewrite radians_rad. reflexivity. Qed.

Lemma compass_ok c l : from_polar l (compass_angle c) = toward c l.
Proof.
  rewrite from_polar_eq. destruct cos_sin_45 as [C45 S45].
  assert (A0 : cos (rad 0) = 1 /\ sin (rad 0) = 0) by (rewrite rad_0, cos_0, sin_0; auto).
  assert (A1 : cos (rad 90) = 0 /\ sin (rad 90) = 1) by (rewrite rad_90, cos_PI2, sin_PI2; auto).
  assert (A2 : cos (rad (-90)) = 0 /\ sin (rad (-90)) = -1).
  { replace (rad (-90)) with (- (PI / 2)) by (unfold rad; field). rewrite cos_neg, sin_neg, cos_PI2, sin_PI2. split; lra. }
  assert (A3 : cos (rad 180) = -1 /\ sin (rad 180) = 0) by (rewrite rad_180, cos_PI, sin_PI; auto).
  assert (A4 : cos (rad (-45)) = sqrt 2 / 2 /\ sin (rad (-45)) = - (sqrt 2 / 2)).
  { replace (rad (-45)) with (- rad 45) by (unfold rad; field). rewrite cos_neg, sin_neg, C45, S45. split; lra. }
  assert (A5 : cos (rad (180 - 45)) = - (sqrt 2 / 2) /\ sin (rad (180 - 45)) = sqrt 2 / 2).
  { replace (rad (180 - 45)) with (PI - rad 45) by (unfold rad; field). rewrite sin_PI_x, S45.
    replace (PI - rad 45) with (- (rad 45 - PI)) by ring. rewrite cos_neg, cos_minus, cos_PI, sin_PI, C45. split; lra. }
  assert (A6 : cos (rad (-180 + 45)) = - (sqrt 2 / 2) /\ sin (rad (-180 + 45)) = - (sqrt 2 / 2)).
  { replace (rad (-180 + 45)) with (rad 45 - PI) by (unfold rad; field).
    rewrite cos_minus, sin_minus, cos_PI, sin_PI, C45, S45. split; lra. }
  destruct c; unfold toward; cbn [compass_angle]; apply vec_eq; cbn [vx vy];
  first [destruct A0 as [A B]; rewrite ?A, ?B; field | destruct A1 as [A B]; rewrite ?A, ?B; field
    | destruct A2 as [A B]; rewrite ?A, ?B; field | destruct A3 as [A B]; rewrite ?A, ?B; field
    | rewrite ?C45, ?S45; field | destruct A4 as [A B]; rewrite ?A, ?B; field
    | destruct A5 as [A B]; rewrite ?A, ?B; field | destruct A6 as [A B]; rewrite ?A, ?B; field].
Qed.

Lemma appended_stop p c q at_ : drawable c -> appended p c = Ok q ->
  part_stop q (Ok at_) = Ok (arrive (p0 p) at_ (pen c)).
Proof.
  assert (G : forall a v, vadd a v = V (vx v + vx a) (vy v + vy a)).
  { intros a v. unfold vadd. f_equal; ring. }
  assert (D : forall l a, vadd at_ (from_polar l a) = V (vx at_ + vx (from_polar l a)) (vy at_ + vy (from_polar l a))) by reflexivity.
  destruct c; cbn [drawable]; intros Hd H; try subst absolute; try (destruct Hd; fail); cbn [appended] in H;
    try (injection H as <-; cbn [part_stop pen go]; destruct absolute; cbn [bind arrive]; rewrite ?G; reflexivity);
    apply linear_part_eq in H; subst q; cbn [part_stop pen].
  - cbn [bind arrive]. change 0 with (compass_angle East) at 1. rewrite D, compass_ok. reflexivity.
  - cbn [bind arrive]. change 90 with (compass_angle North) at 1. rewrite D, compass_ok. reflexivity.
  - reflexivity.
  - reflexivity.
  - cbn [bind arrive]. rewrite D, compass_ok. reflexivity.
  - destruct absolute; cbn [go bind arrive]; rewrite ?G; reflexivity.
  - reflexivity.
Qed.

Lemma last_snoc A (l : list A) x d : last (l ++ [x]) d = x.
Proof. apply last_last. Qed.

(** A closed path stays the same for its points. *)
Lemma draw_closed l : forall p p', closed p = true -> ends_at (p0 p) (parts p) -> start_point p 0 = Ok (p0 p) ->
  draw p l = Ok p' ->
  length (parts p') = length (parts p) /\ forall i, start_point p' i = start_point p i /\ stop_point p' i = stop_point p i.
Proof.
  induction l as [|c l IH]; intros p p' Hc He H0 E.
  - injection E as <-. auto.
  - cbn [draw] in E. destruct (do_command p c) as [q|e] eqn:Eq; [|discriminate]. cbn [bind] in E.
    destruct (do_command_closed p c q Hc Eq) as (l' & El & ->).
    destruct p as [a lp cl]. cbn [p0 parts closed] in *. subst cl.
    pose proof (round_first_length _ _ _ El) as L.
    assert (H0' : start_point (Path a l' true) 0 = Ok a).
    { rewrite (round_first_start _ _ _ 0 a true true El He H0). exact H0. }
    destruct (IH (Path a l' true) p' eq_refl (round_first_ends _ _ _ _ El He) H0' E) as [L' G].
    cbn [parts] in L'. split; [congruence|]. intros i. destruct (G i) as [G1 G2]. split.
    + rewrite G1. apply (round_first_start _ _ _ i a true true El He H0).
    + rewrite G2. apply (round_first_stop_point _ _ _ i a true true El He H0).
Qed.

Lemma draw_trace l : forall p at_ p', Forall drawable l -> closed p = false -> open_start p ->
  start_point p (length (parts p)) = Ok at_ -> draw p l = Ok p' ->
  length (parts p') = (length (parts p) + length (trace (p0 p) at_ (map pen l)))%nat /\
  (forall i, (i < length (parts p))%nat -> start_point p' i = start_point p i /\ stop_point p' i = stop_point p i) /\
  (forall i s e, nth_error (trace (p0 p) at_ (map pen l)) i = Some (s, e) ->
     start_point p' (length (parts p) + i) = Ok s /\ stop_point p' (length (parts p) + i) = Ok e).
Proof.
  induction l as [|c l IH]; intros p at_ p' Hd Hc Ho Ha E.
  - injection E as <-. simpl. split; [lia|]. split; [auto|]. intros [|i]; discriminate.
  - inversion_clear Hd as [|? ? Hd1 Hd2]. cbn [draw] in E.
    destruct (do_command p c) as [q|e] eqn:Eq; [|discriminate]. cbn [bind] in E.
    destruct (is_close c) eqn:Ec.
    + destruct c; try discriminate. clear IH.
      destruct (do_close_open p r close_radius q Hc Eq) as (x & lx & Ex & El & ->).
      pose proof (appended_bulge _ _ _ Ex) as Hb.
      pose proof (appended_stop p _ _ at_ Hd1 Ex) as Hs.
      set (p1 := set_parts p (parts p ++ [x])).
      assert (Ho1 : open_start p1) by (apply open_app; assumption).
      assert (H01 : start_point p1 0 = Ok (p0 p)) by (apply (start_open _ Ho1)).
      assert (He : ends_at (p0 p) (parts p ++ [x])).
      { cbn [appended] in Ex. apply linear_part_eq in Ex. eexists. rewrite last_snoc. exact Ex. }
      pose proof (round_first_length _ _ _ El) as L.
      assert (Hp1 : p1 = Path (p0 p) (parts p ++ [x]) (closed p)) by reflexivity. rewrite Hp1 in H01.
      assert (H02 : start_point (Path (p0 p) lx true) 0 = Ok (p0 p)).
      { rewrite (round_first_start _ _ _ 0 (p0 p) (closed p) true El He H01). exact H01. }
      destruct (draw_closed l (Path (p0 p) lx true) p' eq_refl (round_first_ends _ _ _ _ El He) H02 E) as [L' G].
      cbn [parts] in L'. rewrite app_length in L. cbn [length] in L.
      assert (P : forall i, start_point p' i = start_point p1 i /\ stop_point p' i = stop_point p1 i).
      { intros i. destruct (G i) as [G1 G2]. rewrite G1, G2, Hp1. split.
        - apply (round_first_start _ _ _ i (p0 p) (closed p) true El He H01).
        - apply (round_first_stop_point _ _ _ i (p0 p) (closed p) true El He H01). }
      cbn [map pen trace length]. split; [lia|]. split.
      * intros i Hi. destruct (P i) as [-> ->]. unfold p1. rewrite start_app, stop_app by (auto; lia). auto.
      * intros [|i] s e Hi; [|destruct i; discriminate Hi]. injection Hi as <- <-. rewrite Nat.add_0_r.
        destruct (P (length (parts p))) as [-> ->]. unfold p1. rewrite start_app by (auto; lia).
        rewrite stop_new by auto. rewrite Ha. split; [reflexivity|exact Hs].
    + destruct (do_command_open p c q Hc Ec Eq) as (x & Ex & ->).
      pose proof (appended_bulge _ _ _ Ex) as Hb.
      pose proof (appended_stop p _ _ at_ Hd1 Ex) as Hs.
      assert (Ho1 : open_start (set_parts p (parts p ++ [x]))) by (apply open_app; assumption).
      assert (Len : length (parts (set_parts p (parts p ++ [x]))) = S (length (parts p))).
      { simpl. rewrite app_length. simpl. lia. }
      assert (Ha1 : start_point (set_parts p (parts p ++ [x])) (length (parts (set_parts p (parts p ++ [x])))) =
        Ok (arrive (p0 p) at_ (pen c))).
      { rewrite Len, start_succ. unfold stop_of. rewrite start_app by (auto; lia). cbn [set_parts parts].
        rewrite nth_error_app2, Nat.sub_diag by lia. cbn [nth_error]. rewrite Ha. exact Hs. }
      destruct (IH (set_parts p (parts p ++ [x])) _ p' Hd2 Hc Ho1 Ha1 E) as (L & P & Q).
      rewrite Len in *. cbn [set_parts p0] in *.
      assert (T : trace (p0 p) at_ (map pen (c :: l)) = (at_, arrive (p0 p) at_ (pen c)) :: trace (p0 p) (arrive (p0 p) at_ (pen c)) (map pen l)).
      { cbn [map]. destruct c; try discriminate; cbn [pen trace]; try reflexivity; try destruct absolute; reflexivity. }
      rewrite T. cbn [length]. split; [lia|]. split.
      * intros i Hi. destruct (P i) as [-> ->]; [lia|]. rewrite start_app, stop_app by (auto; lia). auto.
      * intros [|i] s e Hi; cbn [nth_error] in Hi.
        -- injection Hi as <- <-. rewrite Nat.add_0_r. destruct (P (length (parts p))) as [-> ->]; [lia|].
           rewrite start_app by (auto; lia). rewrite stop_new by auto. rewrite Ha. split; [reflexivity|exact Hs].
        -- destruct (Q i s e Hi) as [Q1 Q2]. replace (length (parts p) + S i)%nat with (S (length (parts p)) + i)%nat by lia. auto.
Qed.

Lemma draw_follows a l p : Forall drawable l -> draw (new_path a) l = Ok p -> follows p (trace a a (map pen l)).
Proof.
  intros Hd E. assert (Ho : open_start (new_path a)) by (intros s c H; discriminate).
  destruct (draw_trace l (new_path a) a p Hd eq_refl Ho eq_refl E) as (L & _ & Q).
  split; [exact L|exact Q].
Qed.

Lemma follows_refuted : ~ (forall a l p, draw (new_path a) l = Ok p -> follows p (trace a a (map pen l))).
Proof.
  intros H. destruct (H (V 0 0) [LineTo (V 3 4) None true; HorizontalTo 10 None true] _ eq_refl) as [_ G].
  destruct (G 1%nat (V 3 4) (V 10 4) eq_refl) as [_ E].
  unfold stop_point in E. cbn in E. injection E as E. lra.
Qed.

Lemma after_close p c p' : closed p = true -> do_command p c = Ok p' -> rounds_start c = None -> p' = p.
Proof.
  intros H E Hr. destruct (do_command_closed p c p' H E) as (l & El & ->). rewrite Hr in El. injection El as <-.
  destruct p; simpl in *; subst; reflexivity.
Qed.

(** ** When drawing succeeds *)
Definition line_flag (q : part) : bool := is_linear (Some q).

Lemma last_flag p j : length (parts p) = S j -> is_linear (nth_error (parts p) j) = last (map line_flag (parts p)) false.
Proof.
  intros L. destruct (exists_last (l := parts p)) as (l & x & E); [intros E; rewrite E in L; discriminate|].
  rewrite E in *. rewrite app_length in L. simpl in L. rewrite map_app. simpl. rewrite last_last.
  rewrite nth_error_app2 by lia. replace (j - length l)%nat with 0%nat by lia. reflexivity.
Qed.

Lemma linear_part_ok p s r cl : (r <> None -> last (map line_flag (parts p)) false = true) ->
  linear_part p s r cl = Ok (Linear s (plain (to_radius r) cl)).
Proof.
  intros H. unfold linear_part. destruct r as [r|]; simpl; [|reflexivity].
  specialize (H ltac:(discriminate)). destruct (length (parts p)) as [|j] eqn:L.
  - destruct (parts p); [discriminate|discriminate].
  - rewrite (last_flag p j L), H. reflexivity.
Qed.

Lemma appended_ok p c : drawable c -> (rounding c <> None -> last (map line_flag (parts p)) false = true) ->
  exists q, appended p c = Ok q /\ line_flag q = draws_line c.
Proof.
  intros Hd H.
  destruct c; cbn [appended rounding drawable draws_line] in *; try (destruct Hd; fail); try subst absolute;
    try (eexists; split; [reflexivity|reflexivity]);
    rewrite linear_part_ok by exact H; eexists; split; reflexivity.
Qed.

Lemma round_first_ok r l : (r <> None -> exists s c rest, l = Linear s c :: rest) -> is_ok (round_first r l).
Proof.
  destruct r as [r|]; intros H; simpl; [|eexists; reflexivity].
  destruct H as (s & c & rest & ->); [discriminate|]. eexists; reflexivity.
Qed.

Lemma draw_closed_ok l : forall p, closed p = true -> Forall drawable l ->
  (exists s c rest, parts p = Linear s c :: rest) \/ Forall (fun c => rounds_start c = None) l -> is_ok (draw p l).
Proof.
  induction l as [|c l IH]; intros p Hc Hd H; [eexists; reflexivity|].
  inversion_clear Hd as [|? ? Hd1 Hd2].
  assert (R : rounds_start c <> None -> exists s k rest, parts p = Linear s k :: rest).
  { intros Hr. destruct H as [H|H]; [exact H|]. inversion_clear H. contradiction. }
  assert (E : exists l', round_first (rounds_start c) (parts p) = Ok l' /\ do_command p c = Ok (Path (p0 p) l' true)).
  { destruct p as [a lp cl]; cbn [p0 parts closed] in *; subst cl.
    destruct c; cbn [drawable rounds_start] in *; try (destruct Hd1; fail); try subst absolute;
      try (exists lp; split; reflexivity).
    cbn [do_command]. unfold close, add_part. cbn [closed bind parts p0]. destruct close_radius as [cr|].
    - destruct R as (s & k & rest & ->); [discriminate|]. eexists; split; reflexivity.
    - eexists; split; reflexivity. }
  destruct E as (l' & El & E). cbn [draw]. rewrite E. cbn [bind]. apply IH; [reflexivity|exact Hd2|].
  destruct H as [(s & k & rest & H)|H].
  - left. rewrite H in El. cbn [parts]. destruct (rounds_start c); simpl in El; injection El as <-; eauto.
  - right. inversion_clear H. assumption.
Qed.

Lemma hd_flag p : parts p <> [] -> hd true (map line_flag (parts p)) = true -> exists s c rest, parts p = Linear s c :: rest.
Proof. destruct (parts p) as [|[] rest]; simpl; try discriminate; try congruence; eauto. Qed.

Lemma draw_ok l : forall p, closed p = false -> Forall drawable l -> roundable (map line_flag (parts p)) l -> is_ok (draw p l).
Proof.
  induction l as [|c l IH]; intros p Hc Hd H; [eexists; reflexivity|].
  inversion_clear Hd as [|? ? Hd1 Hd2]. cbn [roundable] in H. destruct H as (H1 & H2 & H3).
  destruct (appended_ok p c Hd1 H1) as (q & Eq & Fq).
  destruct (is_close c) eqn:Ec.
  - destruct c; try discriminate. cbn [appended] in Eq.
    assert (F : (close_radius <> None \/ hd true (map line_flag (parts p)) = true) ->
      exists s k rest, parts p ++ [q] = Linear s k :: rest).
    { intros G. apply linear_part_eq in Eq. destruct (parts p) as [|x rest] eqn:E.
      - rewrite Eq. simpl. eauto.
      - assert (hd true (map line_flag (x :: rest)) = true) as K.
        { destruct G as [G|G]; [|exact G]. destruct close_radius; [exact H2|congruence]. }
        destruct x; try discriminate. simpl. eauto. }
    cbn [draw do_command]. unfold close, add_part. rewrite Hc, Eq. cbn [bind set_parts parts p0].
    destruct close_radius as [cr|].
    + destruct F as (s & k & rest & F); [left; discriminate|]. rewrite F. cbn [bind].
      apply draw_closed_ok; [reflexivity|exact Hd2|]. left. cbn [parts]. eauto.
    + cbn [bind]. apply draw_closed_ok; [reflexivity|exact Hd2|]. cbn [parts].
      destruct (bool_dec (hd true (map line_flag (parts p))) true) as [T|T]; [left; apply F; right; exact T|].
      right. rewrite Forall_forall in *. intros c Hin. specialize (H3 c Hin).
      destruct c; try reflexivity. destruct close_radius; [contradiction|reflexivity].
  - assert (E : do_command p c = Ok (set_parts p (parts p ++ [q]))).
    { destruct c; cbn [drawable is_close] in *; try discriminate; try (destruct Hd1; fail); try subst absolute;
        cbn [do_command appended] in *; unfold add_part; rewrite Hc; try rewrite Eq; try (injection Eq as <-); reflexivity. }
    cbn [draw]. rewrite E. cbn [bind]. apply IH; [exact Hc|exact Hd2|]. cbn [set_parts parts].
    rewrite map_app. cbn [map]. rewrite Fq. destruct c; try discriminate; exact H3.
Qed.

Lemma new_draw_ok a l : Forall drawable l -> roundable [] l -> is_ok (draw (new_path a) l).
Proof. intros. apply draw_ok; auto. Qed.
