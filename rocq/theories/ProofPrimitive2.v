(** Proofs about the transformations of point primitives. *)
From Coq Require Import Reals List Arith Bool Lra Lia.
From Verif Require Import Base ModelVector ModelTransformation.
From Verif Require Import ModelPrimitive SpecPrimitive ProofPrimitive.
Import ListNotations.
Local Open Scope R_scope.
Local Open Scope result_scope.

(** ** The points *)

Lemma get_points s i c pts : has_points s i c pts -> exists p, nth_error (prims s) i = Some p /\
  p_class p = c /\ reads s (p_cells p) = pts.
Proof. intros (p&E&C&H). exists p. repeat split; auto. Qed.

Lemma apply_points s i c pts t : has_points s i c pts -> exists s',
  apply_transformation i t s = Ok s' /\ has_points s' i c (map (on_point t) pts).
Proof.
  intros H. destruct (get_points _ _ _ _ H) as (p&E&C&R).
  destruct (apply_transformation i t s) as [s'|] eqn:A.
  2:{ unfold apply_transformation, get, bind, alloc in A. rewrite E in A. discriminate. }
  exists s'. split; auto. apply apply_ok in A as (q&E'&->). rewrite E in E'. injection E' as <-.
  eexists. cbn [prims]. rewrite upd_nth, E, Nat.eqb_refl. split; [reflexivity|]. split; [exact C|].
  cbn [p_cells]. symmetry. rewrite R.
  pose proof (reads_seq s (map (on_point t) pts) (prims s)) as Q.
  assert (L : length (map (on_point t) pts) = length (p_cells p)).
  { rewrite map_length, <- R. unfold reads. now rewrite map_length. }
  rewrite L in Q. exact Q.
Qed.

Lemma apply_others s i j c pts t s' : wf s -> has_points s j c pts -> i <> j -> apply_transformation i t s = Ok s' ->
  has_points s' j c pts.
Proof.
  intros W H N A. apply apply_ok in A as (q&E'&->). destruct H as (p&E&C&H).
  destruct (keeps_update s (map (on_point t) (reads s (p_cells q))) i
    (Prim (p_class q) (seq (length (cells s)) (length (p_cells q))) (p_edges q)) j W N p E) as (p'&E1&C1&D1&R1).
  exists p'. repeat split; auto; [congruence|].
  rewrite D1, H. symmetry. exact R1.
Qed.

Theorem transform_in_place : forall l i c pts t, has_points (history l) i c pts -> honest t ->
  exists s, transform i t false (history l) = Ok (s, i) /\ has_points s i c (map (on_point t) pts).
Proof.
  intros l i c pts t H O. unfold transform, bind. destruct (is_identity t) eqn:I.
  - exists (history l). split; auto. rewrite (map_ext _ (fun v => v)), map_id; auto.
  - destruct (apply_points _ _ _ _ t H) as (s'&->&P). eauto.
Qed.

Theorem transform_clone : forall l i c pts t, has_points (history l) i c pts -> honest t ->
  (forall d, c <> CBSpline d) -> (c = CTriangle -> ~ flat pts) ->
  exists s j, transform i t true (history l) = Ok (s, j) /\ j <> i /\
    has_points s j c (map (on_point t) pts) /\ has_points s i c pts.
Proof.
  intros l i c pts t H O NB NF. unfold transform.
  destruct (clone_exact l i c pts H NB NF) as (s&j&E&N&Pj&Pi&_). rewrite E. cbn [bind].
  destruct (is_identity t) eqn:I.
  - exists s, j. repeat split; auto. rewrite (map_ext _ (fun v => v)), map_id; auto.
  - destruct (apply_points _ _ _ _ t Pj) as (s'&A&P). rewrite A. cbn [bind]. exists s', j. repeat split; auto.
    eapply apply_others; eauto. eapply clone_wf; eauto. apply history_wf.
Qed.

(** ** Transformations tell the truth *)

Lemma type_for_scale_spec x y : match type_for_scale x y with
  | TIdentity => x = 1 /\ y = 1
  | TParity => x = -1 /\ y = -1
  | TXParity => x = -1 /\ y = 1
  | TYParity => x = 1 /\ y = -1
  | TScale | TShear => True
  | _ => False
  end.
Proof.
  unfold type_for_scale, Reqb.
  repeat (match goal with |- context [Req_EM_T ?a ?b] => destruct (Req_EM_T a b) end; simpl); auto; lra.
Qed.

Lemma honest_scale2 x y t : scale2 x y = Ok t -> honest (Linear t).
Proof.
  unfold scale2, new2. set (y' := match y with None => x | Some y => y end).
  pose proof (type_for_scale_spec x y') as H. intros E Hi v.
  destruct (type_for_scale x y'); try discriminate; injection E as <-; simpl in Hi; try discriminate.
  destruct H as [-> ->]. destruct v as [a b]. unfold on_point, apply2; cbn [t2_m a00 a01 a10 a11 vx vy]. f_equal; ring.
Qed.

Lemma honest_rotation2 x t : rotation2 x = Ok t -> honest (Linear t).
Proof. unfold rotation2, new2. intros [= <-] H. discriminate. Qed.

(** What the type of an affine transformation says about its matrix. *)
Definition typed (t : transformation) : Prop :=
  match t_type t with
  | Some TIdentity => t_m t = M3 1 0 0 0 1 0 0 0 1
  | Some TParity => t_m t = M3 (-1) 0 0 0 (-1) 0 0 0 1
  | Some TXParity => t_m t = M3 (-1) 0 0 0 1 0 0 0 1
  | Some TYParity => t_m t = M3 1 0 0 0 (-1) 0 0 0 1
  | _ => True
  end.

Lemma typed_product m m' a b : typed (T m a) -> typed (T m' b) ->
  typed (T (matmul m m') (checked (mul_type a b))) /\ typed (T (matmul m' m) (checked (mul_type a b))).
Proof.
  unfold typed, mul_type, checked, check_type; cbn [t_type t_m].
  destruct a as [[]|], b as [[]|]; cbn [tag_eqb ttype_eqb]; intros H H'; auto; subst;
    unfold matmul; cbn [m00 m01 m02 m10 m11 m12 m20 m21 m22]; split; f_equal; ring.
Qed.

Lemma build_typed e : typed (build e).
Proof.
  induction e; simpl; try exact I.
  - reflexivity.
  - unfold typed, ModelTransformation.scale; cbn [t_type t_m]. pose proof (type_for_scale_spec x y) as H.
    destruct (type_for_scale x y); auto; destruct H as [-> ->]; reflexivity.
  - destruct (build e1) as [m a], (build e2) as [m' b]. apply (typed_product m m' a b IHe1 IHe2).
  - destruct (build e1) as [m a], (build e2) as [m' b].
    destruct (typed_product m m' a b IHe1 IHe2) as [_ K].
    unfold imul; cbn [t_m t_type]. destruct b as [[]|]; auto.
Qed.

Theorem honest_build : forall e, honest (Affine (build e)).
Proof.
  intros e H v. pose proof (build_typed e) as K. unfold typed in K. simpl in H.
  destruct (t_type (build e)) as [[]|]; try discriminate. simpl. unfold apply. rewrite K. destruct v as [v1 v2].
  cbn [m00 m01 m02 m10 m11 m12 vx vy]. f_equal; ring.
Qed.

(** ** The figure *)

Lemma lin_affine f l : affine_map f -> fold_right Rplus 0 (map fst l) = 1 ->
  f (lin l) = lin (map (fun c => (fst c, f (snd c))) l).
Proof.
  intros (a&b&c&d&e&g&F) S1. unfold lin. rewrite F, !map_map. cbn [vx vy fst snd].
  assert (K : forall p q r, fold_right Rplus 0 (map (fun x : R * vec => fst x * (p * vx (snd x) + q * vy (snd x) + r)) l) =
    p * fold_right Rplus 0 (map (fun c => fst c * vx (snd c)) l) +
    q * fold_right Rplus 0 (map (fun c => fst c * vy (snd c)) l) + r * fold_right Rplus 0 (map fst l)).
  { intros p q r. clear. induction l; simpl; [ring|]. rewrite IHl. ring. }
  f_equal.
  - transitivity (fold_right Rplus 0 (map (fun x : R * vec => fst x * (a * vx (snd x) + b * vy (snd x) + c)) l)).
    + rewrite K, S1. ring.
    + f_equal. apply map_ext. intros. now rewrite F.
  - transitivity (fold_right Rplus 0 (map (fun x : R * vec => fst x * (d * vx (snd x) + e * vy (snd x) + g)) l)).
    + rewrite K, S1. ring.
    + f_equal. apply map_ext. intros. now rewrite F.
Qed.

Lemma segment_image f a b y : affine_map f ->
  (on_segment (f a) (f b) y <-> exists x, on_segment a b x /\ y = f x).
Proof.
  intros F. split.
  - intros (t&Ht&->). exists (lin [(1 - t, a); (t, b)]). split; [exists t; auto|].
    rewrite lin_affine; auto. simpl. ring.
  - intros (x&(t&Ht&->)&->). exists t. split; auto. rewrite lin_affine; auto. simpl. ring.
Qed.

Lemma lines_image f l y : affine_map f -> (on_lines (map f l) y <-> exists x, on_lines l x /\ y = f x).
Proof.
  intros F. induction l as [|a [|b r] IH]; simpl in *.
  - split; [tauto | intros (x&H&_); tauto].
  - split; [tauto | intros (x&H&_); tauto].
  - rewrite IH, segment_image by auto. split.
    + intros [(x&H&E)|(x&H&E)]; exists x; auto.
    + intros (x&[H|H]&E); [left|right]; exists x; auto.
Qed.

Lemma curve_image f (P : R -> list (R * vec)) y : affine_map f -> (forall t, fold_right Rplus 0 (map fst (P t)) = 1) ->
  ((exists t, 0 <= t <= 1 /\ y = lin (map (fun c => (fst c, f (snd c))) (P t))) <->
   exists x, (exists t, 0 <= t <= 1 /\ x = lin (P t)) /\ y = f x).
Proof.
  intros F S1. split.
  - intros (t&Ht&->). exists (lin (P t)). split; [exists t; auto|]. now rewrite lin_affine.
  - intros (x&(t&Ht&->)&->). exists t. split; auto. now rewrite lin_affine.
Qed.

Theorem shape_image : forall f c l y, affine_map f -> (forall d, c <> CBSpline d) -> c <> CRectangle ->
  (on_shape c (map f l) y <-> exists x, on_shape c l x /\ y = f x).
Proof.
  intros f c l y F NB NR.
  assert (Z : (False <-> exists x : vec, False /\ y = f x)) by (split; [tauto | intros (x&H&_); tauto]).
  destruct c; try congruence; cbn [on_shape].
  - destruct l as [|a [|b [|]]]; cbn [map]; auto. now apply segment_image.
  - destruct l as [|a [|b [|d [|]]]]; cbn [map]; auto. split.
    + intros (u&v&w&Hu&Hv&Hw&S1&->). exists (lin [(u, a); (v, b); (w, d)]). split; [exists u, v, w; auto 10|].
      rewrite lin_affine; auto. simpl. lra.
    + intros (x&(u&v&w&Hu&Hv&Hw&S1&->)&->). exists u, v, w. repeat split; auto. rewrite lin_affine; auto. simpl. lra.
  - destruct l as [|a [|b [|d [|]]]]; cbn [map]; auto. 
    apply (curve_image f (fun t => [((1 - t) ^ 2, a); (2 * t * (1 - t), b); (t ^ 2, d)]) y F). intros t. simpl. field.
  - destruct l as [|a [|b [|d [|e [|]]]]]; cbn [map]; auto. 
    apply (curve_image f (fun t => [((1 - t) ^ 3, a); (3 * t * (1 - t) ^ 2, b); (3 * t ^ 2 * (1 - t), d); (t ^ 3, e)]) y F). intros t. simpl. field.
  - destruct l as [|a [|b [|d [|]]]]; cbn [map]; auto. 
    apply (curve_image f (fun t => [((1 - t) ^ 2 / 2, a); ((1 + 2 * t - 2 * t ^ 2) / 2, b); (t ^ 2 / 2, d)]) y F). intros t. simpl. field.
  - destruct l as [|a [|b [|d [|e [|]]]]]; cbn [map]; auto. 
    apply (curve_image f (fun t => [((1 - t) ^ 3 / 6, a); ((4 - 6 * t ^ 2 + 3 * t ^ 3) / 6, b);
      ((1 + 3 * t + 3 * t ^ 2 - 3 * t ^ 3) / 6, d); (t ^ 3 / 6, e)]) y F). intros t. simpl. field.
  - exact (lines_image f l y F).
  - destruct l as [|a l]; cbn [map]; auto.
    replace (f a :: map f l ++ [f a]) with (map f (a :: l ++ [a])) by (simpl; now rewrite map_app).
    apply (lines_image f); auto.
Qed.

Lemma min_max_between p q x : (Rmin p q <= x <= Rmax p q) <-> (p <= x <= q \/ q <= x <= p).
Proof. unfold Rmin, Rmax. destruct (Rle_dec p q); lra. Qed.

Lemma min_max_image a c p q x : (Rmin p q <= x <= Rmax p q) ->
  Rmin (a * p + c) (a * q + c) <= a * x + c <= Rmax (a * p + c) (a * q + c).
Proof.
  rewrite !min_max_between. destruct (Rle_lt_dec 0 a); intros [H|H]; [left|right|right|left]; split; nra.
Qed.

Lemma min_max_pre a c p q z : Rmin (a * p + c) (a * q + c) <= z <= Rmax (a * p + c) (a * q + c) ->
  exists x, (Rmin p q <= x <= Rmax p q) /\ z = a * x + c.
Proof.
  intros H. destruct (Req_dec a 0) as [->|N].
  - exists p. split.
    + unfold Rmin, Rmax. destruct (Rle_dec p q); lra.
    + revert H. unfold Rmin, Rmax. destruct (Rle_dec (0 * p + c) (0 * q + c)); lra.
  - exists ((z - c) / a). split; [|field; auto].
    pose proof (min_max_image (/ a) (- c / a) (a * p + c) (a * q + c) z H) as K.
    replace (/ a * (a * p + c) + - c / a) with p in K by (field; auto).
    replace (/ a * (a * q + c) + - c / a) with q in K by (field; auto).
    replace (/ a * z + - c / a) with ((z - c) / a) in K by (field; auto). exact K.
Qed.

Theorem rectangle_image : forall f l y, axes_map f ->
  (on_shape CRectangle (map f l) y <-> exists x, on_shape CRectangle l x /\ y = f x).
Proof.
  intros f l y (a&c&e&g&F).
  assert (Z : (False <-> exists x : vec, False /\ y = f x)) by (split; [tauto | intros (x&H&_); tauto]).
  cbn [on_shape]. destruct l as [|p [|q [|]]]; cbn [map]; auto. rewrite !F. cbn [vx vy]. split.
  - intros [H1 H2]. apply min_max_pre in H1 as (x1&H1&E1). apply min_max_pre in H2 as (x2&H2&E2).
    exists (V x1 x2). cbn [vx vy]. repeat split; try tauto. rewrite F. cbn [vx vy]. destruct y; simpl in *; congruence.
  - intros (x&[H1 H2]&->). rewrite F. cbn [vx vy]. split; now apply min_max_image.
Qed.

Theorem on_point_affine : forall t, affine_map (on_point t).
Proof.
  intros [[[a b d e] ?]|[[a b c d e g ? ? ?] ?]]; simpl.
  - exists a, b, 0, d, e, 0. intros v. unfold apply2. simpl. f_equal; ring.
  - exists a, b, c, d, e, g. intros v. unfold apply. simpl. f_equal; ring.
Qed.

(** ** The shortcuts *)

Lemma with2_image l i r t f : r = Ok t -> honest (Linear t) -> (forall v, apply2 t v = f v) ->
  image_of i f (with2 r) (history l).
Proof.
  intros -> O F c pts H. split.
  - destruct (transform_in_place l i c pts (Linear t) H O) as (s&E&P). exists s. split; auto.
    rewrite <- (map_ext (on_point (Linear t)) f) by auto. exact P.
  - intros NB NF. destruct (transform_clone l i c pts (Linear t) H O NB NF) as (s&j&E&N&P&Q).
    exists s, j. repeat split; auto. rewrite <- (map_ext (on_point (Linear t)) f) by auto. exact P.
Qed.

Lemma scale2_ok x y : exists t, scale2 x y = Ok t /\
  forall v, apply2 t v = V (x * vx v) (match y with None => x | Some y => y end * vy v).
Proof.
  unfold scale2, new2. set (y' := match y with None => x | Some y => y end).
  pose proof (type_for_scale_spec x y') as H.
  destruct (type_for_scale x y'); try tauto; eexists; (split; [reflexivity|]);
    intros v; unfold apply2; cbn [t2_m a00 a01 a10 a11]; f_equal; ring.
Qed.

Theorem scale_image : forall l i x y,
  image_of i (fun v => V (x * vx v) (match y with None => x | Some y => y end * vy v)) (scale x y) (history l).
Proof.
  intros l i x y. destruct (scale2_ok x y) as (t&E&F). unfold scale. eapply with2_image; eauto.
  eapply honest_scale2; eauto.
Qed.

Theorem mirrors_image : forall l i,
  image_of i (fun v => V (- vx v) (- vy v)) mirror (history l) /\
  image_of i (fun v => V (- vx v) (vy v)) x_mirror (history l) /\
  image_of i (fun v => V (vx v) (- vy v)) y_mirror (history l).
Proof.
  intros l i. split; [|split];
    [destruct (scale2_ok (-1) (Some (-1))) as (t&E&F) | destruct (scale2_ok (-1) (Some 1)) as (t&E&F) | destruct (scale2_ok 1 (Some (-1))) as (t&E&F)];
    (eapply with2_image; [exact E | eapply honest_scale2; eauto | intros v; rewrite F; f_equal; ring]).
Qed.

Theorem rotate_image : forall l i angle,
  image_of i (fun v => V (cos (angle * PI / 180) * vx v - sin (angle * PI / 180) * vy v)
                         (sin (angle * PI / 180) * vx v + cos (angle * PI / 180) * vy v)) (rotate angle) (history l).
Proof.
  intros l i angle. unfold rotate. eapply with2_image; [reflexivity | eapply honest_rotation2; reflexivity|].
  intros v. unfold apply2, radians; cbn [t2_m a00 a01 a10 a11]. f_equal; ring.
Qed.

(** ** Reversal *)

Theorem reverse_nothing : forall s i c pts, has_points s i c pts -> reverse i s = Ok (s, i).
Proof. intros s i c pts (p&E&_). unfold reverse, get, bind. now rewrite E. Qed.

(** ** Polylines *)

Lemma consecutive_total pts : fold_right Rplus 0 (map (fun e => magnitude (vsub (snd e) (fst e))) (consecutive pts)) = total pts.
Proof.
  unfold total, consecutive. induction pts as [|a [|b r] IH]; auto.
  change (combine (a :: b :: r) (tl (a :: b :: r))) with ((a, b) :: combine (b :: r) (tl (b :: r))).
  replace (length (a :: b :: r) - 1)%nat with (S (length (b :: r) - 1)) by (simpl; lia).
  cbn [seq map fold_right]. rewrite IH. f_equal.
  - unfold magnitude, magnitude_square, dot, vsub. cbn [fst snd vx vy nth]. f_equal. ring.
  - rewrite <- seq_shift, map_map. reflexivity.
Qed.

Lemma edges_none_add s l p i : (forall q, nth_error (prims s) i = Some q -> p_edges q = None) -> p_edges p = None ->
  forall q, nth_error (prims (Store l (prims s ++ [p]))) i = Some q -> p_edges q = None.
Proof.
  intros A H q. cbn [prims]. destruct (Nat.lt_ge_cases i (length (prims s))).
  - rewrite nth_error_app1 by auto. auto.
  - rewrite nth_error_app2 by auto. destruct (i - length (prims s))%nat as [|[|]]; simpl; try discriminate.
    now intros [= <-].
Qed.

Lemma edges_none_upd s l k r r' i : (forall q, nth_error (prims s) i = Some q -> p_edges q = None) ->
  nth_error (prims s) k = Some r -> p_edges r' = p_edges r ->
  forall q, nth_error (prims (Store l (update k r' (prims s)))) i = Some q -> p_edges q = None.
Proof.
  intros A E H q. cbn [prims]. rewrite upd_nth. destruct (nth_error (prims s) i) as [y|] eqn:Ei; [|discriminate].
  destruct (Nat.eqb_spec k i) as [->|]; intros [= <-].
  - rewrite H. apply A. congruence.
  - auto.
Qed.

Lemma never_measured_step s e i : (forall q, nth_error (prims s) i = Some q -> p_edges q = None) ->
  (forall j, e = ELength j -> i <> j) ->
  forall q, nth_error (prims (step s e)) i = Some q -> p_edges q = None.
Proof.
  intros A N. destruct e; simpl; unfold or_same; auto.
  - destruct (forallb _ _); auto. destruct (construct c args s) as [[s' j]|] eqn:E; auto.
    apply construct_ok in E as [_ ->]. now apply edges_none_add.
  - destruct (clone i0 s) as [[s' j]|] eqn:E; auto. apply clone_construct in E as (p&_&E).
    apply construct_ok in E as [_ ->]. now apply edges_none_add.
  - destruct (transform i0 t cloned s) as [[s' j]|] eqn:E; auto. unfold transform, bind in E.
    destruct (if cloned then clone i0 s else Ok (s, i0)) as [[s1 j1]|] eqn:E1; [|discriminate].
    assert (W1 : forall q, nth_error (prims s1) i = Some q -> p_edges q = None).
    { destruct cloned; [|now injection E1 as <- <-]. apply clone_construct in E1 as (p&_&E1).
      apply construct_ok in E1 as [_ ->]. now apply edges_none_add. }
    destruct (is_identity t); [injection E as <- <-; auto|].
    destruct (apply_transformation j1 t s1) eqn:E2; [|discriminate].
    injection E as <- <-. apply apply_ok in E2 as (p&E2&->). eapply edges_none_upd; eauto.
  - destruct (a <? length (cells s))%nat; auto. destruct (set_point i0 k a s) eqn:E; auto.
    apply set_point_ok in E as (p&E&_&->). eapply edges_none_upd; eauto.
  - destruct (polyline_length i0 s) as [[s' j]|] eqn:E; auto.
    apply length_ok in E as (p&e&E&->&_). intros q. cbn [fst prims]. rewrite upd_nth.
    destruct (Nat.eqb_spec i0 i) as [->|]; [exfalso; eapply N; eauto|].
    destruct (nth_error (prims s) i) eqn:Ei; [|discriminate]. intros [= <-]. auto.
  - unfold reverse, get, bind. destruct (nth_error (prims s) i0); auto.
Qed.

Theorem first_length : forall l i pts, has_points (history l) i CPolyline pts -> never_measured i l ->
  exists s, polyline_length i (history l) = Ok (s, total pts).
Proof.
  intros l i pts H N.
  assert (K : forall q, nth_error (prims (history l)) i = Some q -> p_edges q = None).
  { clear H. unfold history.
    assert (K0 : forall q, nth_error (prims empty) i = Some q -> p_edges q = None) by (simpl; destruct i; discriminate).
    revert K0 N. generalize empty. induction l as [|e l IH]; simpl; auto.
    intros s K0 N. apply IH.
    - apply never_measured_step; auto. intros j ->. tauto.
    - destruct e; tauto. }
  destruct (get_points _ _ _ _ H) as (p&E&C&R).
  unfold polyline_length, edges, get, bind. rewrite E, (K p E).
  eexists. f_equal. f_equal. rewrite R. apply consecutive_total.
Qed.

(** ** N-uplets *)

Theorem nuplets_windows : forall s i c pts size, has_points s i c pts -> arity c = None ->
  (size <= length pts)%nat -> exists w, nuplets i size s = Ok w /\ length w = (length pts - size + 1)%nat /\
  forall k u, nth_error w k = Some u -> length u = size /\ forall m, (m < size)%nat -> nth_error u m = nth_error pts (k + m)%nat.
Proof.
  intros s i c pts size H A L. destruct (get_points _ _ _ _ H) as (p&E&C&R).
  unfold nuplets, get, bind. rewrite E, C, A, R.
  destruct (Nat.ltb_spec (length pts) size); [lia|]. eexists. split; [reflexivity|].
  split; [now rewrite map_length, seq_length|].
  intros k u. rewrite nth_error_map. destruct (nth_error (seq 0 (length pts - size + 1)) k) as [x|] eqn:Ex; [|discriminate].
  apply nth_seq in Ex as [-> Hk]. intros [= <-]. cbn [plus]. split.
  - rewrite firstn_length, skipn_length. lia.
  - intros m Hm. clear - Hm. revert k pts m Hm. 
    assert (F : forall A (l : list A) n m, (m < n)%nat -> nth_error (firstn n l) m = nth_error l m).
    { induction l; intros [|n] [|m] H; simpl; auto; try lia. apply IHl. lia. }
    assert (G : forall A (l : list A) k m, nth_error (skipn k l) m = nth_error l (k + m)).
    { induction l; intros [|k] m; simpl; auto. now destruct m. }
    intros k pts m Hm. now rewrite F, G.
Qed.

(** ** Counterexamples *)

Theorem rectangle_rotated : exists t l x, rotation2 45 = Ok t /\ on_shape CRectangle l x /\
  ~ on_shape CRectangle (map (on_point (Linear t)) l) (on_point (Linear t) x).
Proof.
  eexists _, [V 0 0; V 1 1], (V 1 0). split; [reflexivity|]. split.
  - simpl. unfold Rmin, Rmax. destruct (Rle_dec 0 1); lra.
  - cbn [map on_shape on_point]. unfold apply2, radians. cbn [t2_m a00 a01 a10 a11 vx vy].
    replace (45 * PI / 180) with (PI / 4) by field. rewrite cos_PI4, sin_PI4.
    assert (H : 0 < sqrt 2) by (apply sqrt_lt_R0; lra).
    assert (K : 0 < 1 / sqrt 2) by (apply Rdiv_lt_0_compat; lra).
    set (k := 1 / sqrt 2) in *. rewrite min_max_between. lra.
Qed.

Theorem stale_length : exists l pts s x, has_points (history l) 0 CPolyline pts /\
  polyline_length 0 (history l) = Ok (s, x) /\ x <> total pts.
Proof.
  exists [ENewVector (V 0 0); ENewVector (V 1 0); EConstruct CPolyline [0; 1]%nat; ELength 0; EChange 3 (V 2 0)],
    [V 0 0; V 2 0].
  eexists _, _. split; [eexists; split; [reflexivity|]; split; reflexivity|]. split; [reflexivity|].
  cbn. unfold magnitude, magnitude_square, dot, vsub. cbn.
  replace (_ * _ + _ * _) with 1 by ring. rewrite sqrt_1.
  replace ((2 - 0) * ((2 - 0) * 1) + (0 - 0) * ((0 - 0) * 1)) with (2 * 2) by ring.
  rewrite sqrt_square by lra. lra.
Qed.
