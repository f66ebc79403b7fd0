(** Properties C145, C146, C147: homogeneous and normalised vectors, copies of transformations. *)
From Coq Require Import Reals List Lra Bool.
From Verif Require Import Base ModelVector ModelTransformation ModelHomogeneous SpecVector SpecHomogeneous ProofVector.
Import ListNotations.
Local Open Scope R_scope.

Lemma Reqb_same x : Reqb x x = true. Proof. unfold Reqb. destruct (Req_EM_T x x); congruence. Qed.

(** ** C145 *)
(** The image of a homogeneous vector, compared with the map of the plane; with w = 0 the image of the direction. *)
Theorem C145_image_partial : forall t x y w, exists q, otransform t (set_w (homogeneous (V x y)) w) = Ok q /\
  (w = 1 -> v_xy q = apply t (V x y)) /\ (w = 0 -> v_xy q = linear_part (apply t) (V x y)).
Proof.
  intros t x y w. eexists. split; [reflexivity|]. cbn. split; intros ->; unfold apply, linear_part; cbn; apply vec_eq; cbn; ring.
Qed.
Print Assumptions C145_image_partial.
(** For w = 1 the image stands for the image of the point, whatever the number of transformations; a vector made homogeneous, transformed and
    made a vector again is the vector transformed. *)
Theorem C145_point : forall t v, exists h, otransform t (homogeneous v) = Ok h /\ otransform t (VO CVector v) = Ok (to_vector h) /\
  stands_for (vx (v_xy h)) (vy (v_xy h)) 1 (apply t v) /\ v_class h = CHomogeneous 1.
Proof.
  intros t v. eexists. split; [reflexivity|]. split; [reflexivity|]. split; [|reflexivity].
  unfold stands_for, apply; cbn. split; [lra|split; field].
Qed.
Print Assumptions C145_point.
(** The weight is lost by each operation: the image of (2, 0, 2), which stands for (1, 0), by the translation by (1, 0) is (4, 0, 1). *)
Theorem C145_weight_refuted : exists t h h' p q, v_class h = CHomogeneous 2 /\ stands_for (vx (v_xy h)) (vy (v_xy h)) 2 p /\
  otransform t h = Ok h' /\ v_class h' = CHomogeneous 1 /\ stands_for (vx (v_xy h')) (vy (v_xy h')) 1 q /\ q <> apply t p.
Proof.
  exists (translation (V 1 0)), (set_w (homogeneous (V 2 0)) 2). eexists. exists (V 1 0), (V 4 0).
  split; [reflexivity|]. split; [cbn; unfold stands_for; cbn; repeat split; lra|]. split; [reflexivity|]. split; [reflexivity|].
  split; [cbn; unfold stands_for; cbn; repeat split; lra|]. unfold apply; cbn. intros E. injection E. lra.
Qed.
Print Assumptions C145_weight_refuted.
(** A direction becomes a point: two translations are not their product. *)
Theorem C145_compose_refuted : exists t1 t2 h h1 h2 h12, v_class h = CHomogeneous 0 /\ otransform t1 h = Ok h1 /\ otransform t2 h1 = Ok h2 /\
  otransform (mul t2 t1) h = Ok h12 /\ v_xy h2 <> v_xy h12.
Proof.
  exists (translation (V 1 0)), (translation (V 1 0)), (set_w (homogeneous (V 1 0)) 0). eexists. eexists. eexists.
  split; [reflexivity|]. split; [reflexivity|]. split; [reflexivity|]. split; [reflexivity|]. cbn. intros E. injection E. lra.
Qed.
Print Assumptions C145_compose_refuted.
Theorem C145_compose_partial : forall t1 t2 v, m20 (t_m t1) = 0 -> m21 (t_m t1) = 0 -> m22 (t_m t1) = 1 ->
  bind (otransform t1 (homogeneous v)) (otransform t2) = otransform (mul t2 t1) (homogeneous v).
Proof.
  intros [m1 k1] [m2 k2] v A B C. cbn in *. unfold otransform, homogeneous; cbn. f_equal. f_equal. rewrite A, B, C. apply vec_eq; cbn; ring.
Qed.
Print Assumptions C145_compose_partial.
(** to_vector does not divide by the weight; a clone is equal to the vector exactly when the weight is 1. *)
Theorem C145_to_vector_refuted : forall x y w, w <> 0 -> w <> 1 -> x <> 0 ->
  ~ stands_for x y w (v_xy (to_vector (set_w (homogeneous (V x y)) w))).
Proof.
  intros x y w W N X (_ & E & _). cbn in E. apply N. apply (Rmult_eq_reg_r x); [|exact X]. apply (f_equal (fun z => z * w)) in E.
  unfold Rdiv in E. rewrite Rmult_assoc, Rinv_l in E by exact W. lra.
Qed.
Print Assumptions C145_to_vector_refuted.
Theorem C145_clone_refuted : forall v w, oeqb (vclone (set_w (homogeneous v) w)) (set_w (homogeneous v) w) = true <-> w = 1.
Proof.
  intros v w. unfold oeqb. cbn. rewrite !Reqb_same. cbn. rewrite andb_true_r.
  unfold Reqb. destruct (Req_EM_T 1 w) as [<-|N]; split; auto; try discriminate.
Qed.
Print Assumptions C145_clone_refuted.
(** Nothing can be added to, subtracted from, multiplied by or compared with a homogeneous vector: errors, and never equal to the vector of
    the same coordinates. *)
Theorem C145_arithmetic_refuted : forall a v w, let h := set_w (homogeneous v) w in
  oadd a h = Raise ValueError /\ osub a h = Raise ValueError /\ oiadd a h = Raise ValueError /\ odot a h = Raise ValueError /\
  ocross a h = Raise TypeError /\ oeqb (VO CVector v) h = false /\ oeqb h (to_vector h) = false.
Proof.
  intros a v w. cbn. repeat split; try reflexivity; unfold oeqb; cbn; rewrite ?andb_false_r; reflexivity.
Qed.
Print Assumptions C145_arithmetic_refuted.
(** Other sums give the class of the left operand, and the coordinates added. *)
Theorem C145_sum : forall a b, (forall w, v_class b <> CHomogeneous w) -> exists s, oadd a b = Ok s /\
  vx (v_xy s) = vx (v_xy a) + vx (v_xy b) /\ vy (v_xy s) = vy (v_xy a) + vy (v_xy b) /\
  match v_class a with CHomogeneous _ => v_class s = CHomogeneous 1 | c => v_class s = c end.
Proof.
  intros a [[]] N; cbn; try (destruct (N w eq_refl); fail); eexists; (split; [reflexivity|]); cbn; destruct (v_class a); auto.
Qed.
Print Assumptions C145_sum.
(** Lists of vectors: the vectors of the pairs in order, or an error as soon as an element is no pair; none for the class of homogeneous
    vectors. *)
Theorem C145_from_list : forall c l, (forall w, c <> CHomogeneous w) ->
  (Forall (fun xy => length xy = 2%nat) l -> exists vs, from_list c l = Ok vs /\
     Forall2 (fun xy o => xy = [vx (v_xy o); vy (v_xy o)] /\ v_class o = c) l vs) /\
  (~ Forall (fun xy => length xy = 2%nat) l -> from_list c l = Raise ValueError).
Proof.
  intros c l N. split.
  - induction 1 as [|xy l H _ (vs & E & F)]; [exists []; split; [reflexivity|constructor]|].
    unfold from_list in *. cbn [traverse]. destruct xy as [|x [|y [|]]]; try discriminate H. destruct c; try (destruct (N _ eq_refl); fail).
    all: cbn [bind]; rewrite E; cbn [bind]; eexists; split; [reflexivity|]; constructor; auto.
  - induction l as [|xy l IH]; intros H; [destruct H; constructor|]. unfold from_list in *. cbn [traverse].
    destruct (Nat.eq_dec (length xy) 2) as [L|L].
    + destruct xy as [|x [|y [|]]]; try discriminate L.
      assert (K : ~ Forall (fun xy : list R => length xy = 2%nat) l) by (intros K; apply H; constructor; auto).
      destruct c; try (destruct (N _ eq_refl); fail); cbn [bind]; rewrite IH by exact K; reflexivity.
    + destruct c; try (destruct (N _ eq_refl); fail); destruct xy as [|x [|y [|]]]; try reflexivity; destruct L; reflexivity.
Qed.
Print Assumptions C145_from_list.
Theorem C145_from_list_refuted : forall w xy l, from_list (CHomogeneous w) (xy :: l) = Raise TypeError.
Proof. reflexivity. Qed.
Print Assumptions C145_from_list_refuted.
Example C145_case : otransform (rotation 0) (homogeneous (V 3 4)) = Ok (homogeneous (V 3 4)).
Proof.
  unfold otransform, homogeneous, rotation; cbn. unfold radians. replace (0 * PI / 180) with 0 by field. rewrite cos_0, sin_0.
  f_equal. f_equal. apply vec_eq; cbn; ring.
Qed.

(** ** C146 *)
Theorem C146_unit : forall c v, c <> CNormalised -> ~ null v -> exists n, to_normalised (VO c v) = Ok n /\ v_class n = CNormalised /\
  len (v_xy n) = 1 /\ exists k, 0 < k /\ vx (v_xy n) = k * vx v /\ vy (v_xy n) = k * vy v.
Proof.
  intros c v N Z. pose proof (len_pos v Z) as P.
  assert (M : magnitude v = len v) by reflexivity.
  assert (E : to_normalised (VO c v) = Ok (VO CNormalised (V (vx v / len v) (vy v / len v)))).
  { unfold to_normalised. cbn [v_class v_xy]. rewrite M. unfold vdiv. rewrite Reqb_false by lra. destruct c; [reflexivity|contradiction|reflexivity]. }
  rewrite E. eexists. split; [reflexivity|]. split; [reflexivity|]. cbn [v_xy vx vy]. split.
  - pose proof (len_sq v) as S. clear E M. generalize dependent (len v). intros n P S. unfold len. cbn [vx vy].
    replace (vx v / n * (vx v / n) + vy v / n * (vy v / n)) with ((vx v * vx v + vy v * vy v) / (n * n)) by (field; lra).
    rewrite <- S. replace (n * n / (n * n)) with 1 by (field; lra). apply sqrt_1.
  - exists (/ len v). split; [apply Rinv_0_lt_compat; exact P|]. split; field; lra.
Qed.
Print Assumptions C146_unit.
(** The class does not say that the magnitude is one: the product by a number is of the class, and so is what is built of any coordinates. *)
Theorem C146_scaled_refuted : forall v k, v_class (oscale (VO CNormalised v) k) = CNormalised /\
  len (v_xy (oscale (VO CNormalised v) k)) = Rabs k * len v.
Proof.
  intros v k. split; [reflexivity|]. cbn. unfold len. cbn.
  replace (k * vx v * (k * vx v) + k * vy v * (k * vy v)) with (Rsqr k * (vx v * vx v + vy v * vy v)) by (unfold Rsqr; ring).
  rewrite sqrt_mult; [rewrite sqrt_Rsqr_abs; reflexivity|apply Rle_0_sqr|nra].
Qed.
Print Assumptions C146_scaled_refuted.
Theorem C146_built_refuted : forall x y, v_class (normalised x y) = CNormalised /\ v_xy (normalised x y) = V x y.
Proof. split; reflexivity. Qed.
Print Assumptions C146_built_refuted.
(** A normalised vector cannot be transformed, divided or normalised again. *)
Theorem C146_operations_refuted : forall v t k, otransform t (VO CNormalised v) = Raise ValueError /\
  odiv (VO CNormalised v) k = Raise TypeError /\ to_normalised (VO CNormalised v) = Raise AttributeError.
Proof. repeat split; reflexivity. Qed.
Print Assumptions C146_operations_refuted.
Example C146_case : exists n, to_normalised (VO CVector (V 3 4)) = Ok n /\ v_xy n = V (3/5) (4/5).
Proof.
  unfold to_normalised; cbn. unfold magnitude, magnitude_square, dot; cbn.
  replace (3 * 3 + 4 * 4) with (Rsqr 5) by (unfold Rsqr; lra). rewrite sqrt_Rsqr by lra. unfold vdiv. rewrite Reqb_false by lra.
  eexists. split; [reflexivity|]. reflexivity.
Qed.

(** ** C147 *)
(** A transformation is built of the list of its coefficients, by rows; the list of another length is refused. *)
Theorem C147_list : forall l t, (length l = 9%nat -> exists m k, new_affine (FromList l) t = Ok (Square3 m, k) /\
    l = [m00 m; m01 m; m02 m; m10 m; m11 m; m12 m; m20 m; m21 m; m22 m] /\ (t <> TGeneric -> k = Some t)) /\
  (length l <> 9%nat -> new_affine (FromList l) t = Raise ValueError).
Proof.
  intros l t. split; intros H.
  - do 9 (destruct l as [|? l]; [discriminate H|]). destruct l; [|discriminate H]. unfold new_affine; cbn.
    destruct t; eexists; eexists; (split; [reflexivity|]); (split; [reflexivity|]); intros N; try reflexivity; contradiction.
  - do 9 (destruct l as [|? l]; [reflexivity|]). destruct l; [destruct H; reflexivity|reflexivity].
Qed.
Print Assumptions C147_list.
(** No affine transformation can be copied by its constructor; the copy of a transformation of the plane fails unless its type is given, and
    then an affine one is taken too, which cannot be applied to any vector. *)
Theorem C147_affine_refuted : forall a b t, new_affine (FromAffine a) t = Raise ValueError /\ new_affine (FromPlane b) t = Raise ValueError.
Proof. split; reflexivity. Qed.
Print Assumptions C147_affine_refuted.
Theorem C147_plane_refuted : forall s, (exists e, new_plane s TGeneric = Raise e).
Proof.
  intros s. unfold new_plane. destruct s as [t|t|l|x]; cbn; eauto.
  destruct l as [|? [|? [|? [|? [|]]]]]; cbn; eauto.
Qed.
Print Assumptions C147_plane_refuted.
Theorem C147_mixed_refuted : forall a t v, t <> TGeneric -> exists m, new_plane (FromAffine a) t = Ok (m, Some t) /\ shaped_apply m v = Raise ValueError.
Proof. intros a t v N. destruct t; try contradiction; eexists; split; reflexivity. Qed.
Print Assumptions C147_mixed_refuted.
Theorem C147_plane_copy : forall a t v, t <> TGeneric -> exists m, new_plane (FromPlane a) t = Ok (m, Some t) /\ shaped_apply m v = Ok (apply2 a v).
Proof. intros a t v N. destruct t; try contradiction; eexists; split; reflexivity. Qed.
Print Assumptions C147_plane_copy.
(** A number is no transformation: the error comes late, or not at all when the type is given. *)
Theorem C147_number_refuted : forall x t v, new_affine (FromNumber x) TGeneric = Raise IndexError /\
  (t <> TGeneric -> exists m, new_affine (FromNumber x) t = Ok (m, Some t) /\ shaped_apply m v = Raise ValueError).
Proof. intros x t v. split; [reflexivity|]. intros N. destruct t; try contradiction; eexists; split; reflexivity. Qed.
Print Assumptions C147_number_refuted.
