(** Lemmas on transformations. *)
From Coq Require Import Reals List Lra Psatz.
From Verif Require Import Base ModelVector SpecVector ProofVector ModelTransformation
  SpecTransformation.
Import ListNotations.
Local Open Scope R_scope.

Definition affine (m : mat3) : Prop := m20 m = 0 /\ m21 m = 0 /\ m22 m = 1.

(** The tag describes the matrix. *)
Definition tag_sound (t : transformation) : Prop :=
  let m := t_m t in
  match t_type t with
  | Some TIdentity => m = M3 1 0 0 0 1 0 0 0 1
  | Some TScale => exists k, m = M3 k 0 0 0 k 0 0 0 1
  | Some TShear => m01 m = 0 /\ m10 m = 0
  | Some TParity => m = M3 (-1) 0 0 0 (-1) 0 0 0 1
  | Some TXParity => m = M3 (-1) 0 0 0 1 0 0 0 1
  | Some TYParity => m = M3 1 0 0 0 (-1) 0 0 0 1
  | Some TRotation => exists a, m = M3 (cos a) (- sin a) 0 (sin a) (cos a) 0 0 0 1
  | Some TTranslation => exists x y, m = M3 1 0 x 0 1 y 0 0 1
  | Some TGeneric | None => True
  end.

Lemma matmul_affine a b : affine a -> affine b -> affine (matmul a b).
Proof.
  intros (A1 & A2 & A3) (B1 & B2 & B3). unfold affine, matmul; simpl.
  rewrite A1, A2, A3, B1, B2, B3. repeat split; ring.
Qed.

Lemma type_for_scale_sound x y : tag_sound (scale x y).
Proof.
  unfold tag_sound, scale; simpl. unfold type_for_scale.
  destruct (Reqb_spec x y) as [->|].
  - destruct (Reqb_spec y 1) as [->|]; [reflexivity|].
    destruct (Reqb_spec y (-1)) as [->|]; [reflexivity|]. eauto.
  - destruct (Reqb_spec x (-1)) as [Ex|Nx], (Reqb_spec y 1) as [Ey|Ny]; simpl;
      try (rewrite Ex, Ey; reflexivity);
      destruct (Reqb_spec x 1) as [Ex1|], (Reqb_spec y (-1)) as [Ey1|]; simpl; auto;
      try (rewrite Ex1, Ey1; reflexivity).
Qed.

Lemma mat_eq a b :
  m00 a = m00 b -> m01 a = m01 b -> m02 a = m02 b -> m10 a = m10 b -> m11 a = m11 b ->
  m12 a = m12 b -> m20 a = m20 b -> m21 a = m21 b -> m22 a = m22 b -> a = b.
Proof. destruct a, b; simpl; intros; subst; reflexivity. Qed.

Lemma ttype_eqb_true a b : ttype_eqb a b = true -> a = b.
Proof. destruct a, b; simpl; congruence. Qed.

(** Soundness of the tag of a product of matrices [a b], for any order of the factors. *)
Lemma mul_type_sound a b ta tb : tag_sound (T a ta) -> tag_sound (T b tb) ->
  tag_sound (T (matmul a b) (checked (mul_type ta tb))).
Proof.
  unfold mul_type. destruct (tag_eqb ta tb) eqn:E; [|intros; exact I].
  destruct ta as [ta|], tb as [tb|]; simpl in E; try discriminate; [|intros; exact I].
  apply ttype_eqb_true in E. subst tb. unfold tag_sound; simpl.
  destruct ta; simpl; auto.
  - intros [k ->] [l ->]. exists (k * l). apply mat_eq; simpl; ring.
  - intros -> ->. apply mat_eq; simpl; ring.
  - intros -> ->. apply mat_eq; simpl; ring.
  - intros -> ->. apply mat_eq; simpl; ring.
  - intros [s ->] [t ->]. exists (s + t). rewrite cos_plus, sin_plus. apply mat_eq; simpl; ring.
Qed.

Lemma new_eq m t : new m t = T m (checked t).
Proof. reflexivity. Qed.

Lemma mul_type_comm a b : mul_type a b = mul_type b a.
Proof.
  unfold mul_type. destruct a as [a|], b as [b|]; simpl; auto. destruct a, b; reflexivity.
Qed.

Lemma imul_sound a b : tag_sound a -> tag_sound b -> tag_sound (imul a b).
Proof.
  intros Ha Hb. destruct a as [ma ta], b as [mb tb]. unfold imul; simpl.
  assert (S : tag_sound (T (matmul mb ma) (checked (mul_type ta tb)))).
  { rewrite mul_type_comm. exact (mul_type_sound mb ma tb ta Hb Ha). }
  destruct tb as [[]|]; auto.
Qed.

Lemma rotation_at_sound c a : tag_sound (rotation_at c a).
Proof. apply imul_sound; [apply imul_sound|]; unfold tag_sound; simpl; eauto. Qed.

Lemma build_sound e : tag_sound (build e).
Proof.
  induction e; simpl.
  - reflexivity.
  - unfold tag_sound; simpl; eauto.
  - unfold tag_sound; simpl; eauto.
  - apply type_for_scale_sound.
  - exact I.
  - apply rotation_at_sound.
  - exact I.
  - unfold mul. rewrite new_eq. destruct (build e1) as [ma ta], (build e2) as [mb tb]. exact (mul_type_sound ma mb ta tb IHe1 IHe2).
  - apply imul_sound; auto.
Qed.

Lemma imul_affine a b : affine (t_m a) -> affine (t_m b) -> affine (t_m (imul a b)).
Proof.
  intros. unfold imul. destruct (t_type b) as [[]|]; simpl; auto; apply matmul_affine; auto.
Qed.

Lemma build_affine e : affine (t_m (build e)).
Proof.
  induction e; cbn [build].
  all: try (repeat split; reflexivity).
  - unfold rotation_at. apply imul_affine; [apply imul_affine|]; repeat split.
  - unfold mul. rewrite new_eq. apply matmul_affine; auto.
  - apply imul_affine; auto.
Qed.

Definition mapply (m : mat3) (v : vec) : vec :=
  V (m00 m * vx v + m01 m * vy v + m02 m) (m10 m * vx v + m11 m * vy v + m12 m).

Lemma apply_mapply a v : apply a v = mapply (t_m a) v.
Proof. apply vec_eq; simpl; ring. Qed.

Lemma matmul_apply a b v : affine b -> mapply (matmul a b) v = mapply a (mapply b v).
Proof. intros (H1 & H2 & H3). apply vec_eq; simpl; rewrite H1, H2, H3; ring. Qed.

Lemma imul_apply a b v : affine (t_m a) -> tag_sound b ->
  mapply (t_m (imul a b)) v = mapply (t_m b) (mapply (t_m a) v).
Proof.
  intros A B. unfold imul, tag_sound in *.
  destruct (t_type b) as [[]|]; simpl; try (apply matmul_apply; auto).
  rewrite B. apply vec_eq; simpl; ring.
Qed.

Lemma build_apply e v : apply (build e) v = meaning e v.
Proof.
  rewrite apply_mapply. revert v. induction e; intros p; simpl.
  - apply vec_eq; simpl; ring.
  - apply vec_eq; simpl; ring.
  - rewrite radians_rad. apply vec_eq; simpl; ring.
  - apply vec_eq; simpl; ring.
  - apply vec_eq; simpl; ring.
  - unfold rotation_at, imul; simpl. rewrite radians_rad. apply vec_eq; simpl; ring.
  - reflexivity.
  - rewrite matmul_apply by apply build_affine.
    rewrite IHe1, IHe2. reflexivity.
  - rewrite imul_apply by (apply build_affine || apply build_sound). rewrite IHe1, IHe2. reflexivity.
Qed.

Lemma dist_scale k p q p' q' : 
  (vx p' - vx q') * (vx p' - vx q') + (vy p' - vy q') * (vy p' - vy q') =
  k * k * ((vx p - vx q) * (vx p - vx q) + (vy p - vy q) * (vy p - vy q)) ->
  dist p' q' = Rabs k * dist p q.
Proof.
  intros H. unfold dist. rewrite H. rewrite sqrt_mult; [|nra|apply sumsq_nonneg].
  f_equal. rewrite <- sqrt_Rsqr_abs. reflexivity.
Qed.

Lemma dist_same p q p' q' : 
  (vx p' - vx q') * (vx p' - vx q') + (vy p' - vy q') * (vy p' - vy q') =
  (vx p - vx q) * (vx p - vx q) + (vy p - vy q) * (vy p - vy q) ->
  dist p' q' = dist p q.
Proof. intros H. unfold dist. rewrite H. reflexivity. Qed.

Lemma turn_sq a x y : (cos a * x - sin a * y) * (cos a * x - sin a * y) +
  (sin a * x + cos a * y) * (sin a * x + cos a * y) = x * x + y * y.
Proof.
  pose proof (sin2_cos2 a) as H. unfold Rsqr in H.
  transitivity ((sin a * sin a + cos a * cos a) * (x * x + y * y)); [ring|]. rewrite H. ring.
Qed.

Lemma rotation_at_rigid c a : rigid (apply (rotation_at c a)).
Proof.
  intros p q. rewrite !(build_apply (ERotationAt c a)). apply dist_same. simpl.
  rewrite <- (turn_sq (rad a) (vx p - vx q) (vy p - vy q)). ring.
Qed.

Lemma rotation_rigid a : rigid (apply (rotation a)).
Proof.
  intros p q. rewrite !(build_apply (ERotation a)). apply dist_same. simpl.
  rewrite <- (turn_sq (rad a) (vx p - vx q) (vy p - vy q)). ring.
Qed.

Lemma translation_rigid v : rigid (apply (translation v)).
Proof.
  intros p q. rewrite !(build_apply (ETranslation v)). apply dist_same. simpl. ring.
Qed.

Lemma rotation_at_center c a : apply (rotation_at c a) c = c.
Proof. rewrite (build_apply (ERotationAt c a)). apply vec_eq; simpl; ring. Qed.

Lemma rigid_similarity f : rigid f -> similarity f 1.
Proof. intros H. split; [lra|]. intros. rewrite H. ring. Qed.

(** A scalar multiplied by a tagged transformation is scaled by the factor of the distances. *)
Lemma scalar_tagged e x y t : t_type (build e) = Some t -> scalar (build e) x = Ok y ->
  exists k, similarity (apply (build e)) k /\ y = k * x.
Proof.
  intros Ht Hs. pose proof (build_sound e) as S. unfold scalar in Hs. unfold tag_sound in S.
  rewrite Ht in *.
  assert (D : forall k, (forall p q,
    (vx (apply (build e) p) - vx (apply (build e) q)) * (vx (apply (build e) p) - vx (apply (build e) q)) +
    (vy (apply (build e) p) - vy (apply (build e) q)) * (vy (apply (build e) p) - vy (apply (build e) q)) =
    k * k * ((vx p - vx q) * (vx p - vx q) + (vy p - vy q) * (vy p - vy q))) ->
    similarity (apply (build e)) (Rabs k)).
  { intros k Hk. split; [apply Rabs_pos|]. intros p q. apply dist_scale. apply Hk. }
  destruct t; try discriminate; injection Hs as <-.
  - exists (Rabs 1). split; [|rewrite Rabs_R1; ring]. apply D. intros p q. rewrite !apply_mapply, S. simpl. ring.
  - destruct S as [k S]. exists (Rabs k). split; [|rewrite S; reflexivity]. apply D. intros p q.
    rewrite !apply_mapply, S. simpl. ring.
  - exists (Rabs (-1)). split; [|rewrite S; reflexivity]. apply D. intros p q. rewrite !apply_mapply, S. simpl. ring.
  - exists (Rabs (-1)). split; [|rewrite S; reflexivity]. apply D. intros p q. rewrite !apply_mapply, S. simpl. ring.
  - exists (Rabs 1). split; [|rewrite S; reflexivity]. apply D. intros p q. rewrite !apply_mapply, S. simpl. ring.
  - destruct S as [a S]. exists (Rabs 1). split; [|rewrite Rabs_R1; ring]. apply D. intros p q.
    rewrite !apply_mapply, S. simpl. rewrite !Rmult_1_l.
    rewrite <- (turn_sq a (vx p - vx q) (vy p - vy q)). ring.
  - destruct S as (u & v & S). exists (Rabs 1). split; [|rewrite S; reflexivity]. apply D. intros p q.
    rewrite !apply_mapply, S. simpl. ring.
Qed.

Lemma scalar_rigid_refuted :
  ~ (forall e x y, rigid (apply (build e)) -> scalar (build e) x = Ok y -> y = x).
Proof.
  intros H. specialize (H (ERotationAt (V 0 0) 60) 1 (1/2) (rotation_at_rigid _ _)).
  assert (E : scalar (build (ERotationAt (V 0 0) 60)) 1 = Ok (1/2)).
  { unfold scalar; simpl. replace (radians 60) with (PI/3) by (unfold radians; field).
    rewrite cos_PI3. f_equal. rewrite Rabs_right; lra. }
  apply H in E. lra.
Qed.

Lemma tag_identity e : t_type (build e) = Some TIdentity -> forall p, apply (build e) p = p.
Proof.
  intros H p. pose proof (build_sound e) as S. unfold tag_sound in S. rewrite H in S.
  rewrite apply_mapply, S. apply vec_eq; simpl; ring.
Qed.

Lemma mul2_apply a b c v : mul2 a b = Ok c -> apply2 c v = apply2 a (apply2 b v).
Proof.
  unfold mul2, new2. intros H.
  assert (t2_m c = matmul2 (t2_m a) (t2_m b)) as E.
  { destruct (mul_type _ _); inversion H; reflexivity. }
  unfold apply2. rewrite E. apply vec_eq; simpl; ring.
Qed.

Lemma mul2_refuted : ~ (forall a b, is_ok (mul2 a b)).
Proof.
  intros H. specialize (H (T2 (M2 1 0 0 1) (Some TRotation)) (T2 (M2 2 0 0 2) (Some TScale))).
  destruct H as [c H]. discriminate.
Qed.

Lemma rotation_at_turned c a p :
  turned (rad a) (V (vx p - vx c) (vy p - vy c))
    (V (vx (apply (rotation_at c a) p) - vx c) (vy (apply (rotation_at c a) p) - vy c)).
Proof. rewrite (build_apply (ERotationAt c a)). unfold turned; simpl. split; ring. Qed.

Lemma tag_identity_example :
  t_type (build (EMul (EScale (-1) 1) (EScale (-1) 1))) = Some TIdentity.
Proof.
  simpl. unfold type_for_scale.
  rewrite Reqb_false by lra. rewrite !Reqb_refl. reflexivity.
Qed.

Lemma scalar_example : scalar (build (EMul (EScale 2 2) (EScale 3 3))) 5 = Ok 30.
Proof.
  assert (E : t_type (build (EMul (EScale 2 2) (EScale 3 3))) = Some TScale).
  { cbn [build]. unfold mul, new, scale. cbn [t_type]. unfold type_for_scale. rewrite !Reqb_refl.
    rewrite !Reqb_false by lra. reflexivity. }
  unfold scalar. rewrite E. f_equal. simpl. rewrite Rabs_right; lra.
Qed.
