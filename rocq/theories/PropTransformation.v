(** Properties C14 and C15: transformations. *)
From Coq Require Import Reals List Lra.
From Verif Require Import Base ModelVector SpecVector ModelTransformation SpecTransformation
  ProofTransformation.
Local Open Scope R_scope.

(** C14: however an affine transformation is built (constructors, products, in-place products, in
    any nesting), applying it is applying the geometric meaning of the expression; the product
    applies the right factor first and the in-place product applies the new factor last. *)
Theorem C14_composition : forall e p, apply (build e) p = meaning e p.
Proof. exact build_apply. Qed.
Print Assumptions C14_composition.

Theorem C14_product : forall e1 e2 p,
  apply (mul (build e1) (build e2)) p = apply (build e1) (apply (build e2) p).
Proof.
  intros e1 e2 p. rewrite !build_apply. exact (build_apply (EMul e1 e2) p).
Qed.
Print Assumptions C14_product.

Theorem C14_in_place_product : forall e1 e2 p,
  apply (imul (build e1) (build e2)) p = apply (build e2) (apply (build e1) p).
Proof.
  intros e1 e2 p. rewrite !build_apply. exact (build_apply (EIMul e1 e2) p).
Qed.
Print Assumptions C14_in_place_product.

(** A transformation which the code calls the identity (and skips) is the identity. *)
Theorem C14_identity_tag : forall e, t_type (build e) = Some TIdentity ->
  forall p, apply (build e) p = p.
Proof. exact tag_identity. Qed.
Print Assumptions C14_identity_tag.

Example C14_identity_tag_example :
  t_type (build (EMul (EScale (-1) 1) (EScale (-1) 1))) = Some TIdentity.
Proof. exact tag_identity_example. Qed.

Example C14_order : apply (build (EMul (ETranslation (V 1 0)) (EScale 2 2))) (V 5 7) = V 11 14 /\
  apply (build (EIMul (ETranslation (V 1 0)) (EScale 2 2))) (V 5 7) = V 12 14.
Proof. rewrite !build_apply. split; simpl; f_equal; ring. Qed.

(** The linear class Transformation2D: the product is not always defined (the type check of a
    generic product calls a missing method), and right when it is. *)
Theorem C14_linear_product_defined_refuted : ~ (forall a b, is_ok (mul2 a b)).
Proof. exact mul2_refuted. Qed.
Print Assumptions C14_linear_product_defined_refuted.

Theorem C14_linear_product_partial : forall a b c v, mul2 a b = Ok c ->
  apply2 c v = apply2 a (apply2 b v).
Proof. exact mul2_apply. Qed.
Print Assumptions C14_linear_product_partial.

(** C15 *)
Theorem C15_rotation_at_center : forall c a, apply (rotation_at c a) c = c.
Proof. exact rotation_at_center. Qed.
Print Assumptions C15_rotation_at_center.

Theorem C15_rotation_at_rigid : forall c a, rigid (apply (rotation_at c a)).
Proof. exact rotation_at_rigid. Qed.
Print Assumptions C15_rotation_at_rigid.

Theorem C15_rotation_at : forall c a p,
  turned (rad a) (V (vx p - vx c) (vy p - vy c))
    (V (vx (apply (rotation_at c a) p) - vx c) (vy (apply (rotation_at c a) p) - vy c)).
Proof. exact rotation_at_turned. Qed.
Print Assumptions C15_rotation_at.

Theorem C15_translation : forall v p, apply (translation v) p = V (vx p + vx v) (vy p + vy v).
Proof. exact (fun v => build_apply (ETranslation v)). Qed.
Print Assumptions C15_translation.

Theorem C15_scale : forall x y p, apply (scale x y) p = V (x * vx p) (y * vy p).
Proof. exact (fun x y => build_apply (EScale x y)). Qed.
Print Assumptions C15_scale.

(** "A length is left unchanged by a rigid transformation" is false: RotationAt 60 degrees halves
    lengths. *)
Theorem C15_scalar_rigid_refuted :
  ~ (forall e x y, rigid (apply (build e)) -> scalar (build e) x = Ok y -> y = x).
Proof. exact scalar_rigid_refuted. Qed.
Print Assumptions C15_scalar_rigid_refuted.

(** What holds: when the transformation carries a type, a length is multiplied by the factor by
    which the transformation multiplies all distances.  Missing: products without a type. *)
Theorem C15_scalar_partial : forall e x y t, t_type (build e) = Some t ->
  scalar (build e) x = Ok y -> exists k, similarity (apply (build e)) k /\ y = k * x.
Proof. exact scalar_tagged. Qed.
Print Assumptions C15_scalar_partial.

Example C15_scalar_example :
  scalar (build (EMul (EScale 2 2) (EScale 3 3))) 5 = Ok 30.
Proof. exact scalar_example. Qed.
