(** Which calls of the constructors and of the setters of primitives succeed (C99). *)
From Coq Require Import Reals Lra Lia List ZArith Bool Arith.
From Verif Require Import Base ModelVector SpecVector ProofVector ModelTransformation ModelPrimitive SpecPrimitive ProofPrimitive.
Import ListNotations.
Local Open Scope R_scope.

(** The points a primitive is made of. *)
Definition number_of_points (c : pclass) : option nat :=
  match c with
  | CSegment => Some 2%nat | CRectangle => Some 2%nat | CTriangle => Some 3%nat | CQuadraticBezier => Some 3%nat
  | CCubicBezier => Some 4%nat | CQuadraticSpline => Some 3%nat | CCubicSpline => Some 4%nat
  | CBSpline _ | CPolyline | CPolygon => None
  end.
Definition enough_points (c : pclass) : nat :=
  match c with CBSpline d => d + 1 | CPolyline => 2 | CPolygon => 3 | _ => 0 end.
Definition suitable (c : pclass) (l : list vec) : Prop :=
  (forall n, number_of_points c = Some n -> length l = n) /\ (enough_points c <= length l)%nat /\
  (c = CTriangle -> forall a b d, l = [a; b; d] ->
     5 / 10 ^ 8 < Rabs ((vx b - vx a) * (vy d - vy a) - (vy b - vy a) * (vx d - vx a))).

Theorem C99_constructible : forall c args s, is_ok (construct c args s) <-> suitable c (map (read s) args).
Proof.
  intros c args s. unfold construct. fold (reads s args). set (l := reads s args).
  transitivity (is_ok (accepts c l)).
  { unfold is_ok. destruct (accepts c l); cbn; split; intros [x H]; try discriminate; eauto. }
  unfold is_ok, accepts, suitable.
  assert (T : forall a b d : vec, is_parallel (vsub b a) (vsub d a) = false <->
    5 / 10 ^ 8 < Rabs ((vx b - vx a) * (vy d - vy a) - (vy b - vy a) * (vx d - vx a))).
  { intros a b d. unfold is_parallel, round7_is_zero, cross, vsub. cbn [vx vy].
    destruct (Rleb_spec (Rabs ((vx b - vx a) * (vy d - vy a) - (vy b - vy a) * (vx d - vx a))) (5 / 10 ^ 8));
      split; intro; try discriminate; auto; lra. }
  destruct c; cbn [arity number_of_points enough_points];
  try (match goal with |- context [Nat.eqb (length l) ?n] => destruct (Nat.eqb_spec (length l) n) end; split;
    [intros _; split; [intros ? [= <-]; assumption|split; [lia|discriminate]]
    |intros _; eauto|intros [x H]; discriminate|intros (H & _); specialize (H _ eq_refl); contradiction]);
  try (match goal with |- context [Nat.ltb (length l) ?n] => destruct (Nat.ltb_spec (length l) n) end; split;
    [intros [x Q]; discriminate|intros (_ & H1 & _); lia
    |intros _; split; [discriminate|split; [lia|discriminate]]|eauto]).
  destruct l as [|a [|b [|d [|]]]];
    try (split; [intros [x H]; discriminate|intros (H & _); specialize (H _ eq_refl); discriminate]).
  pose proof (T a b d) as Q. destruct (is_parallel (vsub b a) (vsub d a)).
  - split; [intros [x H]; discriminate|]. intros (_ & _ & H). specialize (H eq_refl _ _ _ eq_refl). apply Q in H. discriminate.
  - split; [|eauto]. intros _. split; [intros ? [= <-]; reflexivity|]. split; [cbn; lia|].
    intros _ a' b' d' [= <- <- <-]. apply Q. reflexivity.
Qed.
Print Assumptions C99_constructible.

(** A point is set through the attributes p0, p1, ... the class has. *)
Theorem C99_settable : forall s i c l k a, has_points s i c l ->
  (is_ok (set_point i k a s) <-> exists n, number_of_points c = Some n /\ (k < n)%nat).
Proof.
  intros s i c l k a (p & E & C & _). unfold set_point, get. rewrite E. cbn [bind]. rewrite C. unfold is_ok.
  destruct c; cbn [arity number_of_points];
  try (match goal with |- context [Nat.ltb k ?n] => destruct (Nat.ltb_spec k n) end; cbn; split; intros [x H']; eauto;
       try discriminate; destruct H' as [[= <-] H']; lia);
  split; intros [x H]; try discriminate; destruct H; discriminate.
Qed.
Print Assumptions C99_settable.

Example C99_suitable_case : suitable CTriangle [V 0 0; V 1 0; V 0 1] /\ ~ suitable CSegment [V 0 0; V 1 0; V 0 1] /\
  suitable (CBSpline 3) [V 0 0; V 1 0; V 0 1; V 1 1; V 2 2].
Proof.
  split; [|split].
  - split; [intros n [= <-]; reflexivity|]. split; [cbn; lia|]. intros _ a b d [= <- <- <-]. cbn [vx vy].
    rewrite Rabs_right; lra.
  - intros (H & _). specialize (H _ eq_refl). discriminate.
  - split; [discriminate|]. split; [cbn; lia|discriminate].
Qed.
