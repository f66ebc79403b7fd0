(** Lemmas on the roots of polynomials. *)
From Coq Require Import Reals List Lra Psatz.
From Verif Require Import Base ModelVector ModelRoot ProofVector.
Import ListNotations.
Local Open Scope R_scope.

Definition rv (r : roots) : list R :=
  match r with RNone => [] | ROne x => [x] | RTwo x y => [x; y] | RList l => l end.

Lemma quadratic_root_degenerate c : quadratic_root 0 0 c = Ok RNone.
Proof. unfold quadratic_root. rewrite Reqb_refl. reflexivity. Qed.

Lemma sq_zero x : x * x = 0 -> x = 0.
Proof. intros. apply Rsqr_0_uniq. exact H. Qed.

Lemma quadratic_root_ok a b c : a <> 0 \/ b <> 0 ->
  exists r, quadratic_root a b c = Ok r /\ NoDup (rv r) /\
    forall x, In x (rv r) <-> a * x * x + b * x + c = 0.
Proof.
  intros H. unfold quadratic_root. destruct (Reqb_spec a 0) as [->|Ha].
  - destruct H as [H|H]; [now elim H|].
    rewrite (Reqb_false b 0) by auto. cbn [andb]. rewrite fdiv_ok by auto. cbn [bind].
    eexists; split; [reflexivity|]. split.
    + repeat constructor; simpl; tauto.
    + intros x. simpl. split.
      * intros [<-|[]]. field. auto.
      * intros E. left. apply Rmult_eq_reg_l with b; auto. transitivity (-c); [field; auto|lra].
  - cbn [andb]. set (D := b ^ 2 - 4 * a * c).
    assert (F : forall x, 4 * a * (a * x * x + b * x + c) = (2 * a * x + b) * (2 * a * x + b) - D)
      by (intros; unfold D; ring).
    assert (G : forall x, a * x * x + b * x + c = 0 <-> (2 * a * x + b) * (2 * a * x + b) = D).
    { intros x. split; intros E.
      - specialize (F x). rewrite E in F. lra.
      - apply Rmult_eq_reg_l with (4 * a); [|lra]. rewrite F, E. ring. }
    clearbody D. clear F.
    destruct (Rltb_spec D 0) as [HD|HD].
    + exists RNone. split; [reflexivity|]. split; [constructor|]. intros x. rewrite G. simpl. split; [tauto|]. intros E. pose proof (Rle_0_sqr (2 * a * x + b)) as Q. unfold Rsqr in Q. lra.
    + rewrite fdiv_ok by lra. cbn [bind]. destruct (Rltb_spec 0 D) as [HD'|HD'].
      * eexists; split; [reflexivity|].
        assert (S : sqrt D * sqrt D = D) by (apply sqrt_sqrt; lra).
        assert (P : 0 < sqrt D) by (apply sqrt_lt_R0; lra).
        split.
        { constructor; [|repeat constructor; simpl; tauto]. intros [E|[]].
          apply Rmult_eq_reg_r in E; [lra|]. unfold Rdiv. rewrite Rmult_1_l. apply Rinv_neq_0_compat. lra. }
        intros x. rewrite G. simpl. split.
        { intros [<-|[<-|[]]].
          - transitivity (sqrt D * sqrt D); [field; auto|auto].
          - transitivity (sqrt D * sqrt D); [field; auto|auto]. }
        intros E. rewrite <- S in E.
        assert (K : (2 * a * x + b - sqrt D) * (2 * a * x + b + sqrt D) = 0) by (ring_simplify; ring_simplify in E; lra).
        apply Rmult_integral in K as [K|K].
        { right; left. apply Rmult_eq_reg_l with (2 * a); [|lra]. transitivity (- b + sqrt D); [field; auto|lra]. }
        { left. apply Rmult_eq_reg_l with (2 * a); [|lra]. transitivity (- b - sqrt D); [field; auto|lra]. }
      * eexists; split; [reflexivity|]. assert (D = 0) as -> by lra. split; [repeat constructor; simpl; tauto|].
        intros x. rewrite G. simpl. split.
        { intros [<-|[]]. field; auto. }
        intros E. apply sq_zero in E. left. apply Rmult_eq_reg_l with (2 * a); [|lra]. transitivity (- b); [field; auto|lra].
Qed.

Lemma quadratic_root_order a b c x y : 0 < a -> quadratic_root a b c = Ok (RTwo x y) -> x < y.
Proof.
  intros Ha. unfold quadratic_root. rewrite Reqb_false by lra. cbn [andb].
  rcase; [discriminate|]. rewrite fdiv_ok by lra. cbn [bind]. rcase; [|discriminate].
  intros H. injection H as <- <-.
  assert (P : forall D, 0 < D -> - b - sqrt D < - b + sqrt D)
    by (intros D HD; pose proof (sqrt_lt_R0 D HD); lra).
  apply Rmult_lt_compat_r; [|apply P; assumption]. unfold Rdiv. rewrite Rmult_1_l. apply Rinv_0_lt_compat. lra.
Qed.

Lemma quadratic_root_example : quadratic_root 1 (-3) 2 = Ok (RTwo 1 2).
Proof.
  unfold quadratic_root. rewrite Reqb_false by lra. cbn [andb].
  replace ((-3) ^ 2 - 4 * 1 * 2) with 1 by ring.
  rewrite Rltb_false by lra. rewrite fdiv_ok by lra. cbn [bind]. rewrite Rltb_true by lra.
  rewrite sqrt_1. do 2 f_equal; field.
Qed.

Lemma cubic_root_degenerate f b c d : b <> 0 \/ c <> 0 ->
  exists r, cubic_root f 0 b c d = Ok r /\
    forall x, In x (rv r) <-> 0 * x * x * x + b * x * x + c * x + d = 0.
Proof.
  intros H. destruct (quadratic_root_ok b c d H) as (r & E & _ & I). exists r.
  unfold cubic_root. rewrite Reqb_refl. split; auto. intros x. rewrite I.
  replace (0 * x * x * x + b * x * x + c * x + d) with (b * x * x + c * x + d) by ring. reflexivity.
Qed.

Lemma cube_zero x : x * x * x = 0 -> x = 0.
Proof. intros. apply Rmult_integral in H as [H|H]; auto. now apply sq_zero. Qed.

Lemma _cubic_root_ok a b c d r : _cubic_root a b c d = Ok r ->
  forall x, In x (rv r) <-> a * x * x * x + b * x * x + c * x + d = 0.
Proof.
  unfold _cubic_root.
  match goal with |- context [Reqb ?D 0] => set (D0 := D) end.
  destruct (Reqb_spec D0 0) as [HD|]; [|discriminate]. unfold D0 in HD. clear D0.
  destruct (Reqb_spec (b ^ 2 - 3 * a * c) 0) as [H0|H0].
  - unfold fdiv. rcase; [discriminate|]. cbn [bind]. intros H. injection H as <-.
    assert (Ha : a <> 0) by (intros ->; lra).
    (* D1 = 0 *)
    assert (H1 : 2 * b ^ 3 - 9 * a * b * c + 27 * a ^ 2 * d = 0).
    { apply sq_zero.
      transitivity (4 * (b ^ 2 - 3 * a * c) ^ 3 - 27 * a ^ 2 * (18 * a * b * c * d - 4 * b ^ 3 * d + b ^ 2 * c ^ 2 - 4 * a * c ^ 3 - 27 * a ^ 2 * d ^ 2)); [ring|].
      rewrite H0, HD. ring. }
    assert (G : forall x, 27 * a ^ 2 * (a * x * x * x + b * x * x + c * x + d) =
      (3 * a * x + b) * (3 * a * x + b) * (3 * a * x + b)).
    { intros x. transitivity ((3 * a * x + b) * (3 * a * x + b) * (3 * a * x + b)
         - 3 * (3 * a * x + b) * (b ^ 2 - 3 * a * c) + (2 * b ^ 3 - 9 * a * b * c + 27 * a ^ 2 * d)); [ring|].
      rewrite H0, H1. ring. }
    intros x. simpl. split.
    + intros [<-|[]]. apply Rmult_eq_reg_l with (27 * a ^ 2).
      * rewrite G. field. auto.
      * simpl. assert (0 < a * a) by (apply Rlt_0_sqr; auto). lra.
    + intros E. specialize (G x). rewrite E, Rmult_0_r in G. symmetry in G. apply cube_zero in G.
      left. apply Rmult_eq_reg_l with (3 * a); [|lra]. transitivity (- b); [field; auto|lra].
  - unfold fdiv at 1. rcase; [discriminate|]. cbn [bind]. unfold fdiv. rcase; [discriminate|]. cbn [bind].
    assert (Ha : a <> 0) by (intros ->; lra).
    set (E0 := b ^ 2 - 3 * a * c) in *.
    set (p := 9 * a * d - b * c). set (q := 4 * a * b * c - 9 * a ^ 2 * d - b ^ 3).
    intros H. injection H as <-.
    (* a (2 E0 x - p)^2 (a E0 x - q) = 4 a^2 E0^3 f(x) when D = 0 *)
    assert (G : forall x, (2 * E0 * x - p) * (2 * E0 * x - p) * (a * E0 * x - q) =
       4 * E0 ^ 3 * (a * x * x * x + b * x * x + c * x + d)).
    { intros x.
      assert (K : exists k, (2 * E0 * x - p) * (2 * E0 * x - p) * (a * E0 * x - q) -
        4 * E0 ^ 3 * (a * x * x * x + b * x * x + c * x + d) =
        k * (18 * a * b * c * d - 4 * b ^ 3 * d + b ^ 2 * c ^ 2 - 4 * a * c ^ 3 - 27 * a ^ 2 * d ^ 2)).
      { exists (9 * a * E0 * x + (b ^ 3 - 27 * a ^ 2 * d)). unfold E0, p, q. ring. }
      destruct K as [k K]. rewrite HD in K. lra. }
    assert (C : 4 * E0 ^ 3 <> 0) by (apply Rmult_integral_contrapositive; split; [lra|apply pow_nonzero; auto]).
    assert (N : a * E0 <> 0) by auto.
    intros x. cbn [rv In]. split.
    + intros Hx. apply Rmult_eq_reg_l with (4 * E0 ^ 3); auto. rewrite <- G. destruct Hx as [<-|[<-|[]]].
      * fold p. transitivity (0 * (2 * E0 * (p / (2 * E0)) - p) * (a * E0 * (p / (2 * E0)) - q)); [|ring].
        do 2 f_equal. field. auto.
      * fold q. transitivity ((2 * E0 * (q / (a * E0)) - p) * (2 * E0 * (q / (a * E0)) - p) * 0); [|ring].
        f_equal. field. auto.
    + intros E. specialize (G x). rewrite E, Rmult_0_r in G.
      apply Rmult_integral in G as [G|G].
      * apply sq_zero in G. left. apply Rmult_eq_reg_l with (2 * E0); [|lra]. fold p. transitivity p; [field; auto|lra].
      * right; left. apply Rmult_eq_reg_l with (a * E0); auto. fold q. transitivity q; [field; auto|lra].
Qed.

Lemma _cubic_root_example : _cubic_root 1 (-5) 7 (-3) = Ok (RTwo 1 3).
Proof.
  unfold _cubic_root.
  match goal with |- context [Reqb ?D 0] => replace D with 0 by ring end. rewrite Reqb_refl.
  rewrite Reqb_false by lra. rewrite !fdiv_ok by lra. cbn [bind]. do 2 f_equal; field.
Qed.

Lemma cubic_root_normalised_refuted :
  ~ (forall a b c l x, cubic_root_normalised a b c = Ok (RList l) -> In x l ->
       x * x * x + a * x * x + b * x + c = 0).
Proof.
  intros H.
  assert (E : cubic_root_normalised 0 0 (-8) = Ok (RList [8/3])).
  { unfold cubic_root_normalised.
    replace ((0 ^ 2 - 3 * 0) / 9) with 0 by field.
    replace ((2 * 0 ^ 3 - 9 * 0 * 0 + 27 * -8) / 54) with (-4) by field.
    unfold fsqrt. rewrite Rltb_false by lra. cbn [bind].
    replace ((-4) ^ 2 - 0 ^ 3) with (4 * 4) by ring. rewrite Rltb_false by lra. cbn [bind].
    rewrite sqrt_square by lra. unfold sign. rewrite Rltb_true by lra. rewrite Rabs_left by lra.
    rewrite Reqb_false by lra. rewrite fdiv_ok by lra. cbn [bind].
    rewrite Rltb_false by lra. do 3 f_equal. field. }
  specialize (H _ _ _ _ (8/3) E (or_introl eq_refl)). lra.
Qed.
