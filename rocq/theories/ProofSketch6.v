(** The evaluation of each kind of operation. *)
From Coq Require Import String Reals List ZArith Bool Lia Lra.
From Verif Require Import Base ModelVector SpecVector ProofVector ModelLine SpecLine ProofLine ModelConic SpecConic GlueConic ProofConic2
  ModelSketch SpecSketch GlueSketch ProofSketch ProofSketch2 ProofSketch3 ProofSketch5.
Import ListNotations.
Local Open Scope R_scope.

Lemma normalise_along a b u l : normalise (vsub b a) = Ok u -> along a b l (vadd a (vscale u l)).
Proof.
  unfold normalise, vdiv. destruct (Reqb_spec (magnitude (vsub b a)) 0) as [E|E]; [discriminate|].
  intro H. injection H as <-. rewrite magnitude_len, len_dist0, dist_sym in *. split.
  - intros ->. apply E. unfold dist. replace ((vx b - vx b) * (vx b - vx b) + (vy b - vy b) * (vy b - vy b)) with 0 by ring.
    apply sqrt_0.
  - cbn. split; reflexivity.
Qed.
Lemma end_line_ok a t l : end_line a t l (vadd a (vscale (from_angle t) l)).
Proof. unfold end_line, from_angle. cbn. rewrite radians_rad. auto. Qed.
Lemma normal_ok a b u t l : normalise (vsub b a) = Ok u ->
  on_normal a b t l (vadd a (vscale (if Reqb t 0 then normal u else rotate (normal u) t true) l)).
Proof.
  intro H. exists u, (if Reqb t 0 then normal u else rotate (normal u) t true). split; [|split].
  - pose proof (normalise_along a b u 1 H) as A.
    replace (V (vx a + vx u) (vy a + vy u)) with (vadd a (vscale u 1)); [exact A|]. apply vec_eq; cbn; ring.
  - assert (C : cos (rad (90 + t)) = - sin (rad t) /\ sin (rad (90 + t)) = cos (rad t)).
    { replace (rad (90 + t)) with (PI / 2 + rad t) by (unfold rad; field). rewrite cos_plus, sin_plus, cos_PI2, sin_PI2. split; ring. }
    destruct C as [C1 C2]. unfold turned. rewrite C1, C2. destruct (Reqb_spec t 0) as [->|N].
    + replace (rad 0) with 0 by (unfold rad; field). rewrite cos_0, sin_0. cbn. split; ring.
    + unfold rotate. cbn. rewrite radians_rad. split; ring.
  - cbn. split; reflexivity.
Qed.

Ltac step H := apply then_inv in H; let x := fresh "r" in let s := fresh "s" in let E := fresh "E" in destruct H as (x & s & E & H); cbn beta in H.
Lemma returns_inv {A} (r : result A) s a s' : returns r s = (Ok a, s') -> r = Ok a /\ s' = s.
Proof. unfold returns. intro H. injection H. auto. Qed.

Section Kinds.
  Variables (i : nat) (s0 : sketch) (o0 : op).
  Hypothesis Ho : nth_error (ops s0) i = Some o0.
  Hypothesis Rf : forall j, In j (o_refs o0) -> j <> i.
  Hypothesis Ar : length (o_exprs o0) = snd (signature (o_kind o0)).

  Lemma start : midway i s0 o0 (segment s0) s0 o0 (fun _ => False).
  Proof.
    pose proof (midway_start i s0 o0 (segment s0) Ho) as M. replace (set_segment (segment s0) s0) with s0 in M; [exact M|].
    destruct s0; reflexivity.
  Qed.
  Lemma ref_start k v s' : ref_vector o0 k s0 = (Ok v, s') -> s' = s0 /\ (forall p, v = Some p -> at_ref s0 o0 k p).
  Proof.
    intro H. destruct (ref_vector_ok _ _ _ _ _ H) as (-> & j & p & J & P & V0). split; [reflexivity|].
    intros q ->. exists j, p. auto.
  Qed.
  Lemma ref_mid sg s o done k p : midway i s0 o0 sg s o done -> at_ref s0 o0 k p -> at_ref s o k p.
  Proof.
    intros M. apply (at_ref_frame i s0 s); [exact (mw_frame _ _ _ _ _ _ _ M)|exact Rf|].
    exact (proj1 (alike_refs _ _ (mw_alike _ _ _ _ _ _ _ M))).
  Qed.
  Lemma ref_end s o f k p : nth_error (ops s) i = Some o -> o_refs o = o_refs o0 -> psig (f o) = psig o ->
    at_ref s o k p -> at_ref (set_ops (update i (f o) (ops s)) s) (f o) k p.
  Proof.
    intros H R E. apply (at_ref_frame i s); [exact (put_frame s i o (f o) H E)|rewrite R; exact Rf|].
    destruct (psig_fields _ _ E) as (_ & _ & _ & _ & R' & _). exact R'.
  Qed.
  (** The assignment of the vector. *)
  Lemma finish_vector sg s o done v s' : midway i s0 o0 sg s o done ->
    put_op i (set_vector v) s = (Ok tt, s') ->
    (forall j, (j < length (o_exprs o0))%nat -> done j) ->
    (forall j e, nth_error (o_exprs o) j = Some e -> x_value e = None -> o_kind o0 = KNormal /\ j = 0%nat) ->
    (segment s0 = None -> forall w, sg = Some w -> (o_kind o0 = KAlong \/ o_kind o0 = KNormal) /\
      exists a b, at_ref s o 0 a /\ at_ref s o 1 b /\ w = vsub b a) ->
    (forall s1, (forall k p, at_ref s o k p -> at_ref s1 (set_vector v o) k p) -> placed s1 (set_vector v o)) ->
    (sg = segment s0 -> evaluated i s0 o0 s' (set_vector v o)) /\ evaluated i s0 o0 (set_segment None s') (set_vector v o).
  Proof.
    intros M E D Nn Sg P. rewrite (put_op_eq s i o _ (mw_op _ _ _ _ _ _ _ M)) in E. injection E as <-.
    set (s1 := set_ops (update i (set_vector v o) (ops s)) s).
    assert (P1 : placed s1 (set_vector v o)).
    { apply P. intros k p. apply (ref_end s o (set_vector v) k p (mw_op _ _ _ _ _ _ _ M)); [|reflexivity].
      exact (proj1 (alike_refs _ _ (mw_alike _ _ _ _ _ _ _ M))). }
    pose proof (finish i s0 o0 sg s o done (set_vector v) M (fun _ => eq_refl) (fun _ => eq_refl) (fun _ => eq_refl) D Nn Sg Rf P1) as Q.
    split; [intro Es; apply Q; left; auto|apply Q; right; reflexivity].
  Qed.
End Kinds.

Ltac lt_cases := let j := fresh "j" in let H := fresh "Hj" in intros j H; cbn in H; 
  first [lia | destruct j as [|[|[|[|j]]]]; first [tauto | lia | (cbn; auto 6)]].
