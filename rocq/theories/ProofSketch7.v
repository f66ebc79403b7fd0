(** The evaluation of each kind of operation. *)
From Coq Require Import String Reals List ZArith Bool Lia Lra.
From Verif Require Import Base ModelVector SpecVector ProofVector ModelLine SpecLine ProofLine ModelConic SpecConic GlueConic ProofConic2
  ModelSketch SpecSketch GlueSketch ProofSketch ProofSketch2 ProofSketch3 ProofSketch5 ProofSketch6.
Import ListNotations.
Local Open Scope R_scope.

Lemma at_expr_keep o o' k x : nth_error (o_exprs o') k = nth_error (o_exprs o) k -> at_expr o k x -> at_expr o' k x.
Proof. unfold at_expr. intros ->. auto. Qed.
Lemma at_expr_value o k x e : at_expr o k x -> nth_error (o_exprs o) k = Some e -> x_value e = None -> False.
Proof. intros (e' & H & V0) H' N. congruence. Qed.

Section Kinds.
  Variables (i : nat) (s0 : sketch) (o0 : op).
  Hypothesis Ho : nth_error (ops s0) i = Some o0.
  Hypothesis Rf : forall j, In j (o_refs o0) -> j <> i.
  Hypothesis Ar : length (o_exprs o0) = snd (signature (o_kind o0)).

  Lemma no_segment s o : segment s0 = None -> forall w, segment s0 = Some w -> (o_kind o0 = KAlong \/ o_kind o0 = KNormal) /\
      exists a b, at_ref s o 0 a /\ at_ref s o 1 b /\ w = vsub b a.
  Proof. congruence. Qed.
  Lemma length_alike o : alike o0 o -> length (o_exprs o) = length (o_exprs o0).
  Proof. intros (A & _). destruct (psig_fields _ _ A) as (_ & _ & _ & _ & _ & X). apply (f_equal (@length _)) in X. rewrite !map_length in X. exact X. Qed.

  Lemma single s' : o_kind o0 = KSingle -> eval_internal i o0 s0 = (Ok tt, s') -> exists o, evaluated i s0 o0 s' o.
  Proof.
    intros K H. unfold eval_internal in H. rewrite K in *. cbn zeta in H. step H. step H.
    destruct (midway_value _ _ _ _ _ _ _ 0%nat _ _ (start i s0 o0 Ho) (fun x => x) E) as (o1 & M1 & (e1 & X1 & V1 & _) & K1).
    destruct (midway_value _ _ _ _ _ _ _ 1%nat _ _ M1 ltac:(cbv beta; intuition lia) E0) as (o2 & M2 & (e2 & X2 & V2 & _) & K2).
    destruct r as [x|]; [|discriminate]. destruct r0 as [y|]; [|discriminate].
    assert (A0 : at_expr o2 0 x) by (exists e1; rewrite K2 by lia; auto). assert (A1 : at_expr o2 1 y) by (exists e2; auto).
    assert (Ln : length (o_exprs o2) = 2%nat) by (rewrite (length_alike o2 (mw_alike _ _ _ _ _ _ _ M2)); exact Ar).
    exists (set_vector (Some (V x y)) o2).
    refine (proj1 (finish_vector i s0 o0 Rf _ _ _ _ _ _ M2 H _ _ (no_segment _ _) _) eq_refl).
    - rewrite Ar. cbn. lia.
    - intros j e Hj N. exfalso. pose proof (nth_lt _ _ _ Hj). destruct j as [|[|j]]; [..|lia].
      + exact (at_expr_value _ _ _ _ A0 Hj N).
      + exact (at_expr_value _ _ _ _ A1 Hj N).
    - intros sx _. unfold placed. cbn. rewrite (proj2 (alike_refs _ _ (mw_alike _ _ _ _ _ _ _ M2))), K.
      exists x, y. split; [exact A0|]. split; [exact A1|reflexivity].
  Qed.

  Lemma along_point s' : o_kind o0 = KAlong -> eval_internal i o0 s0 = (Ok tt, s') -> exists o, evaluated i s0 o0 s' o.
  Proof.
    intros K H. unfold eval_internal in H. rewrite K in *. cbn zeta in H. do 8 step H.
    destruct (ref_start s0 o0 _ _ _ E) as [-> R1]. destruct (ref_start s0 o0 _ _ _ E0) as [-> R0].
    apply returns_inv in E1. destruct E1 as [E1 ->]. unfold modify in E2. injection E2 as <- <-.
    apply returns_inv in E3. destruct E3 as [E3 ->].
    destruct r as [b|]; [|discriminate E1]. destruct r0 as [a|]; [|discriminate E1]. injection E1 as <-.
    specialize (R1 b eq_refl). specialize (R0 a eq_refl).
    destruct (midway_number _ _ _ _ _ _ _ 0%nat _ _ (midway_start i s0 o0 (Some (vsub b a)) Ho) (fun x => x) E4) as (o1 & M1 & A0 & _).
    apply returns_inv in E5. destruct E5 as [E5 ->]. cbn in E5. injection E5 as <-.
    assert (Ln : length (o_exprs o1) = 1%nat) by (rewrite (length_alike o1 (mw_alike _ _ _ _ _ _ _ M1)); exact Ar).
    pose proof (ref_mid i s0 o0 Rf _ _ _ _ _ _ M1 R0) as Q0. pose proof (ref_mid i s0 o0 Rf _ _ _ _ _ _ M1 R1) as Q1.
    unfold modify in H. injection H as <-. destruct r6.
    exists (set_vector (Some (vadd a (vscale r3 r4))) o1).
    refine (proj2 (finish_vector i s0 o0 Rf _ _ _ _ _ _ M1 E6 _ _ _ _)).
    - rewrite Ar. cbn. lia.
    - intros j e Hj N. exfalso. pose proof (nth_lt _ _ _ Hj). destruct j as [|j]; [|lia]. exact (at_expr_value _ _ _ _ A0 Hj N).
    - intros _ w W. injection W as <-. split; [auto|]. exists a, b. auto.
    - intros sx T. unfold placed. cbn. rewrite (proj2 (alike_refs _ _ (mw_alike _ _ _ _ _ _ _ M1))), K.
      exists a, b, r4, (vadd a (vscale r3 r4)). split; [exact (T _ _ Q0)|]. split; [exact (T _ _ Q1)|]. split; [exact A0|].
      split; [reflexivity|]. exact (normalise_along a b r3 r4 E3).
  Qed.

  Lemma end_point s' : o_kind o0 = KEnd -> eval_internal i o0 s0 = (Ok tt, s') -> exists o, evaluated i s0 o0 s' o.
  Proof.
    intros K H. unfold eval_internal in H. rewrite K in *. cbn zeta in H. do 4 step H.
    destruct (ref_start s0 o0 _ _ _ E) as [-> R0].
    destruct (midway_number _ _ _ _ _ _ _ 0%nat _ _ (start i s0 o0 Ho) (fun x => x) E0) as (o1 & M1 & A0 & _).
    destruct (midway_number _ _ _ _ _ _ _ 1%nat _ _ M1 ltac:(cbv beta; intuition lia) E1) as (o2 & M2 & A1 & K2).
    apply (at_expr_keep _ o2) in A0; [|apply K2; lia].
    apply returns_inv in E2. destruct E2 as [E2 ->]. destruct r as [a|]; [|discriminate E2]. cbn in E2. injection E2 as <-.
    specialize (R0 a eq_refl). pose proof (ref_mid i s0 o0 Rf _ _ _ _ _ _ M2 R0) as Q0.
    assert (Ln : length (o_exprs o2) = 2%nat) by (rewrite (length_alike o2 (mw_alike _ _ _ _ _ _ _ M2)); exact Ar).
    eexists. refine (proj1 (finish_vector i s0 o0 Rf _ _ _ _ _ _ M2 H _ _ (no_segment _ _) _) eq_refl).
    - rewrite Ar. cbn. lia.
    - intros j e Hj N. exfalso. pose proof (nth_lt _ _ _ Hj). destruct j as [|[|j]]; [..|lia].
      + exact (at_expr_value _ _ _ _ A0 Hj N).
      + exact (at_expr_value _ _ _ _ A1 Hj N).
    - intros sx T. unfold placed. cbn. rewrite (proj2 (alike_refs _ _ (mw_alike _ _ _ _ _ _ _ M2))), K.
      do 4 eexists. split; [exact (T _ _ Q0)|]. split; [exact A0|]. split; [exact A1|]. split; [reflexivity|]. apply end_line_ok.
  Qed.

  Lemma intersect_point s' : o_kind o0 = KIntersect -> eval_internal i o0 s0 = (Ok tt, s') -> exists o, evaluated i s0 o0 s' o.
  Proof.
    intros K H. unfold eval_internal in H. rewrite K in *. cbn zeta in H. do 6 step H.
    destruct (ref_start s0 o0 _ _ _ E) as [-> R0]. destruct (ref_start s0 o0 _ _ _ E0) as [-> R1].
    apply returns_inv in E1. destruct E1 as [E1 ->]. destruct (ref_start s0 o0 _ _ _ E2) as [-> R2].
    destruct (ref_start s0 o0 _ _ _ E3) as [-> R3]. apply returns_inv in E4. destruct E4 as [E4 ->].
    destruct r as [a|]; [|discriminate H]. destruct r2 as [c|]; [|discriminate H]. step H. apply returns_inv in E5. destruct E5 as [E5 ->].
    destruct r0 as [b|]; [|discriminate E1]. destruct r3 as [d|]; [|discriminate E4]. injection E1 as <-. injection E4 as <-.
    specialize (R0 a eq_refl). specialize (R1 b eq_refl). specialize (R2 c eq_refl). specialize (R3 d eq_refl).
    exists (set_vector r o0). refine (proj1 (finish_vector i s0 o0 Rf _ _ _ _ _ _ (start i s0 o0 Ho) H _ _ (no_segment _ _) _) eq_refl).
    - rewrite Ar. cbn. lia.
    - intros j e Hj N. exfalso. pose proof (nth_lt _ _ _ Hj). cbn in Ar. lia.
    - intros sx T. unfold placed. cbn [o_kind set_vector]. rewrite K. exists a, b, c, d.
      split; [exact (T _ _ R0)|]. split; [exact (T _ _ R1)|]. split; [exact (T _ _ R2)|]. split; [exact (T _ _ R3)|]. cbn zeta. split.
      + intro C. pose proof (line_intersection_parallel (Ln a (vsub b a)) (Ln c (vsub d c)) C) as Q. cbn. congruence.
      + intro C. destruct (line_intersection_ok (Ln a (vsub b a)) (Ln c (vsub d c)) C) as (q & Q & U). exists q.
        split; [cbn; congruence|]. intro p. rewrite <- (U p). unfold aligned, on_line. cbn. reflexivity.
  Qed.

  Lemma normal_point s' : o_kind o0 = KNormal -> eval_internal i o0 s0 = (Ok tt, s') -> exists o, evaluated i s0 o0 s' o.
  Proof.
    intros K H. unfold eval_internal in H. rewrite K in *. cbn zeta in H. do 9 step H.
    destruct (ref_start s0 o0 _ _ _ E) as [-> R1]. destruct (ref_start s0 o0 _ _ _ E0) as [-> R0].
    apply returns_inv in E1. destruct E1 as [E1 ->]. unfold modify in E2. injection E2 as <- <-.
    apply returns_inv in E3. destruct E3 as [E3 ->].
    destruct r as [b|]; [|discriminate E1]. destruct r0 as [a|]; [|discriminate E1]. injection E1 as <-.
    specialize (R1 b eq_refl). specialize (R0 a eq_refl).
    destruct (midway_value _ _ _ _ _ _ _ 0%nat _ _ (midway_start i s0 o0 (Some (vsub b a)) Ho) (fun x => x) E4) as (o1 & M1 & (e1 & X1 & V1 & W1) & _).
    destruct (midway_number _ _ _ _ _ _ _ 1%nat _ _ M1 ltac:(cbv beta; intuition lia) E5) as (o2 & M2 & A1 & K2).
    assert (X2 : nth_error (o_exprs o2) 0 = Some e1) by (rewrite K2 by lia; exact X1).
    apply returns_inv in E6. destruct E6 as [E6 ->]. cbn [plus] in E6. injection E6 as <-.
    assert (Ln : length (o_exprs o2) = 2%nat) by (rewrite (length_alike o2 (mw_alike _ _ _ _ _ _ _ M2)); exact Ar).
    pose proof (ref_mid i s0 o0 Rf _ _ _ _ _ _ M2 R0) as Q0. pose proof (ref_mid i s0 o0 Rf _ _ _ _ _ _ M2 R1) as Q1.
    unfold modify in H. injection H as <-. destruct r7.
    eexists. refine (proj2 (finish_vector i s0 o0 Rf _ _ _ _ _ _ M2 E7 _ _ _ _)).
    - rewrite Ar. cbn. lia.
    - intros j e Hj N. pose proof (nth_lt _ _ _ Hj). split; [exact K|]. destruct j as [|[|j]]; [reflexivity|exfalso|lia].
      exact (at_expr_value _ _ _ _ A1 Hj N).
    - intros _ w W. injection W as <-. split; [auto|]. exists a, b. auto.
    - intros sx T. unfold placed. cbn [o_kind set_vector]. rewrite (proj2 (alike_refs _ _ (mw_alike _ _ _ _ _ _ _ M2))), K.
      exists a, b, (match r4 with Some t => t | None => 0 end), r5. eexists. split; [exact (T _ _ Q0)|]. split; [exact (T _ _ Q1)|].
      split; [|split; [exact A1|split; [reflexivity|]]].
      + destruct r4 as [t|]; [left; exists e1; auto|right]. split; [reflexivity|]. exists e1. auto.
      + destruct r4 as [t|]; [exact (normal_ok a b r3 t r5 E3)|]. pose proof (normal_ok a b r3 0 r5 E3) as Q.
        rewrite Reqb_refl in Q. exact Q.
  Qed.

  Lemma contact_point s' : o_kind o0 = KContact -> eval_internal i o0 s0 = (Ok tt, s') -> exists o, evaluated i s0 o0 s' o.
  Proof.
    intros K H. unfold eval_internal in H. rewrite K in *. cbn zeta in H. do 2 step H.
    destruct (ref_start s0 o0 _ _ _ E) as [-> R0]. destruct (ref_start s0 o0 _ _ _ E0) as [-> R1].
    destruct r as [a|]; [|discriminate H]. destruct r0 as [b|]; [|discriminate H]. do 2 step H.
    destruct (ref_start s0 o0 _ _ _ E1) as [-> R2].
    destruct (midway_value _ _ _ _ _ _ _ 0%nat _ _ (start i s0 o0 Ho) (fun x => x) E2) as (o1 & M1 & (e1 & X1 & V1 & _) & _).
    destruct r as [c|]; [|discriminate H]. destruct r0 as [rr|]; [|discriminate H]. step H. apply returns_inv in E3. destruct E3 as [E3 ->].
    specialize (R0 a eq_refl). specialize (R1 b eq_refl). specialize (R2 c eq_refl).
    assert (Ne : a <> b).
    { intros ->. rewrite intersect_segment_null in E3 by reflexivity. discriminate. }
    destruct (intersect_segment_ok (Circ c rr None) (Seg a b) Ne) as (m & Em & Q & _). rewrite Em in E3. injection E3 as <-. cbn in Q.
    pose proof (ref_mid i s0 o0 Rf _ _ _ _ _ _ M1 R0) as Q0. pose proof (ref_mid i s0 o0 Rf _ _ _ _ _ _ M1 R1) as Q1.
    pose proof (ref_mid i s0 o0 Rf _ _ _ _ _ _ M1 R2) as Q2.
    assert (A0 : at_expr o1 0 rr) by (exists e1; auto).
    assert (Ln : length (o_exprs o1) = 1%nat) by (rewrite (length_alike o1 (mw_alike _ _ _ _ _ _ _ M1)); exact Ar).
    match type of M1 with midway _ _ _ _ ?t _ _ => assert (Fin : forall v, put_op i (set_vector v) t = (Ok tt, s') ->
      match v with Some p => on_circle c (Rabs rr) p /\ aligned a b p | None => forall p, on_circle c (Rabs rr) p -> ~ aligned a b p end ->
      exists o, evaluated i s0 o0 s' o) end.
    { intros v H1 G. exists (set_vector v o1).
      refine (proj1 (finish_vector i s0 o0 Rf _ _ _ _ _ _ M1 H1 _ _ (no_segment _ _) _) eq_refl).
      - rewrite Ar. cbn. lia.
      - intros j e Hj N. exfalso. pose proof (nth_lt _ _ _ Hj). destruct j as [|j]; [|lia]. exact (at_expr_value _ _ _ _ A0 Hj N).
      - intros sx T. unfold placed. cbn [o_kind set_vector o_vector]. rewrite (proj2 (alike_refs _ _ (mw_alike _ _ _ _ _ _ _ M1))), K.
        exists a, b, c, rr. split; [exact (T _ _ Q0)|]. split; [exact (T _ _ Q1)|]. split; [exact (T _ _ Q2)|]. split; [exact A0|exact G]. }
    destruct m as [|p|p q]; [|discriminate H|].
    - apply (Fin _ H). intros p P A. apply (proj2 (Q p)). split; assumption.
    - do 2 step H. apply returns_inv in E3. destruct E3 as [_ ->]. apply returns_inv in E4. destruct E4 as [_ ->].
      apply (Fin _ H). destruct r; apply (proj1 (Q _)); cbn; auto.
  Qed.

  Lemma intersection_point s' : o_kind o0 = KIntersection -> eval_internal i o0 s0 = (Ok tt, s') -> exists o, evaluated i s0 o0 s' o.
  Proof.
    intros K H. unfold eval_internal in H. rewrite K in *. cbn zeta in H. do 2 step H.
    destruct (ref_start s0 o0 _ _ _ E) as [-> R0]. destruct (ref_start s0 o0 _ _ _ E0) as [-> R1].
    destruct r as [a|]; [|discriminate H]. destruct r0 as [b|]; [|discriminate H].
    specialize (R0 a eq_refl). specialize (R1 b eq_refl).
    eexists. refine (proj1 (finish_vector i s0 o0 Rf _ _ _ _ _ _ (start i s0 o0 Ho) H _ _ (no_segment _ _) _) eq_refl).
    - rewrite Ar. cbn. lia.
    - intros j e Hj N. exfalso. pose proof (nth_lt _ _ _ Hj). cbn in Ar. lia.
    - intros sx T. unfold placed. cbn [o_kind set_vector]. rewrite K. exists a, b.
      split; [exact (T _ _ R0)|]. split; [exact (T _ _ R1)|reflexivity].
  Qed.

  Lemma spline_op s' : o_kind o0 = KSpline -> eval_internal i o0 s0 = (Ok tt, s') -> exists o, evaluated i s0 o0 s' o.
  Proof.
    intros K H. unfold eval_internal in H. rewrite K in *. cbn zeta in H. do 8 step H.
    destruct (midway_number _ _ _ _ _ _ _ 0%nat _ _ (start i s0 o0 Ho) (fun x => x) E) as (o1 & M1 & A0 & _).
    destruct (midway_number _ _ _ _ _ _ _ 1%nat _ _ M1 ltac:(cbv beta; intuition lia) E0) as (o2 & M2 & A1 & K2).
    destruct (midway_number _ _ _ _ _ _ _ 2%nat _ _ M2 ltac:(cbv beta; intuition lia) E1) as (o3 & M3 & A2 & K3).
    destruct (midway_number _ _ _ _ _ _ _ 3%nat _ _ M3 ltac:(cbv beta; intuition lia) E2) as (o4 & M4 & A3 & K4).
    apply (at_expr_keep _ o2) in A0; [|apply K2; lia]. apply (at_expr_keep _ o3) in A0; [|apply K3; lia]. apply (at_expr_keep _ o4) in A0; [|apply K4; lia].
    apply (at_expr_keep _ o3) in A1; [|apply K3; lia]. apply (at_expr_keep _ o4) in A1; [|apply K4; lia].
    apply (at_expr_keep _ o4) in A2; [|apply K4; lia].
    destruct (alike_refs _ _ (mw_alike _ _ _ _ _ _ _ M4)) as [Er Ek].
    assert (Rv : forall k v t t', ref_vector o0 k t = (Ok v, t') -> t = s3 -> t' = s3 /\ forall p, v = Some p -> at_ref s3 o4 k p).
    { intros k v t t' W ->. destruct (ref_vector_ok _ _ _ _ _ W) as (-> & j & p & J & P & V0). split; [reflexivity|].
      intros q ->. exists j, p. rewrite Er. auto. }
    destruct (Rv _ _ _ _ E3 eq_refl) as [-> R0]. apply returns_inv in E4. destruct E4 as [E4 ->].
    destruct (Rv _ _ _ _ E5 eq_refl) as [-> R1]. apply returns_inv in E6. destruct E6 as [E6 ->].
    destruct r3 as [a|]; [|discriminate E4]. destruct r5 as [b|]; [|discriminate E6]. injection E4 as <-. injection E6 as <-.
    specialize (R0 a eq_refl). specialize (R1 b eq_refl).
    rewrite (put_op_eq s3 i o4 _ (mw_op _ _ _ _ _ _ _ M4)) in H. injection H as <-.
    assert (Ln : length (o_exprs o4) = 4%nat) by (rewrite (length_alike o4 (mw_alike _ _ _ _ _ _ _ M4)); exact Ar).
    set (f := set_controls (Some (vadd a (vscale (from_angle r) r0), vadd b (vscale (from_angle r1) r2)))).
    exists (f o4). refine (finish i s0 o0 _ s3 o4 _ f M4 (fun _ => eq_refl) (fun _ => eq_refl) (fun _ => eq_refl) _ _ (no_segment _ _) Rf _ _ (or_introl (conj eq_refl eq_refl))).
    - rewrite Ar. cbn. intros j Hj. lia.
    - intros j e Hj N. exfalso. pose proof (nth_lt _ _ _ Hj). destruct j as [|[|[|[|j]]]]; [..|lia].
      + exact (at_expr_value _ _ _ _ A0 Hj N).
      + exact (at_expr_value _ _ _ _ A1 Hj N).
      + exact (at_expr_value _ _ _ _ A2 Hj N).
      + exact (at_expr_value _ _ _ _ A3 Hj N).
    - assert (T : forall k p, at_ref s3 o4 k p -> at_ref (set_ops (update i (f o4) (ops s3)) s3) (f o4) k p).
      { intros k p. apply (ref_end i o0 Rf s3 o4 f k p (mw_op _ _ _ _ _ _ _ M4) Er eq_refl). }
      unfold placed. cbn [o_kind f set_controls]. rewrite Ek, K.
      do 8 eexists. split; [exact (T _ _ R0)|]. split; [exact (T _ _ R1)|]. split; [exact A0|]. split; [exact A1|].
      split; [exact A2|]. split; [exact A3|]. split; [reflexivity|]. split; apply end_line_ok.
  Qed.

  Lemma passive s' : (o_kind o0 = KOperation \/ o_kind o0 = KPoint \/ o_kind o0 = KLine) -> s' = s0 -> exists o, evaluated i s0 o0 s' o.
  Proof.
    intros K ->. exists o0. constructor; auto using frame_refl.
    - unfold placed. destruct K as [-> |[-> | ->]]; exact Logic.I.
    - intros j e Hj. apply nth_lt in Hj. exfalso. destruct K as [K|[K|K]]; rewrite K in Ar; cbn in Ar; lia.
  Qed.

  Lemma internal_ok s' : eval_internal i o0 s0 = (Ok tt, s') -> exists o, evaluated i s0 o0 s' o.
  Proof.
    intro H. case_eq (o_kind o0); intro K.
    - apply passive; [auto|]. unfold eval_internal in H. rewrite K in H. apply returns_inv in H. apply H.
    - apply passive; [auto|]. unfold eval_internal in H. rewrite K in H. apply returns_inv in H. apply H.
    - exact (single s' K H).
    - exact (along_point s' K H).
    - exact (end_point s' K H).
    - exact (intersect_point s' K H).
    - exact (normal_point s' K H).
    - exact (contact_point s' K H).
    - exact (intersection_point s' K H).
    - apply passive; [auto|]. unfold eval_internal in H. rewrite K in H. apply returns_inv in H. apply H.
    - exact (spline_op s' K H).
  Qed.
End Kinds.
