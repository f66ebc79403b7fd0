(** The statements about polygons, and concrete polygons. *)
From Coq Require Import Reals List Lra Lia Psatz Bool Permutation.
From Verif Require Import Base ModelIter ModelVector ModelLine SpecVector SpecLine ModelPolygon SpecPolygon.
From Verif Require Import ProofVector ProofSegment ProofPolygon ProofPolygon2.
Import ListNotations.
Local Open Scope R_scope.
Local Open Scope result_scope.

Lemma moment_any o o' l : moment o l = moment o' l.
Proof. apply vec_eq; rewrite ?(moment_x o), ?(moment_x o'), ?(moment_y o), ?(moment_y o'); reflexivity. Qed.

Lemma area_answer l p qs : new_polygon l = Ok p ->
  (simple l -> forall o, fst (ask AskArea (after qs p)) = Ok (AReal (Some (Rabs (sweep o l))))) /\
  (~ simple l -> fst (ask AskArea (after qs p)) = Ok (AReal None)).
Proof.
  intro H. destruct (answers_ok l p H) as (sb & cb & m & Hs & Hc & M1 & M2 & M3 & M4 & Q).
  destruct (Q qs) as (_ & _ & A & _). rewrite A. split.
  - intros S0 o. apply Hs in S0. rewrite S0, M1, (sweep_any o0 o). reflexivity.
  - intro S0. destruct sb; [exfalso; apply S0, Hs; reflexivity|reflexivity].
Qed.
Lemma barycenter_answer l p qs : new_polygon l = Ok p ->
  (simple l -> exists g, fst (ask AskBarycenter (after qs p)) = Ok (APoint g) /\
     forall o, (sweep o l = 0 -> Some g = hd_error l) /\ (sweep o l <> 0 -> vscale g (sweep o l) = moment o l)) /\
  (~ simple l -> fst (ask AskBarycenter (after qs p)) = Raise AttributeError).
Proof.
  intro H. destruct (answers_ok l p H) as (sb & cb & m & Hs & Hc & M1 & M2 & M3 & M4 & Q).
  destruct (Q qs) as (_ & _ & _ & A & _). rewrite A. split.
  - intros S0. apply Hs in S0. rewrite S0. exists (m_barycenter m). split; [reflexivity|]. intro o.
    rewrite (sweep_any o o0), (moment_any o o0). split; [|exact M4]. intro Z. rewrite (M3 Z).
    apply new_polygon_ok in H. destruct H as [L3 _]. destruct l; [cbn in L3; lia|reflexivity].
  - intro S0. destruct sb; [exfalso; apply S0, Hs; reflexivity|reflexivity].
Qed.
Lemma clockwise_answer l p qs : new_polygon l = Ok p -> forall o,
  (simple l -> sweep o l < 0 -> fst (ask AskClockwise (after qs p)) = Ok (AClockwise (Some true))) /\
  (simple l -> 0 < sweep o l -> fst (ask AskClockwise (after qs p)) = Ok (AClockwise (Some false))) /\
  (simple l -> sweep o l = 0 -> fst (ask AskClockwise (after qs p)) = Raise AttributeError) /\
  (~ simple l -> fst (ask AskClockwise (after qs p)) = Ok (AClockwise None)).
Proof.
  intros H o. destruct (answers_ok l p H) as (sb & cb & m & Hs & Hc & M1 & M2 & M3 & M4 & Q).
  destruct (Q qs) as (_ & _ & _ & _ & A & _). rewrite A, M2, (sweep_any o o0).
  split; [|split; [|split]]; intros S0; try (apply Hs in S0; rewrite S0).
  - intro L. destruct (Req_EM_T (sweep o0 l) 0); [lra|]. unfold sign. rewrite (Rltb_true _ _ L), Rltb_true by lra. reflexivity.
  - intro L. destruct (Req_EM_T (sweep o0 l) 0); [lra|]. unfold sign. rewrite (Rltb_false (sweep o0 l)) by lra.
    rewrite Rltb_false by lra. reflexivity.
  - intro L. destruct (Req_EM_T (sweep o0 l) 0); [reflexivity|lra].
  - destruct sb; [exfalso; apply S0, Hs; reflexivity|reflexivity].
Qed.

Definition same_answers (p p' : polygon) (qs qs' : list query) (q : query) : Prop :=
  fst (ask q (after qs p)) = fst (ask q (after qs' p')).

Lemma moment_perm l m : Permutation (ring l) (ring m) -> sweep o0 l = sweep o0 m /\ moment o0 l = moment o0 m.
Proof.
  intro P. split; [apply sumR_perm, Permutation_map, P|].
  apply vec_eq; cbn [moment vx vy]; apply sumR_perm, Permutation_map, P.
Qed.
Lemma moment_rev l : sweep o0 (rev l) = - sweep o0 l /\
  moment o0 (rev l) = vneg (moment o0 l).
Proof.
  assert (G : forall f : vec * vec -> R, (forall e, f (swap e) = - f e) ->
     sumR (map f (ring (rev l))) = - sumR (map f (ring l))).
  { intros f Hf. rewrite (sumR_perm _ _ (Permutation_map f (ring_rev l))), map_map.
    rewrite (sumR_ext _ (fun e => (-1) * f e)) by (intros e _; rewrite Hf; ring). rewrite sumR_scale. ring. }
  split; [apply G|apply vec_eq; cbn [moment vneg vx vy]; apply G]; intros [a b]; cbn [swap fst snd]; unfold tri; field.
Qed.
Lemma bary_unique s g g' : s <> 0 -> vscale g s = vscale g' s -> g = g'.
Proof.
  intros Ns E. assert (E1 : vx (vscale g s) = vx (vscale g' s)) by congruence.
  assert (E2 : vy (vscale g s) = vy (vscale g' s)) by congruence. cbn in E1, E2.
  apply vec_eq; apply (Rmult_eq_reg_l s); assumption.
Qed.

(** Another first vertex. *)
Lemma start_invariant a t p p' qs qs' : new_polygon (a :: t) = Ok p -> new_polygon (t ++ [a]) = Ok p' ->
  same_answers p p' qs qs' AskSimple /\ same_answers p p' qs qs' AskArea /\
  same_answers p p' qs qs' AskClockwise /\ same_answers p p' qs qs' AskPerimeter /\
  (sweep o0 (a :: t) <> 0 -> same_answers p p' qs qs' AskBarycenter).
Proof.
  intros H H'. destruct (answers_ok _ p H) as (sb & cb & m & Hs & Hc & M1 & M2 & M3 & M4 & Q).
  destruct (answers_ok _ p' H') as (sb' & cb' & m' & Hs' & Hc' & M1' & M2' & M3' & M4' & Q').
  destruct (Q qs) as (A1 & _ & A2 & A3 & A4 & _ & A5 & _). destruct (Q' qs') as (B1 & _ & B2 & B3 & B4 & _ & B5 & _).
  unfold same_answers. rewrite A1, A2, A3, A4, A5, B1, B2, B3, B4, B5.
  assert (P := ring_rotate a t). apply Permutation_sym in P. destruct (moment_perm _ _ P) as [E1 E2].
  assert (Eb : sb = sb').
  { apply eq_true_iff_eq. rewrite Hs, Hs'. symmetry. apply simple_rotate. }
  subst sb'. rewrite M1, M1', M2, M2', E1. split; [reflexivity|]. split; [reflexivity|]. split; [reflexivity|].
  split.
  - do 2 f_equal. apply sumR_perm, Permutation_map, P.
  - intro N. destruct sb; [|reflexivity]. do 2 f_equal. apply (bary_unique (sweep o0 (t ++ [a]))); [exact N|].
    rewrite E1 in M4. rewrite M4, M4' by exact N. exact E2.
Qed.

(** The vertices in the reverse order. *)
Lemma reverse_invariant l p p' qs qs' : new_polygon l = Ok p -> new_polygon (rev l) = Ok p' ->
  same_answers p p' qs qs' AskSimple /\ same_answers p p' qs qs' AskArea /\
  same_answers p p' qs qs' AskPerimeter /\
  (sweep o0 l <> 0 -> same_answers p p' qs qs' AskBarycenter) /\
  (forall b, simple l -> fst (ask AskClockwise (after qs p)) = Ok (AClockwise (Some b)) ->
     fst (ask AskClockwise (after qs' p')) = Ok (AClockwise (Some (negb b)))).
Proof.
  intros H H'. destruct (answers_ok _ p H) as (sb & cb & m & Hs & Hc & M1 & M2 & M3 & M4 & Q).
  destruct (answers_ok _ p' H') as (sb' & cb' & m' & Hs' & Hc' & M1' & M2' & M3' & M4' & Q').
  destruct (Q qs) as (A1 & _ & A2 & A3 & A4 & _ & A5 & _). destruct (Q' qs') as (B1 & _ & B2 & B3 & B4 & _ & B5 & _).
  unfold same_answers. rewrite A1, A2, A3, A4, A5, B1, B2, B3, B4, B5.
  destruct (moment_rev l) as [E1 E2].
  assert (Eb : sb = sb').
  { apply eq_true_iff_eq. rewrite Hs, Hs'. symmetry. apply simple_rev. }
  subst sb'. rewrite M1, M1', M2, M2', E1. split; [reflexivity|]. split; [rewrite Rabs_Ropp; reflexivity|]. split; [|split].
  - do 2 f_equal. unfold outline. rewrite (sumR_perm _ _ (Permutation_map _ (ring_rev l))), map_map.
    apply sumR_ext. intros [a b] _. cbn [swap fst snd]. apply dist_sym.
  - intro N. destruct sb; [|reflexivity]. do 2 f_equal. apply (bary_unique (sweep o0 l)); [exact N|].
    rewrite E1 in M4'. rewrite M4 by exact N. assert (N' : - sweep o0 l <> 0) by lra. specialize (M4' N').
    assert (X1 : vx (vscale (m_barycenter m') (- sweep o0 l)) = vx (moment o0 (rev l))) by congruence.
    assert (X2 : vy (vscale (m_barycenter m') (- sweep o0 l)) = vy (moment o0 (rev l))) by congruence.
    rewrite E2 in X1, X2. cbn [vscale vneg vx vy] in X1, X2. apply vec_eq; cbn [vscale vx vy]; lra.
  - intros b S0. apply Hs in S0. rewrite S0. destruct (Req_EM_T (sweep o0 l) 0) as [Z|Z]; [discriminate|].
    destruct (Req_EM_T (- sweep o0 l) 0) as [Z'|Z']; [lra|]. intro X. injection X as <-. do 3 f_equal.
    assert (T1 : Rltb (-1) 0 = true) by (apply Rltb_true; lra). assert (T2 : Rltb 1 0 = false) by (apply Rltb_false; lra).
    unfold sign. destruct (Rltb_spec (sweep o0 l) 0), (Rltb_spec (- sweep o0 l) 0); try lra; rewrite T1, T2; reflexivity.
Qed.

(** Affine maps of the plane. *)
Lemma affine_invariant a b e c d f l p p' qs qs' :
  let F := affine a b e c d f in let det := a * d - b * c in
  new_polygon l = Ok p -> new_polygon (map F l) = Ok p' -> det <> 0 ->
  (Rabs det = 1 -> same_answers p p' qs qs' AskSimple) /\
  (simple l -> simple (map F l) -> sweep o0 l <> 0 -> exists A g,
     fst (ask AskArea (after qs p)) = Ok (AReal (Some A)) /\
     fst (ask AskArea (after qs' p')) = Ok (AReal (Some (Rabs det * A))) /\
     fst (ask AskBarycenter (after qs p)) = Ok (APoint g) /\
     fst (ask AskBarycenter (after qs' p')) = Ok (APoint (F g))).
Proof.
  intros F det H H' ND. destruct (answers_ok _ p H) as (sb & cb & m & Hs & Hc & M1 & M2 & M3 & M4 & Q).
  destruct (answers_ok _ p' H') as (sb' & cb' & m' & Hs' & Hc' & M1' & M2' & M3' & M4' & Q').
  destruct (Q qs) as (A1 & _ & A2 & A3 & A4 & _ & A5 & _). destruct (Q' qs') as (B1 & _ & B2 & B3 & B4 & _ & B5 & _).
  unfold same_answers. rewrite A1, A2, A3, B1, B2, B3.
  assert (SW : sweep o0 (map F l) = det * sweep o0 l).
  { rewrite (sweep_any o0 (F o0)). apply affine_sweep. }
  split.
  - intro D1. do 2 f_equal. apply eq_true_iff_eq. rewrite Hs, Hs'. symmetry. apply affine_simple; assumption.
  - intros S1 S2 N. apply Hs in S1. apply Hs' in S2. rewrite S1, S2. exists (m_area m), (m_barycenter m).
    split; [reflexivity|]. split; [rewrite M1, M1', SW, Rabs_mult; reflexivity|]. split; [reflexivity|].
    do 2 f_equal. assert (N' : sweep o0 (map F l) <> 0) by (rewrite SW; apply Rmult_integral_contrapositive; auto).
    apply (bary_unique (sweep o0 (map F l))); [exact N'|]. rewrite M4' by exact N'.
    rewrite (moment_any o0 (F o0)). unfold F at 1 2. rewrite affine_moment. fold det. rewrite <- (M4 N), SW.
    apply vec_eq; unfold F, affine; cbn [vscale vx vy]; ring.
Qed.

(** ** The caches *)
Lemma stale_perimeter l f p qs : new_polygon l = Ok p ->
  let p1 := transform_points f (snd (ask AskPerimeter (after qs p))) in
  p_points p1 = map f l /\ fst (ask AskPerimeter p1) = Ok (ALength (outline l)).
Proof.
  intro H. pose proof (answers_ok _ p H) as (sb & cb & m & _ & _ & _ & _ & _ & _ & Q).
  destruct (Q qs) as (_ & _ & _ & _ & _ & _ & A & _).
  apply new_polygon_ok in H. destruct H as [L3 ->].
  destruct (simple_test_ok l) as (sb0 & SB & _). destruct (convex_test_ok l L3) as (cb0 & CB & _).
  destruct (measures_ok l) as (m0 & ME & _); [intro Z; subst l; cbn in L3; lia|].
  pose proof (fits_after l sb0 SB cb0 CB m0 ME qs _ (fits_fresh l sb0 cb0 m0)) as FA.
  change (Poly l None None None None None None) with (fresh l) in FA.
  set (q := after qs (fresh l)) in *. clearbody q. cbn zeta.
  destruct FA as [F1 F2 _ _ _ _ _].
  cbn [ask]. cbn [ask] in A. unfold get_perimeter, get_edges, then_, self, lift, ret, set_edges in A |- *.
  destruct F2 as [F2|F2]; rewrite F2 in A |- *.
  - rewrite F1, edges_ok in A |- *. cbn in A |- *. split; [congruence|exact A].
  - cbn in A |- *. rewrite F2. split; [congruence|exact A].
Qed.

Lemma stale_area l f p qs : new_polygon l = Ok p -> simple l ->
  let p1 := transform_points f (snd (ask AskArea (after qs p))) in
  p_points p1 = map f l /\ fst (ask AskArea p1) = Ok (AReal (Some (Rabs (sweep o0 l)))).
Proof.
  intros H S0. apply new_polygon_ok in H. destruct H as [L3 ->].
  destruct (simple_test_ok l) as (sb0 & SB & HS). destruct (convex_test_ok l L3) as (cb0 & CB & _).
  destruct (measures_ok l) as (m0 & ME & MA & _); [intro Z; subst l; cbn in L3; lia|].
  apply HS in S0. subst sb0.
  pose proof (fits_after l true SB cb0 CB m0 ME qs _ (fits_fresh l true cb0 m0)) as FA.
  change (Poly l None None None None None None) with (fresh l) in FA.
  set (q := after qs (fresh l)) in *. clearbody q. cbn zeta. cbn [ask].
  destruct (check_area_ok l true SB cb0 m0 ME q FA) as (E1 & F1 & C1).
  pose proof (get_simple_ok l true SB cb0 m0 _ F1) as [E2 F2].
  assert (X : snd (then_ get_area (fun x => ret (AReal x)) q) = snd (check_area q)).
  { unfold get_area, then_, self, ret. destruct (check_area q) as [r q']. cbn in E1. subst r. reflexivity. }
  rewrite X. clear X. set (q' := snd (check_area q)) in *.
  assert (CS : c_simple q' = Some true).
  { unfold q', check_area, then_, self, lift, set_measures, ret.
    assert (Y : fst (get_is_simple q) = Ok true /\ c_simple (snd (get_is_simple q)) = Some true).
    { destruct (get_simple_ok l true SB cb0 m0 q FA) as [G1 _]. split; [exact G1|].
      revert G1. unfold get_is_simple, then_, self, lift, ret, set_simple.
      destruct (c_simple q) as [b|] eqn:Eb; [cbn; intro G; injection G as ->; exact Eb|].
      destruct (get_edges q) as [[e|x] q0]; [|cbn; discriminate].
      destruct (test_is_simple e) as [b|x]; cbn; [|discriminate]. intro G. injection G as ->. reflexivity. }
    destruct Y as [Y1 Y2]. destruct (get_is_simple q) as [r q0]. cbn in Y1, Y2. subst r.
    destruct (c_measures q0); [exact Y2|]. destruct (compute_area_barycenter (p_points q0)); exact Y2. }
  clearbody q'. split; [cbn; rewrite (f_points _ _ _ _ _ F1); reflexivity|].
  rewrite <- MA. unfold get_area, check_area, get_is_simple, then_, self, ret, transform_points.
  cbn. rewrite CS. cbn. rewrite C1. cbn. rewrite ?C1. reflexivity.
Qed.

(** ** Concrete polygons *)
Definition square : list vec := [V 0 0; V 1 0; V 1 1; V 0 1].
Ltac small_index i := destruct i as [|[|[|[|i]]]].
Lemma square_simple : simple square.
Proof.
  intros i j e f N He Hf. unfold square, ring in He, Hf. cbn [combine app] in He, Hf.
  destruct i as [|[|[|[|i]]]]; cbn [nth_error] in He; try (destruct i; discriminate); injection He as <-;
  destruct j as [|[|[|[|j]]]]; cbn [nth_error] in Hf; try (destruct j; discriminate); try congruence; injection Hf as <-;
  intros P q (t & Ht & X1 & Y1) (u & Hu & X2 & Y2); cbn [fst snd vx vy] in *;
  try (exfalso; revert P; unfold crossv, vsub; cbn [vx vy];
       match goal with |- _ < Rabs ?x -> _ => replace x with 0 by ring end; rewrite Rabs_R0; lra);
  split; first [left; apply vec_eq; cbn; lra | right; apply vec_eq; cbn; lra].
Qed.
Lemma square_sweep : sweep o0 square = 1.
Proof. unfold sweep, square, ring, tri. cbn. field. Qed.

(** All the points on a line: simple for the test. *)
Lemma flat_simple l : (forall a b c d, In a l -> In b l -> In c l -> In d l -> crossv (vsub b a) (vsub d c) = 0) -> simple l.
Proof.
  intros H i j [a b] [c d] _ He Hf P. exfalso. apply nth_error_In in He. apply nth_error_In in Hf.
  apply ring_vertex in He. apply ring_vertex in Hf. cbn [fst snd] in P. rewrite H in P by tauto.
  rewrite Rabs_R0 in P. lra.
Qed.

(** A small bow tie. *)
Definition bow : list vec := let s := / 10000 in [V 0 0; V s s; V s 0; V 0 s].
Lemma bow_simple : simple bow.
Proof.
  intros i j [a b] [c d] _ He Hf P. exfalso. apply nth_error_In in He. apply nth_error_In in Hf.
  unfold bow, ring in He, Hf. cbn [combine app In] in He, Hf. cbn [fst snd] in P.
  assert (B : Rabs (crossv (vsub b a) (vsub d c)) <= 2 * (/ 10000 * / 10000)).
  { destruct He as [He|[He|[He|[He|[]]]]]; injection He as <- <-;
    destruct Hf as [Hf|[Hf|[Hf|[Hf|[]]]]]; injection Hf as <- <-;
    unfold crossv, vsub; cbn [vx vy]; apply Rabs_le; lra. }
  lra.
Qed.
Lemma bow_crosses : exists e f q, nth_error (ring bow) 0 = Some e /\ nth_error (ring bow) 2 = Some f /\
  between (fst e) (snd e) q /\ between (fst f) (snd f) q /\ q <> fst e /\ q <> snd e /\ q <> fst f /\ q <> snd f.
Proof.
  exists (V 0 0, V (/ 10000) (/ 10000)), (V (/ 10000) 0, V 0 (/ 10000)), (V (/ 20000) (/ 20000)).
  split; [reflexivity|]. split; [reflexivity|]. cbn [fst snd].
  split; [exists (/ 2); cbn; split; [lra|split; field]|]. split; [exists (/ 2); cbn; split; [lra|split; field]|].
  repeat split; intro H; injection H; intros; lra.
Qed.

Lemma history l p qs q : new_polygon l = Ok p -> fst (ask q (after qs p)) = fst (ask q p).
Proof.
  intro H. apply new_polygon_ok in H. destruct H as [L3 ->].
  destruct (simple_test_ok l) as (sb & SB & _). destruct (convex_test_ok l L3) as (cb & CB & _).
  destruct (measures_ok l) as (m & ME & _); [intro Z; subst l; cbn in L3; lia|].
  exact (ask_history l sb SB cb CB m ME qs q).
Qed.

Lemma simple_answer l p qs : new_polygon l = Ok p -> exists b,
  fst (ask AskSimple (after qs p)) = Ok (ABool b) /\ (b = true <-> simple l).
Proof.
  intro H. destruct (answers_ok l p H) as (sb & cb & m & Hs & _ & _ & _ & _ & _ & Q). exists sb.
  split; [apply (Q qs)|exact Hs].
Qed.
Lemma bow_answer : exists p, new_polygon bow = Ok p /\ fst (ask AskSimple p) = Ok (ABool true).
Proof.
  exists (fresh bow). assert (H : new_polygon bow = Ok (fresh bow)) by reflexivity. split; [exact H|].
  destruct (simple_answer _ _ [] H) as (b & E & B). change (after [] (fresh bow)) with (fresh bow) in E. rewrite E.
  rewrite (proj2 B bow_simple). reflexivity.
Qed.

Lemma convex_answer l p qs : new_polygon l = Ok p -> exists b,
  fst (ask AskConvex (after qs p)) = Ok (ABool b) /\ (b = true <-> simple l /\ same_turns l).
Proof.
  intro H. destruct (answers_ok l p H) as (sb & cb & m & Hs & Hc & _ & _ & _ & _ & Q). exists (andb sb cb).
  split; [apply (Q qs)|]. rewrite andb_true_iff, Hs, Hc. reflexivity.
Qed.
(** A square with a vertex in the middle of a side, clockwise. *)
Definition notched : list vec := [V 0 0; V 0 1; V 0 2; V 2 2; V 2 0].
Ltac corners H := let Hi := fresh "Hi" in let A := fresh "A" in let B := fresh "B" in let C := fresh "C" in
  destruct H as (Hi & A & B & C); cbn [length notched rev app] in Hi;
  match type of Hi with (?i < _)%nat =>
    destruct i as [|[|[|[|[|i]]]]]; [| | | | |cbn in Hi; lia]; cbn in A, B, C;
    injection A as <-; injection B as <-; injection C as <- end.
Lemma notched_turns : ~ same_turns notched /\ same_turns (rev notched).
Proof.
  split.
  - intros [H|H].
    + specialize (H 2%nat (V 0 2) (V 2 2) (V 2 0)). unfold tri in H. cbn in H.
      assert (C : corner notched 2 (V 0 2) (V 2 2) (V 2 0)) by (repeat split; cbn; lia). specialize (H C). lra.
    + specialize (H 0%nat (V 0 0) (V 0 1) (V 0 2)). unfold tri in H. cbn in H.
      assert (C : corner notched 0 (V 0 0) (V 0 1) (V 0 2)) by (repeat split; cbn; lia). specialize (H C). lra.
  - left. intros i a b c H. corners H; unfold tri; cbn; lra.
Qed.
Lemma notched_answer : exists p, new_polygon notched = Ok p /\ fst (ask AskConvex p) = Ok (ABool false) /\
  same_turns (rev notched).
Proof.
  exists (fresh notched). assert (H : new_polygon notched = Ok (fresh notched)) by reflexivity. split; [exact H|].
  destruct (convex_answer _ _ [] H) as (b & E & B). change (after [] (fresh notched)) with (fresh notched) in E. rewrite E.
  split; [|apply notched_turns]. destruct b; [|reflexivity]. exfalso. apply notched_turns. apply B. reflexivity.
Qed.

Lemma axes_answer l p qs : new_polygon l = Ok p -> simple l -> exists i,
  fst (ask AskAxes (after qs p)) = Ok (AAxes i) /\
  (forall t, extent l t <= extent l (rad (i_angle i))) /\
  (forall t, extent l (rad (i_angle i) + PI / 2) <= extent l t) /\
  i_major i = 4 * sqrt (extent l (rad (i_angle i))) /\
  i_minor i = 4 * sqrt (extent l (rad (i_angle i) + PI / 2)) /\
  (i_minor i <> 0 -> i_ratio i = i_major i / i_minor i) /\ (i_minor i = 0 -> i_ratio i = 0).
Proof.
  intros H S0. destruct (answers_ok l p H) as (sb & cb & m & Hs & _ & _ & _ & _ & _ & Q).
  destruct (Q qs) as (_ & _ & _ & _ & _ & A & _). apply Hs in S0. rewrite S0 in A. exists (compute_inertia l).
  split; [exact A|]. apply new_polygon_ok in H. destruct H as [L3 _].
  destruct (inertia_ok l) as (M & k & [Hk HM] & E1 & E2 & E3 & X); [intro Z; subst l; cbn in L3; lia|].
  set (i := compute_inertia l) in *.
  assert (X0 : extent l (rad (i_angle i)) = M).
  { pose proof (X 0) as Y. rewrite Rplus_0_r, cos_0, sin_0 in Y. rewrite Y. ring. }
  assert (X9 : extent l (rad (i_angle i) + PI / 2) = k) by (rewrite X, cos_PI2, sin_PI2; ring).
  assert (XT : forall t, extent l t = M * cos (t - rad (i_angle i)) ^ 2 + k * sin (t - rad (i_angle i)) ^ 2).
  { intro t. rewrite <- X. f_equal. ring. }
  assert (Tr : forall t, cos t ^ 2 = 1 - sin t ^ 2).
  { intro t. pose proof (sin2_cos2 t) as U. unfold Rsqr in U. nra. }
  rewrite X0, X9. split; [|split; [|split; [exact E1|split; [exact E2|]]]].
  - intro t. rewrite XT, Tr. pose proof (pow2_ge_0 (sin (t - rad (i_angle i)))). nra.
  - intro t. rewrite XT. pose proof (pow2_ge_0 (cos (t - rad (i_angle i)))). specialize (Tr (t - rad (i_angle i))).
    replace (sin (t - rad (i_angle i)) ^ 2) with (1 - cos (t - rad (i_angle i)) ^ 2) by lra. nra.
  - rewrite E3. destruct (Req_EM_T (i_minor i) 0); split; intro; congruence.
Qed.
Definition flat (x : R) : list vec := [V x 0; V (x + 1) 0; V (x + 2) 0].
Lemma flat_axes x : exists p i, new_polygon (flat x) = Ok p /\ fst (ask AskAxes p) = Ok (AAxes i) /\
  i_major i = 4 * sqrt ((x ^ 2 + (x + 1) ^ 2 + (x + 2) ^ 2) / 3).
Proof.
  assert (H : new_polygon (flat x) = Ok (fresh (flat x))) by reflexivity.
  assert (S0 : simple (flat x)).
  { apply flat_simple. intros a b c d Ha Hb Hc Hd.
    assert (Y : forall q, In q (flat x) -> vy q = 0) by (intros q [<-|[<-|[<-|[]]]]; reflexivity).
    unfold crossv, vsub. cbn. rewrite !Y by assumption. ring. }
  destruct (axes_answer _ _ [] H S0) as (i & E & M1 & _ & M2 & _).
  exists (fresh (flat x)), i. split; [exact H|]. split; [exact E|]. rewrite M2. do 2 f_equal.
  assert (X : forall t, extent (flat x) t = (x ^ 2 + (x + 1) ^ 2 + (x + 2) ^ 2) / 3 * cos t ^ 2).
  { intro t. unfold extent, flat. cbn [map sumR vx vy length]. change (INR 3) with (1 + 1 + 1). field. }
  pose proof (M1 0) as L. rewrite !X, cos_0 in L. rewrite X.
  assert (C : cos (rad (i_angle i)) ^ 2 <= 1).
  { pose proof (COS_bound (rad (i_angle i))). nra. }
  assert (Pos : 0 <= (x ^ 2 + (x + 1) ^ 2 + (x + 2) ^ 2) / 3).
  { pose proof (pow2_ge_0 x). pose proof (pow2_ge_0 (x + 1)). pose proof (pow2_ge_0 (x + 2)). lra. }
  set (K := (x ^ 2 + (x + 1) ^ 2 + (x + 2) ^ 2) / 3) in *. set (k := cos (rad (i_angle i)) ^ 2) in *.
  assert (U : K * k <= K * 1) by (apply Rmult_le_compat_l; assumption). apply Rle_antisym; lra.
Qed.
Lemma axes_moved : exists p p' i i', new_polygon (flat 1) = Ok p /\
  new_polygon (map (fun q => vadd q (V (-2) 0)) (flat 1)) = Ok p' /\
  fst (ask AskAxes p) = Ok (AAxes i) /\ fst (ask AskAxes p') = Ok (AAxes i') /\ i_major i <> i_major i'.
Proof.
  destruct (flat_axes 1) as (p & i & H & E & M). destruct (flat_axes (-1)) as (p' & i' & H' & E' & M').
  exists p, p', i, i'. split; [exact H|].
  replace (map (fun q => vadd q (V (-2) 0)) (flat 1)) with (flat (-1)).
  2:{ unfold flat, vadd. cbn [map vx vy]. repeat (f_equal; try ring). }
  split; [exact H'|]. split; [exact E|]. split; [exact E'|]. rewrite M, M'. intro X.
  assert (Y : sqrt ((1 ^ 2 + (1 + 1) ^ 2 + (1 + 2) ^ 2) / 3) = sqrt (((-1) ^ 2 + (-1 + 1) ^ 2 + (-1 + 2) ^ 2) / 3)) by lra.
  apply sqrt_inj in Y; lra.
Qed.

Lemma inside_answer l p qs q : new_polygon l = Ok p ->
  (fst (ask (AskInside q) (after qs p)) = Ok (ABool false) /\
     ((forall a, In a l -> vy a <= vy q) \/ (forall a, In a l -> vy q < vy a))) \/
  (fst (ask (AskInside q) (after qs p)) = Raise AttributeError /\
     exists a b, In a l /\ In b l /\ vy a <= vy q /\ vy q < vy b).
Proof.
  intro H. destruct (answers_ok l p H) as (sb & cb & m & _ & _ & _ & _ & _ & _ & Q).
  destruct (Q qs) as (_ & _ & _ & _ & _ & _ & _ & A). rewrite A.
  destruct (Exists_dec (fun a => vy a <= vy q) l (fun a => Rle_dec (vy a) (vy q))) as [D|D].
  - apply Exists_exists in D. destruct D as (a & Ha & La).
    destruct (Exists_dec (fun b => vy q < vy b) l (fun b => Rlt_dec (vy q) (vy b))) as [D'|D'].
    + apply Exists_exists in D'. destruct D' as (b & Hb & Lb). right. rewrite (inside_raises l q a b) by assumption.
      split; [reflexivity|]. exists a, b. auto.
    + left. assert (G : forall b, In b l -> vy b <= vy q).
      { intros b Hb. apply Rnot_lt_le. intro C. apply D', Exists_exists. eauto. }
      rewrite inside_false by (left; exact G). split; [reflexivity|left; exact G].
  - left. assert (G : forall b, In b l -> vy q < vy b).
    { intros b Hb. apply Rnot_le_lt. intro C. apply D, Exists_exists. eauto. }
    rewrite inside_false by (right; exact G). split; [reflexivity|right; exact G].
Qed.

Lemma simplify_answer l threshold : (3 <= length l)%nat ->
  simplify l threshold = Ok None \/ simplify l threshold = Raise ValueError \/
  exists m, simplify l threshold = Ok (Some m) /\ (3 <= length m)%nat /\
    (exists keep, m = map (fun i => nth i l (V 0 0)) (filter keep (seq 0 (length l)))) /\
    (threshold < 0 -> m = l) /\
    (threshold = 0 -> nth_error l 0 <> nth_error l 1 -> forall o, sweep o m = sweep o l).
Proof.
  intro L3. destruct (simplify_ok l L3 threshold) as [H|[H|(m & E & Lm & K & T1 & T2)]]; [auto|auto|].
  right. right. exists m. split; [exact E|]. split; [exact Lm|]. split; [exact K|]. split; [exact T1|].
  intros T0 N o. rewrite (sweep_any o o0 m), (sweep_any o o0 l). apply T2; [exact T0|]. intro X. apply N.
  rewrite !(nth_error_nth' l o0) by lia. f_equal. exact X.
Qed.
(** A unit square whose first vertex is doubled and with a vertex in the middle of the last side. *)
Definition doubled : list vec := [V 0 0; V 0 0; V 1 0; V 1 1; V 0 1; V 0 (/ 2)].
Lemma sqrt_1_ : sqrt 1 = 1. Proof. apply sqrt_1. Qed.
Lemma deviation_value a b c : len (vsub c a) <> 0 ->
  deviation_with (vsub b a) (vsub c a) = Ok (cross (vsub c a) (vsub b a) / len (vsub c a)).
Proof. intro N. unfold deviation_with. apply fdiv_ok. exact N. Qed.
Lemma far_len a b : a <> b -> len (vsub b a) <> 0.
Proof.
  intros D. rewrite len_dist0. intro Z. apply D. pose proof (dist_sq b a) as Q. rewrite Z in Q.
  rewrite Rmult_0_l in Q. symmetry in Q. apply sumsq0 in Q. apply vec_eq; lra.
Qed.
Lemma aligned_test a b c : a <> c -> tri a b c = 0 ->
  (d <- deviation_with (vsub b a) (vsub c a) ;; Ok (Rleb (Rabs d) 0)) = Ok true.
Proof.
  intros D T. rewrite (deviation_value a b c (far_len a c D)). cbn [bind].
  replace (cross (vsub c a) (vsub b a)) with 0 by (unfold tri in T; unfold cross, vsub; cbn; lra).
  unfold Rdiv. rewrite Rmult_0_l, Rabs_R0, Rleb_true by lra. reflexivity.
Qed.
Lemma turning_test a b c : a <> c -> tri a b c <> 0 ->
  (d <- deviation_with (vsub b a) (vsub c a) ;; Ok (Rleb (Rabs d) 0)) = Ok false.
Proof.
  intros D T. rewrite (deviation_value a b c (far_len a c D)). cbn [bind].
  rewrite Rleb_false; [reflexivity|]. apply Rabs_pos_lt. unfold Rdiv. apply Rmult_integral_contrapositive. split.
  - unfold tri in T. unfold cross, vsub. cbn. lra.
  - apply Rinv_neq_0_compat, far_len, D.
Qed.
Lemma doubled_simplify : simplify doubled 0 = Ok (Some [V 1 0; V 1 1; V 0 1]).
Proof.
  assert (NE : forall x y x' y', x <> x' \/ y <> y' -> V x y <> V x' y') by (intros x y x' y' H E; injection E; intros; tauto).
  unfold simplify, doubled. cbn [length Nat.mul Nat.add].
  cbn [simplify_loop]. unfold test_edge_pair. cbn [length].
  cbn -[deviation_with Rleb Rabs].
  rewrite (aligned_test (V 0 0) (V 0 0) (V 1 0)) by (try (apply NE; lra); unfold tri; cbn; lra). cbn -[deviation_with Rleb Rabs].
  rewrite (turning_test (V 0 0) (V 1 0) (V 1 1)) by (try (apply NE; lra); unfold tri; cbn; lra). cbn -[deviation_with Rleb Rabs].
  rewrite (turning_test (V 1 0) (V 1 1) (V 0 1)) by (try (apply NE; lra); unfold tri; cbn; lra). cbn -[deviation_with Rleb Rabs].
  rewrite (turning_test (V 1 1) (V 0 1) (V 0 (/ 2))) by (try (apply NE; lra); unfold tri; cbn; lra). cbn -[deviation_with Rleb Rabs].
  rewrite (aligned_test (V 0 1) (V 0 (/ 2)) (V 0 0)) by (try (apply NE; lra); unfold tri; cbn; lra). cbn -[deviation_with Rleb Rabs].
  rewrite (aligned_test (V 0 1) (V 0 0) (V 0 0)) by (try (apply NE; lra); unfold tri; cbn; lra). cbn -[deviation_with Rleb Rabs].
  reflexivity.
Qed.
Lemma doubled_area : sweep o0 doubled = 1 /\ sweep o0 [V 1 0; V 1 1; V 0 1] = / 2.
Proof. split; unfold sweep, doubled, ring, tri; cbn; field. Qed.

(** Two points on the horizontal through the lowest point. *)
Lemma hull_same_angle : convex_hull [V 0 0; V 1 0; V 2 0; V 0 1] = Raise TypeError.
Proof.
  assert (O1 : orientation (vsub (V 1 0) (V 0 0)) = Ok 0).
  { unfold orientation, vbool, vsub. cbn -[Reqb Rltb Rleb]. rewrite Reqb_false by lra.
    replace (0 - 0) with 0 by ring. rewrite Reqb_refl, Rleb_true by lra. reflexivity. }
  assert (O2 : orientation (vsub (V 2 0) (V 0 0)) = Ok 0).
  { unfold orientation, vbool, vsub. cbn -[Reqb Rltb Rleb]. rewrite Reqb_false by lra.
    replace (0 - 0) with 0 by ring. rewrite Reqb_refl, Rleb_true by lra. reflexivity. }
  assert (O3 : orientation (vsub (V 0 1) (V 0 0)) = Ok 90).
  { unfold orientation, vbool, vsub. cbn -[Reqb Rltb Rleb]. replace (0 - 0) with 0 by ring.
    rewrite Reqb_refl, Rltb_false by lra. reflexivity. }
  unfold convex_hull, sort_point_for_graham_scan, stable_sort, y_le. cbn -[Reqb Rleb graham_data].
  rewrite (Reqb_false 0 1) by lra. rewrite (Rleb_true (0 - 1)) by lra. cbn -[Reqb Rleb graham_data].
  rewrite !Reqb_refl. rewrite (Rleb_true (1 - 2)) by lra. cbn -[Reqb Rleb graham_data].
  rewrite !Reqb_refl. rewrite (Rleb_true (0 - 1)) by lra. cbn -[Reqb Rleb graham_data].
  unfold graham_data. cbn [traverse]. rewrite O1, O2, O3. cbn -[Reqb Rleb].
  repeat (first [rewrite (Rleb_true 0 90) by lra | rewrite (Rleb_true 0 0) by lra]; cbn -[Reqb Rleb]).
  rewrite Reqb_refl. reflexivity.
Qed.

(** Perimeter of the triangle (0,0) (3,0) (3,4), and of a square. *)
Lemma dist_h x x' y : dist (V x y) (V x' y) = Rabs (x' - x).
Proof. unfold dist. cbn [vx vy]. replace ((x - x') * (x - x') + (y - y) * (y - y)) with (Rsqr (x' - x)) by (unfold Rsqr; ring). apply sqrt_Rsqr_abs. Qed.
Lemma dist_v x y y' : dist (V x y) (V x y') = Rabs (y' - y).
Proof. unfold dist. cbn [vx vy]. replace ((x - x) * (x - x) + (y - y') * (y - y')) with (Rsqr (y' - y)) by (unfold Rsqr; ring). apply sqrt_Rsqr_abs. Qed.
Lemma square_outline k : 0 <= k -> outline (map (fun q => vscale q k) square) = 4 * k.
Proof.
  intro K. replace (map (fun q => vscale q k) square) with [V 0 0; V k 0; V k k; V 0 k]
    by (unfold square, vscale; cbn [map vx vy]; repeat (f_equal; try ring)).
  unfold outline, ring. cbn [map app combine fst snd sumR fold_right]. rewrite dist_h, dist_v, dist_h, dist_v.
  rewrite !Rminus_0_r, !Rminus_0_l, Rabs_Ropp, (Rabs_pos_eq k K). ring.
Qed.
Lemma stale_square : exists p, new_polygon square = Ok p /\
  let twice := fun q => vscale q 2 in
  let p1 := transform_points twice (snd (ask AskPerimeter p)) in
  let p2 := transform_points twice (snd (ask AskArea p)) in
  p_points p1 = map twice square /\ p_points p2 = map twice square /\
  fst (ask AskPerimeter p1) = Ok (ALength 4) /\ outline (p_points p1) = 8 /\
  fst (ask AskArea p2) = Ok (AReal (Some 1)) /\ sweep o0 (p_points p2) = 4.
Proof.
  exists (fresh square). assert (H : new_polygon square = Ok (fresh square)) by reflexivity. split; [exact H|].
  cbn zeta. set (twice := fun q => vscale q 2).
  destruct (stale_perimeter square twice _ [] H) as [A1 A2].
  destruct (stale_area square twice _ [] H square_simple) as [B1 B2].
  change (after [] (fresh square)) with (fresh square) in *.
  assert (E : outline square = 4).
  { pose proof (square_outline 1 ltac:(lra)) as E. replace (map (fun q => vscale q 1) square) with square in E; [lra|].
    unfold square, vscale. cbn [map vx vy]. repeat (f_equal; try ring). }
  split; [exact A1|]. split; [exact B1|]. split; [rewrite A2, E; reflexivity|].
  split; [rewrite A1; unfold twice; rewrite square_outline by lra; ring|]. split.
  - rewrite B2, square_sweep, Rabs_pos_eq by lra. reflexivity.
  - rewrite B1. unfold sweep, square, twice, ring, tri. cbn. field.
Qed.

Lemma perimeter_answer l p qs : new_polygon l = Ok p ->
  fst (ask AskPerimeter (after qs p)) = Ok (ALength (outline l)).
Proof.
  intro H. destruct (answers_ok l p H) as (sb & cb & m & _ & _ & _ & _ & _ & _ & Q). apply (Q qs).
Qed.
Lemma creation l : (forall p, new_polygon l = Ok p -> p_points p = l) /\
  ((3 <= length l)%nat -> is_ok (new_polygon l)) /\ ((length l < 3)%nat -> new_polygon l = Raise ValueError).
Proof.
  split; [|split].
  - intros p H. apply new_polygon_ok in H. destruct H as [_ ->]. reflexivity.
  - intro L3. unfold new_polygon. destruct (Nat.ltb_spec (length l) 3); [lia|]. eexists. reflexivity.
  - intro L3. unfold new_polygon. destruct (Nat.ltb_spec (length l) 3); [reflexivity|lia].
Qed.
Lemma doubled_lost : simplify doubled 0 = Ok (Some [V 1 0; V 1 1; V 0 1]) /\
  sweep o0 doubled = 1 /\ sweep o0 [V 1 0; V 1 1; V 0 1] = / 2.
Proof. split; [apply doubled_simplify|apply doubled_area]. Qed.
Lemma bow_wrong : exists p, new_polygon bow = Ok p /\ fst (ask AskSimple p) = Ok (ABool true) /\
  exists e f q, nth_error (ring bow) 0 = Some e /\ nth_error (ring bow) 2 = Some f /\
    between (fst e) (snd e) q /\ between (fst f) (snd f) q /\ q <> fst e /\ q <> snd e /\ q <> fst f /\ q <> snd f.
Proof.
  destruct bow_answer as (p & H & A). exists p. split; [exact H|]. split; [exact A|]. exact bow_crosses.
Qed.
