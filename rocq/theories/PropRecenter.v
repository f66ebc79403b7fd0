(** C157: recentering a polygon. *)
From Coq Require Import Reals Lra Lia List ZArith Bool.
From Verif Require Import Base ModelIter ModelVector SpecVector ProofVector ModelLine SpecLine ModelPolygon SpecPolygon
  ProofPolygon ProofPolygon2 ProofPolygon3.
Import ListNotations.
Local Open Scope R_scope.

(** A polygon whose barycenter was asked for, after any queries. *)
Lemma asked l p qs : new_polygon l = Ok p -> simple l -> exists m sb cb,
  compute_area_barycenter l = Ok m /\ let q := snd (ask AskBarycenter (after qs p)) in
  fst (ask AskBarycenter (after qs p)) = Ok (APoint (m_barycenter m)) /\
  c_measures q = Some m /\ p_points q = l /\ fits l sb cb m q /\ c_simple q = Some true.
Proof.
  intros H S. apply new_polygon_ok in H. destruct H as [L3 ->].
  destruct (simple_test_ok l) as (sb & SB & Hs). destruct (convex_test_ok l L3) as (cb & CB & Hc).
  destruct (measures_ok l) as (m & ME & _); [intro Z; subst l; cbn in L3; lia|].
  exists m, sb, cb. split; [exact ME|]. apply Hs in S. rewrite S in *.
  pose proof (fits_after l true SB cb CB m ME qs _ (fits_fresh l true cb m)) as FA.
  change (Poly l None None None None None None) with (fresh l) in FA. cbn zeta.
  set (q := after qs (fresh l)) in *. clearbody q.
  destruct (check_area_ok l true SB cb m ME q FA) as (E1 & F1 & M1).
  assert (CS : c_simple (snd (check_area q)) = Some true).
  { unfold check_area, then_, self, lift, set_measures, ret.
    assert (Y : fst (get_is_simple q) = Ok true /\ c_simple (snd (get_is_simple q)) = Some true).
    { destruct (get_simple_ok l true SB cb m q FA) as [G1 _]. split; [exact G1|].
      revert G1. unfold get_is_simple, then_, self, lift, ret, set_simple.
      destruct (c_simple q) as [b|] eqn:Eb; [cbn; intro G; injection G as ->; exact Eb|].
      destruct (get_edges q) as [[e|x] q0]; [|cbn; discriminate].
      destruct (test_is_simple e) as [b|x]; cbn; [|discriminate]. intro G. injection G as ->. reflexivity. }
    destruct Y as [Y1 Y2]. destruct (get_is_simple q) as [r q0]. cbn in Y1, Y2. subst r.
    destruct (c_measures q0); [exact Y2|]. destruct (compute_area_barycenter (p_points q0)); exact Y2. }
  unfold ask, get_barycenter, then_, self. destruct (check_area q) as [x q']. cbn in E1, F1, M1, CS. subst x.
  rewrite M1. cbn. split; [reflexivity|]. split; [exact M1|]. split; [apply F1|]. auto.
Qed.

Lemma moved_moment g o l : moment o (map (fun q => vsub q g) l) =
  V (vx (moment (vadd o g) l) - vx g * sweep (vadd o g) l) (vy (moment (vadd o g) l) - vy g * sweep (vadd o g) l).
Proof.
  pose proof (affine_moment 1 0 (- vx g) 0 1 (- vy g) (vadd o g) l) as A.
  replace (affine 1 0 (- vx g) 0 1 (- vy g) (vadd o g)) with o in A
    by (destruct o; unfold affine, vadd; cbn; f_equal; ring).
  replace (map (affine 1 0 (- vx g) 0 1 (- vy g)) l) with (map (fun q => vsub q g) l) in A
    by (apply map_ext; intros [x y]; unfold affine, vsub; cbn; f_equal; ring).
  rewrite A. f_equal; ring.
Qed.

Lemma measures_sign l m : l <> [] -> compute_area_barycenter l = Ok m -> (m_sign m = None <-> sweep (V 0 0) l = 0) /\
  (sweep (V 0 0) l <> 0 -> vscale (m_barycenter m) (sweep (V 0 0) l) = moment (V 0 0) l) /\
  (sweep (V 0 0) l = 0 -> m_barycenter m = hd (V 0 0) l).
Proof.
  intros N E. destruct (measures_ok l N) as (m' & E' & _ & S & Z & B). rewrite E in E'. injection E' as <-.
  change (V 0 0) with o0. split; [|split; [exact B|exact Z]]. rewrite S. destruct (Req_EM_T (sweep o0 l) 0); split; intro; auto; congruence.
Qed.

(** Once its barycenter has been asked for, a polygon with an area is moved by it: all its points by the same vector, and the
    centre of mass of the outline is then the origin. *)
Theorem C157_moved_partial : forall l p qs o, new_polygon l = Ok p -> simple l -> sweep o l <> 0 ->
  let q := snd (ask AskBarycenter (after qs p)) in
  exists g, fst (ask AskBarycenter (after qs p)) = Ok (APoint g) /\
    fst (recenter q) = Ok tt /\ let l' := p_points (snd (recenter q)) in
    l' = map (fun a => V (vx a - vx g) (vy a - vy g)) l /\
    (forall o', moment o' l' = V 0 0) /\ forall o', sweep o' l' = sweep o l.
Proof.
  intros l p qs o H S A q. destruct (asked l p qs H S) as (m & sb & cb & E & B & M & P & _). fold q in B, M, P.
  assert (N : l <> []). { apply new_polygon_ok in H. destruct H as [H _]. intros ->. cbn in H. lia. }
  destruct (measures_sign l m N E) as (G & Bm & _).
  exists (m_barycenter m). split; [exact B|].
  unfold recenter, then_, self. rewrite M, P. destruct (m_sign m) as [s|] eqn:Sg.
  2:{ exfalso. apply A. rewrite (sweep_any o (V 0 0)). apply G. reflexivity. }
  cbn [fst snd p_points]. split; [reflexivity|]. split; [reflexivity|]. split.
  - intros o'. rewrite moved_moment. rewrite (sweep_any (vadd o' (m_barycenter m)) (V 0 0)), (moment_any (vadd o' (m_barycenter m)) (V 0 0)).
    rewrite (sweep_any o (V 0 0)) in A. rewrite <- (Bm A). unfold vscale. cbn [vx vy]. f_equal; ring.
  - intros o'. rewrite <- (sweep_any (vsub o' (m_barycenter m)) o'), (sweep_any o o').
    pose proof (affine_sweep 1 0 (- vx (m_barycenter m)) 0 1 (- vy (m_barycenter m)) o' l) as Q.
    replace (affine 1 0 (- vx (m_barycenter m)) 0 1 (- vy (m_barycenter m)) o') with (vsub o' (m_barycenter m)) in Q
      by (destruct o'; unfold affine, vsub; cbn; f_equal; ring).
    replace (map (affine 1 0 (- vx (m_barycenter m)) 0 1 (- vy (m_barycenter m))) l) with (map (fun q => vsub q (m_barycenter m)) l) in Q
      by (apply map_ext; intros [x y]; unfold affine, vsub; cbn; f_equal; ring).
    rewrite Q. ring.
Qed.
Print Assumptions C157_moved_partial.

(** The moved polygon still answers the barycenter it had before, and keeps its former edges. *)
Theorem C157_stale_refuted : forall l p qs o, new_polygon l = Ok p -> simple l -> sweep o l <> 0 ->
  let q := snd (ask AskBarycenter (after qs p)) in
  fst (ask AskBarycenter (snd (recenter q))) = fst (ask AskBarycenter (after qs p)) /\
  c_edges (snd (recenter q)) = c_edges q.
Proof.
  intros l p qs o H S A q. destruct (asked l p qs H S) as (m & sb & cb & E & B & M & P & F & CS). fold q in B, M, P, F, CS.
  assert (N : l <> []). { apply new_polygon_ok in H. destruct H as [H _]. intros ->. cbn in H. lia. }
  destruct (measures_sign l m N E) as (G & _ & _). rewrite B. clearbody q.
  unfold recenter, then_, self. rewrite M, P. destruct (m_sign m) as [s|] eqn:Sg.
  2:{ exfalso. apply A. rewrite (sweep_any o (V 0 0)). apply G. reflexivity. }
  cbn [fst snd c_edges]. split; [|reflexivity].
  unfold ask, get_barycenter, check_area, get_is_simple, then_, self, ret. cbn. rewrite CS. reflexivity.
Qed.
Print Assumptions C157_stale_refuted.

(** On a polygon nothing was asked of, the call fails. *)
Theorem C157_before_refuted : forall l p, new_polygon l = Ok p -> recenter p = (Raise AttributeError, p).
Proof. intros l p H. apply new_polygon_ok in H. destruct H as [_ ->]. reflexivity. Qed.
Print Assumptions C157_before_refuted.

(** A polygon of null area is torn: its first point goes to the origin, the others stay. *)
Theorem C157_flat_refuted : forall l p qs o, new_polygon l = Ok p -> simple l -> sweep o l = 0 ->
  let q := snd (ask AskBarycenter (after qs p)) in
  fst (recenter q) = Ok tt /\ p_points (snd (recenter q)) = V 0 0 :: tl l /\
  fst (ask AskBarycenter (snd (recenter q))) = Ok (APoint (V 0 0)).
Proof.
  intros l p qs o H S A q. destruct (asked l p qs H S) as (m & sb & cb & E & B & M & P & F & CS). fold q in B, M, P, F, CS.
  assert (N : l <> []). { apply new_polygon_ok in H. destruct H as [H _]. intros ->. cbn in H. lia. }
  destruct (measures_sign l m N E) as (G & _ & _). clearbody q. rewrite (sweep_any o (V 0 0)) in A. apply G in A.
  assert (Z : forall a : vec, vsub a a = V 0 0) by (intros [x y]; unfold vsub; cbn; f_equal; ring).
  unfold recenter, then_, self. rewrite M, P, A. destruct l as [|a t]; [congruence|]. rewrite (Z a).
  cbn [fst snd p_points tl]. split; [reflexivity|]. split.
  - f_equal. rewrite <- (map_id t) at 2. apply map_ext. intros [x y]. unfold vsub. cbn. f_equal; ring.
  - unfold ask, get_barycenter, check_area, get_is_simple, then_, self, ret. cbn. rewrite CS. reflexivity.
Qed.
Print Assumptions C157_flat_refuted.

(** The unit square goes to the square around the origin. *)
Example C157_square_case : exists p, new_polygon square = Ok p /\ simple square /\ sweep o0 square <> 0 /\
  let q := snd (ask AskBarycenter p) in
  p_points (snd (recenter q)) = [V (-1/2) (-1/2); V (1/2) (-1/2); V (1/2) (1/2); V (-1/2) (1/2)].
Proof.
  exists (fresh square). split; [reflexivity|]. split; [exact square_simple|].
  assert (A : sweep o0 square <> 0) by (rewrite square_sweep; lra). split; [exact A|].
  destruct (C157_moved_partial square (fresh square) [] o0 eq_refl square_simple A) as (g & B & _ & P & Z & _).
  change (after [] (fresh square)) with (fresh square) in *. cbn zeta. rewrite P. rewrite P in Z. specialize (Z o0).
  unfold moment, square, ring, tri, o0 in Z. cbn in Z. injection Z as Zx Zy.
  assert (vx g = 1/2) by lra. assert (vy g = 1/2) by lra. unfold square. cbn [map vx vy].
  repeat (apply f_equal2; [apply vec_eq; cbn [vx vy]; lra|]). reflexivity.
Qed.

(** Three points in a row. *)
Example C157_row_case : exists p, new_polygon [V 1 1; V 2 2; V 3 3] = Ok p /\ simple [V 1 1; V 2 2; V 3 3] /\
  sweep o0 [V 1 1; V 2 2; V 3 3] = 0 /\
  p_points (snd (recenter (snd (ask AskBarycenter p)))) = [V 0 0; V 2 2; V 3 3].
Proof.
  assert (S : simple [V 1 1; V 2 2; V 3 3]).
  { intros i j e f N He Hf. unfold ring in He, Hf. cbn [combine app] in He, Hf.
    destruct i as [|[|[|i]]]; cbn [nth_error] in He; try (destruct i; discriminate); injection He as <-;
    destruct j as [|[|[|j]]]; cbn [nth_error] in Hf; try (destruct j; discriminate); try congruence; injection Hf as <-;
    intros P; exfalso; revert P; unfold crossv, vsub; cbn [fst snd vx vy];
    match goal with |- _ < Rabs ?x -> _ => replace x with 0 by ring end; rewrite Rabs_R0; lra. }
  assert (A : sweep o0 [V 1 1; V 2 2; V 3 3] = 0) by (unfold sweep, ring, tri, o0; cbn; field).
  exists (fresh [V 1 1; V 2 2; V 3 3]). split; [reflexivity|]. split; [exact S|]. split; [exact A|].
  destruct (C157_flat_refuted _ _ [] o0 (eq_refl : new_polygon [V 1 1; V 2 2; V 3 3] = Ok (fresh _)) S A) as (_ & P & _).
  exact P.
Qed.
