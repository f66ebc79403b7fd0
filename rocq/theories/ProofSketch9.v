(** Sketches which break the properties. *)
From Coq Require Import String Reals List ZArith Bool Lia Lra.
From Verif Require Import Base ModelVector SpecVector ProofVector ModelLine SpecLine ProofSegment ModelConic SpecConic GlueConic ModelGraph SpecGraph GlueGraph ModelCounter
  ModelSketch SpecSketch GlueSketch ProofSketch ProofSketch2 ProofSketch3 ProofSketch4 ProofSketch5 ProofSketch6 ProofSketch7 ProofSketch8.
Import ListNotations.
Local Open Scope R_scope.
Local Open Scope string_scope.

Definition single_point name x y := Add (Args KSingle name [] [EConst x; EConst y]) None.

(** ** A point which measures itself *)
Definition loop_history : list event :=
  [single_point "A" 0 0; single_point "B" 1 0;
   Add (Args KNormal "N" [[RName "A"; RName "B"]] [EAdd (EName "unknown") (ECall FLine ["N"; "B"]); EConst 1]) None].
Lemma normal_segment : normalise (V (1 - 0) (0 - 0)) = Ok (V 1 0).
Proof.
  unfold normalise, vdiv. rewrite magnitude_len. unfold len. cbn [vx vy].
  replace ((1 - 0) * (1 - 0) + (0 - 0) * (0 - 0)) with 1 by ring. rewrite sqrt_1.
  rewrite Reqb_false by lra. do 2 f_equal; field.
Qed.
Definition normal_rest (i : nat) (a u : vec) : action unit :=
  then_ (value i 0) (fun angle =>
  let n := normal u in
  let n := match angle with Some t => if Reqb t 0 then n else rotate n t true | None => n end in
  then_ (number i 1) (fun l =>
  then_ (returns (plus (Some a) (vscale n l))) (fun p =>
  then_ (put_op i (set_vector (Some p))) (fun _ => modify (set_segment None))))).
Lemma eval_normal_eq i o s a b u : o_kind o = KNormal -> ref_vector o 1 s = (Ok (Some b), s) -> ref_vector o 0 s = (Ok (Some a), s) ->
  normalise (vsub b a) = Ok u -> eval_internal i o s = normal_rest i a u (set_segment (Some (vsub b a)) s).
Proof.
  intros K R1 R0 N. unfold eval_internal. rewrite K. cbn zeta. unfold then_ at 1. rewrite R1. unfold then_ at 1. rewrite R0.
  unfold then_ at 1, returns at 1, difference. unfold then_ at 1, modify at 1. unfold then_ at 1, returns at 1. rewrite N. reflexivity.
Qed.

Definition loop_built := Eval cbv -[IZR Rminus Rplus Rmult] in history loop_history (new_sketch 0 []).
Definition loop_two := Eval cbv -[IZR Rminus Rplus Rmult] in snd (eval_ops [0; 1]%nat loop_built).
Definition loop_point := Eval cbv -[IZR Rminus Rplus Rmult] in
  match nth_error (ops loop_two) 2 with Some o => o | None => Op KPoint 0 "" 0%nat [] [] [] None None end.
Definition loop_three := Eval cbv -[IZR Rminus Rplus Rmult] in
  normal_rest 2 (V 0 0) (V 1 0) (set_segment (Some (V (1 - 0) (0 - 0))) (registered 2 loop_point loop_two)).
Definition loop_final := Eval cbv -[IZR Rminus Rplus Rmult] in
  then_ (the_op 2) (fun o => connect_expressions 2 (o_exprs o)) (snd loop_three).
Lemma loop_three_ok : eval_point 2 loop_point loop_two = loop_three.
Proof.
  change (eval_point 2 loop_point loop_two) with (eval_internal 2 loop_point (registered 2 loop_point loop_two)).
  rewrite (eval_normal_eq 2 loop_point (registered 2 loop_point loop_two) (V 0 0) (V 1 0) (V 1 0) eq_refl eq_refl eq_refl normal_segment). reflexivity.
Qed.
Lemma loop_eval : eval_sketch (history loop_history (new_sketch 0 [])) = loop_final.
Proof.
  change (history loop_history (new_sketch 0 [])) with loop_built.
  change (eval_sketch loop_built) with (then_ (eval_op 2) (fun _ => eval_ops []) loop_two).
  unfold then_. rewrite (eval_op_eq 2 loop_two loop_point eq_refl). unfold then_ at 1. rewrite loop_three_ok. reflexivity.
Qed.
Lemma eval_invariant s r : eval_sketch s = r -> invariant s -> invariant (snd r).
Proof. intros <- Iv. exact (happen_invariant Eval s Iv). Qed.
Lemma loop_edge : exists a, represents (dag (snd loop_final)) a /\ a_edge a 2%nat 2%nat.
Proof.
  pose proof (eval_invariant _ _ loop_eval (history_invariant loop_history _ (new_sketch_invariant 0 []))) as Iv.
  destruct (dy_graph _ (proj2 Iv)) as (a & R & _ & _ & Eb). exists a. split; [exact R|].
  refine (proj1 (Eb 2%nat _ 2%nat _ eq_refl eq_refl) _). cbn. auto.
Qed.
Theorem cycle_refuted : exists l c m x, let s := history l (new_sketch c m) in
  fst (eval_sketch s) = Ok tt /\
  exists a, represents (dag (snd (eval_sketch s))) a /\ on_cycle (a_edge a) x.
Proof.
  exists loop_history, 0%Z, [], 2%nat. cbn zeta. rewrite loop_eval. split; [reflexivity|].
  destruct loop_edge as (a & R & E). exists a. split; [exact R|]. exists 0%nat. econstructor; [constructor|exact E].
Qed.

(** ** A point which is mentioned and not recorded *)
Definition angle_history : list event :=
  [single_point "A" 0 0; single_point "B" 1 0;
   Add (Args KSingle "P" [] [ECall FAngleLine ["A"; "B"]; EConst 0]) None].
Definition angle_built := Eval cbv -[IZR Rminus Rplus Rmult] in history angle_history (new_sketch 0 []).
Definition angle_two := Eval cbv -[IZR Rminus Rplus Rmult] in snd (eval_ops [0; 1]%nat angle_built).
Definition angle_point := Eval cbv -[IZR Rminus Rplus Rmult] in
  match nth_error (ops angle_two) 2 with Some o => o | None => Op KPoint 0 "" 0%nat [] [] [] None None end.
Definition angle_mid := registered 2 angle_point angle_two.
Definition angle_next (t : R) := Eval cbv -[IZR Rminus Rplus Rmult] in
  with_expr angle_mid 2 0 angle_point (Expr (ECall FAngleLine ["A"; "B"]) (Some []) (Some t) false).
Definition angle_three (t : R) := Eval cbv -[IZR Rminus Rplus Rmult] in
  then_ (value 2 1) (fun y => match y with
     | Some y => put_op 2 (set_vector (Some (V t y)))
     | None => returns (Raise NotANumber)
     end) (angle_next t).
Definition angle_final (t : R) := Eval cbv -[IZR Rminus Rplus Rmult] in
  then_ (the_op 2) (fun o => connect_expressions 2 (o_exprs o)) (snd (angle_three t)).
Lemma angle_three_ok t : orientation (V (1 - 0) (0 - 0)) = Ok t -> eval_point 2 angle_point angle_two = angle_three t.
Proof.
  intro T. change (eval_point 2 angle_point angle_two) with
    (then_ (value 2 0) (fun x => then_ (value 2 1) (fun y =>
      match x, y with
      | Some x, Some y => put_op 2 (set_vector (Some (V x y)))
      | _, _ => returns (Raise NotANumber)
      end)) angle_mid).
  unfold then_ at 1.
  assert (W : value 2 0 angle_mid = (Ok (Some t), angle_next t)).
  { rewrite (value_eq angle_mid 2 0 angle_point (new_expression (ECall FAngleLine ["A"; "B"])) eq_refl eq_refl).
    cbn [x_value x_error new_expression x_dependencies x_source visit_expr].
    change (evaluate angle_mid (ECall FAngleLine ["A"; "B"])) with (orientation (V (1 - 0) (0 - 0))). rewrite T. reflexivity. }
  rewrite W. reflexivity.
Qed.
Lemma angle_eval t : orientation (V (1 - 0) (0 - 0)) = Ok t -> eval_sketch (history angle_history (new_sketch 0 [])) = angle_final t.
Proof.
  intro T. change (history angle_history (new_sketch 0 [])) with angle_built.
  change (eval_sketch angle_built) with (then_ (eval_op 2) (fun _ => eval_ops []) angle_two).
  unfold then_. rewrite (eval_op_eq 2 angle_two angle_point eq_refl). unfold then_ at 1. rewrite (angle_three_ok t T). reflexivity.
Qed.
Theorem recorded_refuted : exists l c m s', eval_sketch (history l (new_sketch c m)) = (Ok tt, s') /\
  exists i o e n j p, nth_error (ops s') i = Some o /\ In e (o_exprs o) /\ mentions (x_source e) n /\
    nth_error (ops s') j = Some p /\ o_name p = n /\ is_point (o_kind p) = true /\
    (forall k q, nth_error (ops s') k = Some q -> o_name q = n -> k = j) /\
    ~ In j (o_dependencies o).
Proof.
  destruct (orientation_ok (V (1 - 0) (0 - 0))) as (t & T & _).
  { intros [N _]. cbn in N. lra. }
  exists angle_history, 0%Z, [], (snd (angle_final t)). split; [rewrite (angle_eval t T); reflexivity|].
  exists 2%nat. do 2 eexists. exists "B", 1%nat. eexists. split; [reflexivity|]. split; [left; reflexivity|].
  split; [split; [exact Logic.I|right; left; reflexivity]|]. split; [reflexivity|]. split; [reflexivity|]. split; [reflexivity|]. split; [|intros []].
  intros k q Hk Hn. destruct k as [|[|[|k]]]; try reflexivity; try (cbn in Hk; injection Hk as <-; discriminate Hn).
  cbn in Hk. destruct k; discriminate Hk.
Qed.

(** ** A point of contact off its segment *)
Definition contact_history : list event :=
  [single_point "A" 0 0; single_point "B" 10 0;
   Add (Args KContact "P" [[RName "A"; RName "B"]; [RName "B"]] [EConst 5]) None].
Lemma eval_contact_eq i o s s1 a b c r p q t t' : o_kind o = KContact ->
  ref_vector o 0 s = (Ok (Some a), s) -> ref_vector o 1 s = (Ok (Some b), s) -> ref_vector o 2 s = (Ok (Some c), s) ->
  value i 0 s = (Ok (Some r), s1) -> intersect_segment (Circ c r None) (Seg a b) = Ok (MTwo p q) ->
  contain_point (Seg a b) p = Ok t -> contain_point (Seg a b) q = Ok t' ->
  eval_internal i o s = put_op i (set_vector (Some (if t then p else q))) s1.
Proof.
  intros K R0 R1 R2 W M C1 C2. unfold eval_internal. rewrite K. cbn zeta. unfold then_ at 1. rewrite R0. unfold then_ at 1. rewrite R1.
  unfold then_ at 1. rewrite R2. unfold then_ at 1. rewrite W. unfold then_ at 1, returns at 1. rewrite M.
  unfold then_ at 1, returns at 1. rewrite C1. unfold then_ at 1, returns at 1. rewrite C2. reflexivity.
Qed.
Definition contact_built := Eval cbv -[IZR Rminus Rplus Rmult] in history contact_history (new_sketch 0 []).
Definition contact_two := Eval cbv -[IZR Rminus Rplus Rmult] in snd (eval_ops [0; 1]%nat contact_built).
Definition contact_point_op := Eval cbv -[IZR Rminus Rplus Rmult] in
  match nth_error (ops contact_two) 2 with Some o => o | None => Op KPoint 0 "" 0%nat [] [] [] None None end.
Definition contact_mid := Eval cbv -[IZR Rminus Rplus Rmult] in snd (value 2 0 (registered 2 contact_point_op contact_two)).
Definition contact_three (v : vec) := Eval cbv -[IZR Rminus Rplus Rmult] in put_op 2 (set_vector (Some v)) contact_mid.
Definition contact_final (v : vec) := Eval cbv -[IZR Rminus Rplus Rmult] in
  then_ (the_op 2) (fun o => connect_expressions 2 (o_exprs o)) (snd (contact_three v)).
Lemma contact_meets : intersect_segment (Circ (V 10 0) 5 None) (Seg (V 0 0) (V 10 0)) = Ok (MTwo (V 5 0) (V 15 0)).
Proof.
  unfold intersect_segment, s_vector, cross. cbn [s_p0 s_p1 c_center c_radius vsub vx vy]. cbn zeta.
  replace ((0 - 10) * (0 - 0) - (0 - 0) * (10 - 10)) with 0 by ring.
  replace ((10 - 0) ^ 2 + (0 - 0) ^ 2) with 100 by ring. 
  rewrite Rltb_false by lra. rewrite Reqb_false by lra. replace (5 ^ 2 * 100 - 0 ^ 2) with (50 * 50) by ring. 
  rewrite sqrt_square by lra. unfold fdiv. rewrite Reqb_false by lra. cbn [bind].
  replace (0 - 0) with 0 by ring. unfold sign. rewrite Rltb_false by lra. rewrite Rabs_R0. unfold vadd. cbn [vx vy].
  do 2 f_equal; f_equal; field.
Qed.
Lemma contact_contains : exists t, contain_point (Seg (V 0 0) (V 10 0)) (V 15 0) = Ok t.
Proof.
  unfold contain_point, to_line, line_from_two_points, distance_and_abscissa_to_line, deviation_with, projection_on, magnitude_square.
  cbn [s_p0 s_p1 l_p l_v].
  rewrite magnitude_len. unfold len, vsub, dot. cbn [vx vy]. rewrite Reqb_false by lra.
  replace ((10 - 0) * (10 - 0) + (0 - 0) * (0 - 0)) with (10 * 10) by ring. rewrite sqrt_square by lra.
  unfold fdiv. rewrite Reqb_false by lra. cbn [bind]. eexists. reflexivity.
Qed.
Lemma contact_three_ok : eval_point 2 contact_point_op contact_two = contact_three (V 15 0).
Proof.
  change (eval_point 2 contact_point_op contact_two) with (eval_internal 2 contact_point_op (registered 2 contact_point_op contact_two)).
  destruct contact_contains as (t & T).
  rewrite (eval_contact_eq 2 contact_point_op (registered 2 contact_point_op contact_two) contact_mid (V 0 0) (V 10 0) (V 10 0) 5 (V 5 0) (V 15 0)
    false t eq_refl eq_refl eq_refl eq_refl eq_refl contact_meets contain_point_misses T).
  reflexivity.
Qed.
Lemma contact_eval : eval_sketch (history contact_history (new_sketch 0 [])) = contact_final (V 15 0).
Proof.
  change (history contact_history (new_sketch 0 [])) with contact_built.
  change (eval_sketch contact_built) with (then_ (eval_op 2) (fun _ => eval_ops []) contact_two).
  unfold then_. rewrite (eval_op_eq 2 contact_two contact_point_op eq_refl). unfold then_ at 1. rewrite contact_three_ok. reflexivity.
Qed.
(** The point is off the segment although the circle meets the segment. *)
Theorem contact_refuted : exists l c m s', Forall quiet l /\ eval_sketch (history l (new_sketch c m)) = (Ok tt, s') /\
  exists i o a b ce r p q, nth_error (ops s') i = Some o /\ o_kind o = KContact /\
    at_ref s' o 0 a /\ at_ref s' o 1 b /\ at_ref s' o 2 ce /\ at_expr o 0 r /\ o_vector o = Some p /\
    ~ on_segment (Seg a b) p /\ on_segment (Seg a b) q /\ on_circle ce (Rabs r) q.
Proof.
  exists contact_history, 0%Z, [], (snd (contact_final (V 15 0))). split; [repeat constructor|]. split; [rewrite contact_eval; reflexivity|].
  exists 2%nat. eexists. exists (V 0 0), (V 10 0), (V 10 0), 5, (V 15 0), (V 5 0). split; [reflexivity|]. split; [reflexivity|].
  split; [do 2 eexists; split; [reflexivity|split; reflexivity]|]. split; [do 2 eexists; split; [reflexivity|split; reflexivity]|].
  split; [do 2 eexists; split; [reflexivity|split; reflexivity]|]. split; [eexists; split; reflexivity|]. split; [reflexivity|].
  split; [|split].
  - intros (u & U & E & _). cbn in E. lra.
  - exists (1 / 2). cbn. lra.
  - unfold on_circle, dist. cbn [vx vy]. rewrite Rabs_right by lra. replace ((10 - 5) * (10 - 5) + (0 - 0) * (0 - 0)) with (5 * 5) by ring. apply sqrt_square. lra.
Qed.
