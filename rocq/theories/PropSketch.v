(** Properties of sketches: C31 to C34. *)
From Coq Require Import String Reals List ZArith Bool Lia Lra.
From Verif Require Import Base ModelVector SpecVector ModelLine SpecLine ModelConic SpecConic GlueConic ModelGraph SpecGraph GlueGraph ModelCounter
  ModelSketch SpecSketch GlueSketch ProofSketch ProofSketch4 ProofSketch8 ProofSketch9.
Import ListNotations.
Local Open Scope nat_scope.

(** ** C31 Sketch dependencies never form a cycle *)

(** Holds when no point is defined by its own distance to another one, see the refutation. *)
Theorem C31_no_cycle_partial l c m : Forall modest_event l -> let s := history l (new_sketch c m) in
  exists a, represents (dag s) a /\ (forall x, ~ on_cycle (a_edge a) x) /\
    (forall i j o p, nth_error (ops s) i = Some o -> nth_error (ops s) j = Some p ->
       a_edge a (o_node o) (o_node p) -> i < j).
Proof. exact (no_cycle l c m). Qed.
Print Assumptions C31_no_cycle_partial.

Theorem C31_only_loops_partial l c m : let s := history l (new_sketch c m) in
  exists a, represents (dag s) a /\ (forall x, on_cycle (a_edge a) x -> selfish s x) /\
    (forall i j o p, nth_error (ops s) i = Some o -> nth_error (ops s) j = Some p ->
       a_edge a (o_node o) (o_node p) -> i <= j).
Proof. exact (only_loops l c m). Qed.
Print Assumptions C31_only_loops_partial.

Theorem C31_no_cycle_refuted : exists l c m x, let s := history l (new_sketch c m) in
  fst (eval_sketch s) = Ok tt /\
  exists a, represents (dag (snd (eval_sketch s))) a /\ on_cycle (a_edge a) x.
Proof. exact cycle_refuted. Qed.
Print Assumptions C31_no_cycle_refuted.

(** ** C32 Expression dependencies are complete *)

(** For the points of the function Line only, see the refutation. *)
Theorem C32_line_points_partial l c m : let s := history l (new_sketch c m) in let r := eval_sketch s in
  fst r = Ok tt -> exists a, represents (dag (snd r)) a /\
  forall i o e n, nth_error (ops (snd r)) i = Some o -> In e (o_exprs o) -> measures_with (x_source e) n ->
  exists j p, In j (o_dependencies o) /\ nth_error (ops (snd r)) j = Some p /\ is_point (o_kind p) = true /\
    o_name p = n /\ a_edge a (o_node p) (o_node o).
Proof. exact (line_points_recorded l c m). Qed.
Print Assumptions C32_line_points_partial.

Theorem C32_dependencies_are_edges l c m : let s := history l (new_sketch c m) in
  exists a, represents (dag s) a /\
  (forall i o, nth_error (ops s) i = Some o -> incl (o_refs o) (o_dependencies o)) /\
  (forall i o j p, nth_error (ops s) i = Some o -> nth_error (ops s) j = Some p ->
     (In j (o_dependencies o) <-> a_edge a (o_node p) (o_node o))).
Proof. exact (dependencies_are_edges l c m). Qed.
Print Assumptions C32_dependencies_are_edges.

Theorem C32_dependencies_refuted : exists l c m s', eval_sketch (history l (new_sketch c m)) = (Ok tt, s') /\
  exists i o e n j p, nth_error (ops s') i = Some o /\ In e (o_exprs o) /\ mentions (x_source e) n /\
    nth_error (ops s') j = Some p /\ o_name p = n /\ is_point (o_kind p) = true /\
    (forall k q, nth_error (ops s') k = Some q -> o_name q = n -> k = j) /\
    ~ In j (o_dependencies o).
Proof. exact recorded_refuted. Qed.
Print Assumptions C32_dependencies_refuted.

(** ** C33 Sketch evaluation places every point as specified *)

Theorem C33_placed_partial l c m s' : eval_sketch (history l (new_sketch c m)) = (Ok tt, s') ->
  forall i o, nth_error (ops s') i = Some o -> placed s' o.
Proof. exact (all_placed l c m s'). Qed.
Print Assumptions C33_placed_partial.

Theorem C33_values l c m s' : Forall quiet l -> eval_sketch (history l (new_sketch c m)) = (Ok tt, s') ->
  cache s' = m /\ forall i o, nth_error (ops s') i = Some o -> explained s' i o.
Proof. exact (all_explained l c m s'). Qed.
Print Assumptions C33_values.

Theorem C33_contact_refuted : exists l c m s', Forall quiet l /\ eval_sketch (history l (new_sketch c m)) = (Ok tt, s') /\
  exists i o a b ce r p q, nth_error (ops s') i = Some o /\ o_kind o = KContact /\
    at_ref s' o 0 a /\ at_ref s' o 1 b /\ at_ref s' o 2 ce /\ at_expr o 0 r /\ o_vector o = Some p /\
    ~ on_segment (Seg a b) p /\ on_segment (Seg a b) q /\ on_circle ce (Rabs r) q.
Proof. exact contact_refuted. Qed.
Print Assumptions C33_contact_refuted.

(** ** C34 Operations are found by id and by name *)

Theorem C34_found l c m : let s := history l (new_sketch c m) in
  (forall i o, nth_error (ops s) i = Some o -> get_operation s (KeyId (o_id o)) = Ok i) /\
  (forall i o, nth_error (ops s) i = Some o -> is_point (o_kind o) = true ->
     (forall j p, i < j -> nth_error (ops s) j = Some p -> is_point (o_kind p) = true -> o_name p <> o_name o) ->
     get_operation s (KeyName (o_name o)) = Ok i) /\
  (forall z, (forall i o, nth_error (ops s) i = Some o -> o_id o <> z) -> get_operation s (KeyId z) = Raise KeyError) /\
  (forall n, (forall i o, nth_error (ops s) i = Some o -> is_point (o_kind o) = true -> o_name o <> n) ->
     get_operation s (KeyName n) = Raise KeyError).
Proof. exact (found l c m). Qed.
Print Assumptions C34_found.

Theorem C34_added_is_found l l' c m a id i : let s := history l (new_sketch c m) in
  fst (add_op a id s) = Ok i -> let s' := history l' (snd (add_op a id s)) in
  exists o, nth_error (ops s') i = Some o /\ o_kind o = a_kind a /\ o_name o = a_name a /\
    (forall z, id = Some z -> o_id o = z) /\ get_operation s' (KeyId (o_id o)) = Ok i.
Proof. exact (added_is_found l l' c m a id i). Qed.
Print Assumptions C34_added_is_found.

Theorem C34_failed_add l c m a id e : let s := history l (new_sketch c m) in fst (add_op a id s) = Raise e ->
  ops (snd (add_op a id s)) = ops s /\ forall k, get_operation (snd (add_op a id s)) k = get_operation s k.
Proof. exact (failed_add l c m a id e). Qed.
Print Assumptions C34_failed_add.

Theorem C34_unknown_refused l c m a id r q : let s := history l (new_sketch c m) in
  In q (a_groups a) -> In r q ->
  match r with
  | RId z => get_operation s (KeyId z) = Raise KeyError
  | RName n => get_operation s (KeyName n) = Raise KeyError
  | ROp i => length (ops s) <= i
  | RForeign => True
  end -> exists e, fst (add_op a id s) = Raise e.
Proof. exact (unknown_refused l c m a id r q). Qed.
Print Assumptions C34_unknown_refused.

(** ** Examples *)

(** Two points, a third one defined with the distance between them; it depends on them after the
    evaluation. *)
Local Open Scope string_scope.
Definition small : list event :=
  [single_point "A" 0 0; single_point "B" 3 4;
   Add (Args KSingle "C" [] [EConst 1; EMul (EConst 2) (ECall FLine ["A"; "B"])]) (Some 12%Z);
   Add (Args KEnd "D" [[RName "C"]] [EConst 30; EConst 5]) None;
   Add (Args KLine "" [[RId 1%Z; RName "nowhere"]] []) None].
Example small_is_modest : Forall modest_event small /\ Forall quiet small.
Proof.
  split; [|repeat constructor]. repeat apply Forall_cons; try apply Forall_nil; intros K e He; cbn in He; try discriminate K;
    repeat (destruct He as [<-|He]; [cbn; intuition discriminate|]); contradiction.
Qed.
Example small_eval : fst (eval_sketch (history small (new_sketch 0 []))) = Ok tt.
Proof. reflexivity. Qed.
Example small_names : map o_name (ops (history small (new_sketch 0 []))) = ["A"; "B"; "C"; "D"] /\
  map o_id (ops (history small (new_sketch 0 []))) = [1; 2; 12; 13]%Z /\
  get_operation (history small (new_sketch 0 [])) (KeyName "C") = Ok 2%nat /\
  fst (add_op (Args KLine "" [[RId 1%Z; RName "nowhere"]] []) None (history small (new_sketch 0 []))) = Raise KeyError.
Proof. repeat split; reflexivity. Qed.
Example small_dependencies : map o_dependencies (ops (snd (eval_sketch (history small (new_sketch 0 []))))) = [[]; []; [0; 1]; [2]]%nat.
Proof. reflexivity. Qed.
