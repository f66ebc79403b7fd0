(** Properties C07, C08, C09 and C10: the dependency graph. *)
From Coq Require Import List Arith ZArith Lia Permutation.
From Verif Require Import Base ModelGraph SpecGraph GlueGraph ProofGraph.
Import ListNotations.

(** C10: every history of client calls on the node objects does exactly what an abstract graph
    does: same calls accepted, and the node objects represent its nodes and edges. *)
Theorem C10_history_refines_abstract_graph : forall ops outcomes g,
  graph_run empty_graph ops = (outcomes, g) ->
  exists a, a_run a_empty (combine (map request_of ops) (map accepted outcomes)) a /\
            represents g a.
Proof. exact (fun ops outcomes g => graph_run_refines ops empty_graph a_empty outcomes g represents_empty). Qed.
Print Assumptions C10_history_refines_abstract_graph.

(** C10: in a graph that represents an abstract graph, descendant and ancestor sets mirror each
    other. *)
Theorem C10_mirrored : forall g a x y ox oy, represents g a ->
  nth_error (g_heap g) x = Some ox -> nth_error (g_heap g) y = Some oy ->
  (In y (n_descendants ox) <-> In x (n_ancestors oy)).
Proof. exact mirrored. Qed.
Print Assumptions C10_mirrored.

(** C10: roots and leafs. *)
Theorem C10_roots : forall g a n, represents g a ->
  (In n (roots g) <-> exists_node a n /\ forall x, ~ a_edge a x n).
Proof. exact roots_ok. Qed.
Print Assumptions C10_roots.

Theorem C10_leafs : forall g a n, represents g a ->
  (In n (leafs g) <-> exists_node a n /\ forall x, ~ a_edge a n x).
Proof. exact leafs_ok. Qed.
Print Assumptions C10_leafs.

(** C10: removing an edge that is not there raises KeyError and changes nothing. *)
Theorem C10_disconnect_missing : forall g a s x outcome g',
  represents g a -> exists_node a x -> exists_node a s -> ~ a_edge a x s ->
  disconnect_ancestor g s x = (outcome, g') -> outcome = Raise KeyError /\ g' = g.
Proof.
  exact (fun g a s x r g' R Hx Hs N H =>
    match disconnect_represents g a s x r g' R H with
    | or_introl (conj E _) => False_ind _ (N E)
    | or_intror (conj _ (conj _ (conj Eg K))) => conj (K Hx Hs) Eg
    end).
Qed.
Print Assumptions C10_disconnect_missing.

(** A diamond 0 -> 1, 2 -> 3 with a refused duplicate id, and an edge removed and put back. *)
Definition diamond_ops : list graph_op :=
  [OpAddNode 10%Z; OpAddNode 11%Z; OpAddNode 12%Z; OpAddNode 13%Z; OpAddNode 11%Z;
   OpAddEdge 0 1; OpAddEdge 0 2; OpAddEdge 1 3; OpDisconnect 3 1; OpDisconnect 3 1;
   OpAddEdge 1 3; OpAddEdge 2 3].
Definition diamond : graph := snd (graph_run empty_graph diamond_ops).

Example C10_example :
  fst (graph_run empty_graph diamond_ops) =
    [Ok tt; Ok tt; Ok tt; Ok tt; Raise NameError; Ok tt; Ok tt; Ok tt; Ok tt; Raise KeyError;
     Ok tt; Ok tt] /\
  g_heap diamond = [mkNode 10%Z [] [1; 2]; mkNode 11%Z [0] [3]; mkNode 12%Z [0] [3]; mkNode 13%Z [1; 2] []] /\
  roots diamond = [0] /\ leafs diamond = [3].
Proof. vm_compute. auto. Qed.

(** C07: on a graph without cycle, for every iteration order of the sets, topological_sort
    returns all the nodes, each once, and every node before its descendants. *)
Theorem C07_topological_order : forall g a succ order fuel,
  represents g a -> iteration_order g succ -> pop_order g order ->
  length (a_ids a) < fuel ->
  (forall x, ~ on_cycle (a_edge a) x) ->
  exists l, topological_sort fuel succ order = Ok l /\
    Permutation l (seq 0 (length (a_ids a))) /\
    (forall x y, a_edge a x y -> before l x y).
Proof. exact graph_topo_ok. Qed.
Print Assumptions C07_topological_order.

(** C08: topological_sort raises NameError exactly when there is a cycle, and has no other
    outcome than a list or this error. *)
Theorem C08_cycle_detected : forall g a succ order fuel,
  represents g a -> iteration_order g succ -> pop_order g order ->
  length (a_ids a) < fuel ->
  (topological_sort fuel succ order = Raise NameError <-> exists x, on_cycle (a_edge a) x) /\
  (is_ok (topological_sort fuel succ order) \/
   topological_sort fuel succ order = Raise NameError).
Proof. exact graph_topo_cycle. Qed.
Print Assumptions C08_cycle_detected.

(** The diamond, popped in the order 2, 3, 0, 1; and with an additional back edge. *)
Example C07_C08_example :
  iteration_order diamond (descendants_of diamond) /\ pop_order diamond [2; 3; 0; 1] /\
  topological_sort 5 (descendants_of diamond) [2; 3; 0; 1] = Ok [0; 1; 2; 3] /\
  let cyclic := snd (graph_run diamond [OpAddEdge 3 0]) in
  topological_sort 5 (descendants_of cyclic) [2; 3; 0; 1] = Raise NameError.
Proof.
  split; [intros n x; tauto|].
  split.
  - split; [repeat constructor; simpl; intuition discriminate|]. intros x. simpl. tauto.
  - vm_compute. auto.
Qed.

(** C09: breadth_first_search yields its start first, each reachable node exactly once, and
    nodes by non-decreasing distance, on every graph (cyclic or not). *)
Theorem C09_breadth_first : forall g a succ fuel s,
  represents g a -> iteration_order g succ -> length (a_ids a) <= fuel -> exists_node a s ->
  exists l, breadth_first_search fuel succ s = Ok l /\
    (exists t, l = s :: t) /\ NoDup l /\
    (forall x, In x l <-> reachable (a_edge a) s x) /\
    (forall i j x y kx ky, i < j -> nth_error l i = Some x -> nth_error l j = Some y ->
       distance (a_edge a) s x kx -> distance (a_edge a) s y ky -> kx <= ky).
Proof. exact graph_bfs_ok. Qed.
Print Assumptions C09_breadth_first.

Example C09_example :
  breadth_first_search 4 (descendants_of (snd (graph_run diamond [OpAddEdge 3 0]))) 2 = Ok [2; 3; 0; 1].
Proof. reflexivity. Qed.

(** A represented graph exists: the diamond. *)
Example represented_example : exists a, represents diamond a /\ length (a_ids a) = 4.
Proof.
  destruct (graph_run_refines diamond_ops empty_graph a_empty _ _ represents_empty
              (surjective_pairing _)) as (a & _ & R).
  exists a. split; [exact R|]. rewrite <- (heap_len _ _ R). reflexivity.
Qed.
