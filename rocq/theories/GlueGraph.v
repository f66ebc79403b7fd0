(** How graph objects of the model represent an abstract graph. *)
From Coq Require Import List Arith ZArith.
From Verif Require Import Base ModelGraph SpecGraph.
Import ListNotations.

Definition request_of (op : graph_op) : request :=
  match op with
  | OpAddNode id => AddNode id
  | OpAddEdge a d => AddEdge a d
  | OpDisconnect s a => Disconnect s a
  end.

Definition accepted {A} (r : result A) : bool := match r with Ok _ => true | Raise _ => false end.

(** Node objects and their ids, the dict of registered nodes, and the two mirrored edge sets of
    every node object agree with the abstract graph. *)
Record represents (g : graph) (a : agraph) : Prop := {
  r_ids : map n_id (g_heap g) = a_ids a;
  r_nodes : g_nodes g = combine (a_ids a) (seq 0 (length (a_ids a)));
  r_unique : NoDup (a_ids a);
  r_desc : forall x o, nth_error (g_heap g) x = Some o ->
      NoDup (n_descendants o) /\ forall y, In y (n_descendants o) <-> a_edge a x y;
  r_anc : forall y o, nth_error (g_heap g) y = Some o ->
      NoDup (n_ancestors o) /\ forall x, In x (n_ancestors o) <-> a_edge a x y;
  r_range : forall x y, a_edge a x y -> x < length (a_ids a) /\ y < length (a_ids a)
}.

