(** Model of Patro/Common/Graph/DirectedAcyclicGraph.py. *)
From Coq Require Import List Arith ZArith Bool.
From Verif Require Import Base.
Import ListNotations.
Local Open Scope result_scope.

(** ** Node objects and graph operations *)

(** A node object is its position in the heap below (python object identity). *)
Definition node := nat.

(** DirectedAcyclicGraphNode.__init__, DirectedAcyclicGraph.py:37-43.  A python set is a list
    without duplicates, in any order.  Node data is not modelled. *)
Record node_obj := mkNode { n_id : Z; n_ancestors : list node; n_descendants : list node }.

(** [g_heap]: all node objects ever made; [g_nodes]: the dict [_nodes], in insertion order
    (DirectedAcyclicGraph.__init__, DirectedAcyclicGraph.py:116-117). *)
Record graph := mkGraph { g_heap : list node_obj; g_nodes : list (Z * node) }.

Definition empty_graph : graph := mkGraph [] [].

Definition mem (x : nat) (s : list nat) : bool := existsb (Nat.eqb x) s.

(** python [set.add]. *)
Definition set_add (x : nat) (s : list nat) : list nat := if mem x s then s else s ++ [x].

(** python [set.remove]: KeyError when absent. *)
Definition set_remove (x : nat) (s : list nat) : result (list nat) :=
  if mem x s then Ok (filter (fun y => negb (Nat.eqb x y)) s) else Raise KeyError.

(** DirectedAcyclicGraph.__getitem__, DirectedAcyclicGraph.py:126-127. *)
Fixpoint dict_get (k : Z) (d : list (Z * node)) : option node :=
  match d with
  | [] => None
  | (k', v) :: t => if Z.eqb k k' then Some v else dict_get k t
  end.

(** DirectedAcyclicGraph.add_node, DirectedAcyclicGraph.py:131-138. *)
Definition add_node (g : graph) (id : Z) : result (node * graph) :=
  match dict_get id (g_nodes g) with
  | None =>
      let n := length (g_heap g) in
      Ok (n, mkGraph (g_heap g ++ [mkNode id [] []]) (g_nodes g ++ [(id, n)]))
  | Some _ => Raise NameError
  end.

(** The node object [n]; python variables always denote existing objects, so a number that is
    not an object is answered by NameError (an unbound variable). *)
Definition get_node (g : graph) (n : node) : result node_obj :=
  match nth_error (g_heap g) n with Some o => Ok o | None => Raise NameError end.

Definition put_node (g : graph) (n : node) (o : node_obj) : graph :=
  mkGraph (update n o (g_heap g)) (g_nodes g).

(** DirectedAcyclicGraphNode.connect_ancestor, DirectedAcyclicGraph.py:88-90: [self] gets the
    ancestor [anc]. *)
Definition connect_ancestor (g : graph) (self anc : node) : result graph :=
  s <- get_node g self ;;
  _ <- get_node g anc ;;
  let g1 := put_node g self (mkNode (n_id s) (set_add anc (n_ancestors s)) (n_descendants s)) in
  a <- get_node g1 anc ;;
  Ok (put_node g1 anc (mkNode (n_id a) (n_ancestors a) (set_add self (n_descendants a)))).

(** DirectedAcyclicGraph.add_edge, DirectedAcyclicGraph.py:142-143. *)
Definition add_edge (g : graph) (ancestor descendant : node) : result graph :=
  connect_ancestor g descendant ancestor.

(** DirectedAcyclicGraphNode.disconnect_ancestor, DirectedAcyclicGraph.py:82-84. The result
    graph is given also when the second [remove] raises, since the first one has happened. *)
Definition disconnect_ancestor (g : graph) (self anc : node) : result unit * graph :=
  match get_node g self, get_node g anc with
  | Ok s, Ok _ =>
      match set_remove anc (n_ancestors s) with
      | Raise e => (Raise e, g)
      | Ok anc' =>
          let g1 := put_node g self (mkNode (n_id s) anc' (n_descendants s)) in
          match get_node g1 anc with
          | Raise e => (Raise e, g1)
          | Ok a =>
              match set_remove self (n_descendants a) with
              | Raise e => (Raise e, g1)
              | Ok desc' => (Ok tt, put_node g1 anc (mkNode (n_id a) (n_ancestors a) desc'))
              end
          end
      end
  | _, _ => (Raise NameError, g)
  end.

(** is_root, is_leaf: DirectedAcyclicGraph.py:70-78. *)
Definition is_root (o : node_obj) : bool := match n_ancestors o with [] => true | _ => false end.
Definition is_leaf (o : node_obj) : bool := match n_descendants o with [] => true | _ => false end.

Definition node_satisfies (g : graph) (p : node_obj -> bool) (n : node) : bool :=
  match nth_error (g_heap g) n with Some o => p o | None => false end.

(** roots and leafs, DirectedAcyclicGraph.py:147-153. *)
Definition roots (g : graph) : list node :=
  filter (node_satisfies g is_root) (map snd (g_nodes g)).
Definition leafs (g : graph) : list node :=
  filter (node_satisfies g is_leaf) (map snd (g_nodes g)).

(** Client calls. *)
Inductive graph_op :=
| OpAddNode (id : Z)
| OpAddEdge (ancestor descendant : node)
| OpDisconnect (self ancestor : node).

(** One client call that catches its exception. *)
Definition graph_step (g : graph) (op : graph_op) : result unit * graph :=
  match op with
  | OpAddNode id =>
      match add_node g id with Ok (_, g') => (Ok tt, g') | Raise e => (Raise e, g) end
  | OpAddEdge a d =>
      match add_edge g a d with Ok g' => (Ok tt, g') | Raise e => (Raise e, g) end
  | OpDisconnect s a => disconnect_ancestor g s a
  end.

Fixpoint graph_run (g : graph) (ops : list graph_op) : list (result unit) * graph :=
  match ops with
  | [] => ([], g)
  | op :: t =>
      let (r, g1) := graph_step g op in
      let (rs, g2) := graph_run g1 t in (r :: rs, g2)
  end.

(** ** Topological sort *)

(** [succ n] is the iteration order of the set [n._descendants]. *)

(** The three local variables of topological_sort, DirectedAcyclicGraph.py:159-162.
    [t_sorted] is kept reversed: the last appended node first. *)
Record topo_state := mkTopo { t_sorted : list node; t_marked : list node; t_temp : list node }.

(** The local function [visit], DirectedAcyclicGraph.py:164-173.  [fuel] bounds the recursion
    depth (python's recursion limit is not modelled). *)
Fixpoint visit (fuel : nat) (succ : node -> list node) (n : node) (st : topo_state)
  : result topo_state :=
  match fuel with
  | O => Raise OutOfFuel
  | S f =>
      if mem n (t_temp st) then Raise NameError
      else if mem n (t_marked st) then Ok st
      else
        let st1 := mkTopo (t_sorted st) (t_marked st) (n :: t_temp st) in
        st2 <- fold_left (fun acc d => s <- acc ;; visit f succ d s) (succ n) (Ok st1) ;;
        Ok (mkTopo (n :: t_sorted st2) (n :: t_marked st2)
                   (filter (fun y => negb (Nat.eqb n y)) (t_temp st2)))
  end.

(** topological_sort, DirectedAcyclicGraph.py:157-181.  [order] is the order in which
    [unmarked_nodes.pop()] gives the nodes.  [visit] appends to [sorted_list], which is reversed
    at the end: [t_sorted] already is the reversed list. *)
Definition topological_sort (fuel : nat) (succ : node -> list node) (order : list node)
  : result (list node) :=
  st <- fold_left (fun acc n => s <- acc ;; visit fuel succ n s) order (Ok (mkTopo [] [] [])) ;;
  Ok (t_sorted st).

(** ** Breadth first search *)

(** Inner loop, DirectedAcyclicGraph.py:103-106. *)
Fixpoint bfs_scan (ds queue visited : list node) : list node * list node :=
  match ds with
  | [] => (queue, visited)
  | d :: t => if mem d visited then bfs_scan t queue visited
              else bfs_scan t (queue ++ [d]) (d :: visited)
  end.

(** Outer loop, DirectedAcyclicGraph.py:100-106: the nodes yielded.  [fuel] bounds the number of
    iterations. *)
Fixpoint bfs_loop (fuel : nat) (succ : node -> list node) (queue visited : list node)
  : result (list node) :=
  match queue with
  | [] => Ok []
  | n :: q =>
      match fuel with
      | O => Raise OutOfFuel
      | S f =>
          let (q', v') := bfs_scan (succ n) q visited in
          out <- bfs_loop f succ q' v' ;; Ok (n :: out)
      end
  end.

(** breadth_first_search, DirectedAcyclicGraph.py:94-106. *)
Definition breadth_first_search (fuel : nat) (succ : node -> list node) (self : node)
  : result (list node) :=
  bfs_loop fuel succ [self] [self].

(** ** Running the searches on a graph object *)

(** The set [n._descendants] of a node object. *)
Definition descendants_of (g : graph) (n : node) : list node :=
  match nth_error (g_heap g) n with Some o => n_descendants o | None => [] end.

(** [succ] is a possible iteration order of every descendant set of [g]. *)
Definition iteration_order (g : graph) (succ : node -> list node) : Prop :=
  forall n x, In x (succ n) <-> In x (descendants_of g n).

(** [order] is a possible order of popping the set of registered nodes. *)
Definition pop_order (g : graph) (order : list node) : Prop :=
  NoDup order /\ forall x, In x order <-> In x (map snd (g_nodes g)).
