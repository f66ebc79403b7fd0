(** Specification vocabulary for graphs, independent of the model. *)
From Coq Require Import List Arith ZArith.
Import ListNotations.

Section Reachability.
  Variable edge : nat -> nat -> Prop.

  (** There is a walk of exactly [k] edges from [x] to [y]. *)
  Inductive walk : nat -> nat -> nat -> Prop :=
  | walk_0 x : walk x x 0
  | walk_S x y z k : walk x y k -> edge y z -> walk x z (S k).

  Definition reachable (x y : nat) : Prop := exists k, walk x y k.

  (** [x] lies on a cycle. *)
  Definition on_cycle (x : nat) : Prop := exists k, walk x x (S k).

  (** [k] is the length of a shortest walk. *)
  Definition distance (x y k : nat) : Prop :=
    walk x y k /\ forall j, walk x y j -> k <= j.
End Reachability.

(** [x] occurs before [y] in [l]. *)
Definition before (l : list nat) (x y : nat) : Prop :=
  exists i j, i < j /\ nth_error l i = Some x /\ nth_error l j = Some y.

(** ** Abstract graph: what clients asked for *)

Inductive request :=
| AddNode (id : Z) | AddEdge (ancestor descendant : nat) | Disconnect (self ancestor : nat).

(** The abstract graph: registered ids in order of creation, and an edge relation. *)
Record agraph := mkA { a_ids : list Z; a_edge : nat -> nat -> Prop }.

Definition a_empty : agraph := mkA [] (fun _ _ => False).

Definition exists_node (a : agraph) (n : nat) : Prop := n < length (a_ids a).

(** One request served by the abstract graph; [true] means accepted. *)
Inductive a_step : agraph -> request -> bool -> agraph -> Prop :=
| a_add a id : ~ In id (a_ids a) ->
    a_step a (AddNode id) true (mkA (a_ids a ++ [id]) (a_edge a))
| a_add_dup a id : In id (a_ids a) -> a_step a (AddNode id) false a
| a_link a x y : exists_node a x -> exists_node a y ->
    a_step a (AddEdge x y) true
      (mkA (a_ids a) (fun u v => a_edge a u v \/ (u = x /\ v = y)))
| a_link_bad a x y : ~ (exists_node a x /\ exists_node a y) -> a_step a (AddEdge x y) false a
| a_unlink a s x : a_edge a x s ->
    a_step a (Disconnect s x) true
      (mkA (a_ids a) (fun u v => a_edge a u v /\ ~ (u = x /\ v = s)))
| a_unlink_bad a s x : ~ a_edge a x s -> a_step a (Disconnect s x) false a.

Inductive a_run : agraph -> list (request * bool) -> agraph -> Prop :=
| a_run_nil a : a_run a [] a
| a_run_cons a r ok a1 l a2 : a_step a r ok a1 -> a_run a1 l a2 -> a_run a ((r, ok) :: l) a2.
