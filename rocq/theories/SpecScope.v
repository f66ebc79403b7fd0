(** What a list of named scopes is. *)
From Coq Require Import String List Bool Arith ZArith.
From Verif Require Import ModelScope.
Import ListNotations.

(** The first scope called so *)
Definition is_first_named (l : list scope) (n : option string) (s : scope) : Prop :=
  exists l1 l2, l = l1 ++ s :: l2 /\ s_name s = n /\ forall x, In x l1 -> s_name x <> n.
Definition nobody (l : list scope) (n : option string) : Prop := forall x, In x l -> s_name x <> n.

(** How many scopes a name has after additions and removals by name: a removal removes one, if any. *)
Fixpoint tally (n : option string) (k : nat) (h : list scope_op) : nat :=
  match h with
  | [] => k
  | Add m :: h => tally n (if name_eqb m n then S k else k) h
  | Remove (Name m) :: h => tally n (if name_eqb m n then pred k else k) h
  | _ :: h => tally n k h
  end.
Definition by_name (o : scope_op) : Prop := match o with Add _ | Remove (Name _) => True | _ => False end.
(** The names are given once: an added name is not in use. *)
Fixpoint names_once (used : list (option string)) (h : list scope_op) : Prop :=
  match h with
  | [] => True
  | Add m :: h => ~ In m used /\ names_once (used ++ [m]) h
  | Remove (Name m) :: h => names_once (filter (fun x => negb (name_eqb x m)) used) h
  | _ :: _ => False
  end.
