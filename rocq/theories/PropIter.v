(** Property C06: window iterators. *)
From Coq Require Import List Arith.
From Verif Require Import Base ModelIter ProofIter.
Import ListNotations.

(** closed_iterator: the items and then the first again; the empty sequence is an error. *)
Theorem C06_closed_iterator : forall A (x : A) l,
  closed_iterator (x :: l) = Ok (x :: l ++ [x]).
Proof. exact closed_iterator_ok. Qed.
Print Assumptions C06_closed_iterator.

Theorem C06_closed_iterator_empty : forall A, closed_iterator (@nil A) = Raise ZeroDivisionError.
Proof. exact closed_iterator_empty. Qed.
Print Assumptions C06_closed_iterator_empty.

(** pairwise: succeeds on every non empty sequence; the i-th pair is made of items i and i+1 and
    there is no other pair. *)
Theorem C06_pairwise_defined : forall A (x : A) l, exists ps, pairwise (x :: l) = Ok ps.
Proof. exact pairwise_some. Qed.
Print Assumptions C06_pairwise_defined.

Theorem C06_pairwise : forall A (x : A) l pairs, pairwise (x :: l) = Ok pairs ->
  forall i, nth_error pairs i =
    match nth_error (x :: l) i, nth_error (x :: l) (S i) with
    | Some a, Some b => Some (a, b)
    | _, _ => None
    end.
Proof. exact pairwise_ok. Qed.
Print Assumptions C06_pairwise.

Theorem C06_pairwise_empty : forall A, pairwise (@nil A) = Raise IndexError.
Proof. exact pairwise_empty. Qed.
Print Assumptions C06_pairwise_empty.

Example C06_pairwise_example : pairwise [1; 2; 3] = Ok [(1, 2); (2, 3)].
Proof. reflexivity. Qed.

(** closed_pairwise: always succeeds; as many pairs as items; pair i is made of item i and of its
    successor, the successor of the last being the first. *)
Theorem C06_closed_pairwise_defined : forall A (l : list A), is_ok (closed_pairwise l).
Proof. exact closed_pairwise_defined. Qed.
Print Assumptions C06_closed_pairwise_defined.

Theorem C06_closed_pairwise : forall A (l : list A) pairs, closed_pairwise l = Ok pairs ->
  length pairs = length l /\
  forall i a b, nth_error pairs i = Some (a, b) ->
    nth_error l i = Some a /\
    nth_error l (if S i =? length l then 0 else S i) = Some b.
Proof. exact closed_pairwise_ok. Qed.
Print Assumptions C06_closed_pairwise.

Example C06_closed_pairwise_example :
  closed_pairwise [1; 2; 3] = Ok [(1, 2); (2, 3); (3, 1)].
Proof. reflexivity. Qed.

(** multiwise: the windows of [n] consecutive items, in order; none when [n] is 0 or too large. *)
Theorem C06_multiwise : forall A (l : list A) n,
  multiwise l n =
    if n =? 0 then [] else map (fun i => firstn n (skipn i l)) (seq 0 (length l + 1 - n)).
Proof. exact multiwise_ok. Qed.
Print Assumptions C06_multiwise.

(** The examples of the python docstring. *)
Example C06_multiwise_examples :
  multiwise [1;2;3;4;5] 1 = [[1];[2];[3];[4];[5]] /\
  multiwise [1;2;3;4;5] 2 = [[1;2];[2;3];[3;4];[4;5]] /\
  multiwise [1;2;3;4;5] 5 = [[1;2;3;4;5]] /\
  multiwise [1;2;3;4;5] 6 = [] /\ multiwise [1;2;3;4;5] 0 = [].
Proof. repeat split. Qed.

(** closed index iterator: from every start, the [n] following indices, wrapped. *)
Theorem C06_closed_multiwise_index : forall m n,
  closed_multiwise_index_iterator m n =
    Ok (map (fun i => map (fun j => (i + j) mod m) (seq 0 n)) (seq 0 m)).
Proof. exact closed_multiwise_ok. Qed.
Print Assumptions C06_closed_multiwise_index.
