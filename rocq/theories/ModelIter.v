(** Model of Patro/Common/IterTools.py.  A generator is modelled by the list of all it yields, or
    by the exception that consuming it raises (items yielded before the exception are dropped). *)
From Coq Require Import List Arith.
From Verif Require Import Base.
Import ListNotations.
Local Open Scope result_scope.

(** python [l[i]] for [i >= 0]. *)
Definition py_index {A} (l : list A) (i : nat) : result A :=
  match nth_error l i with Some x => Ok x | None => Raise IndexError end.

(** python [i % n] for non-negative integers. *)
Definition py_mod (i n : nat) : result nat :=
  match n with O => Raise ZeroDivisionError | _ => Ok (i mod n) end.

(** Run the body of a [for] loop that yields once per iteration. *)
Fixpoint collect {A B} (f : A -> result B) (l : list A) : result (list B) :=
  match l with
  | [] => Ok []
  | x :: t => y <- f x ;; ys <- collect f t ;; Ok (y :: ys)
  end.

(** closed_iterator, Patro/Common/IterTools.py:37-47. *)
Definition closed_iterator {A} (l : list A) : result (list A) :=
  let number_of_items := length l in
  collect (fun i => k <- py_mod i number_of_items ;; py_index l k) (seq 0 (number_of_items + 1)).

(** Loop of pairwise, Patro/Common/IterTools.py:60-62. *)
Fixpoint pairwise_loop {A} (prev : A) (l : list A) : list (A * A) :=
  match l with
  | [] => []
  | x :: t => (prev, x) :: pairwise_loop x t
  end.

(** pairwise, Patro/Common/IterTools.py:51-62. *)
Definition pairwise {A} (l : list A) : result (list (A * A)) :=
  prev <- py_index l 0 ;; Ok (pairwise_loop prev (skipn 1 l)).

(** closed_pairwise, Patro/Common/IterTools.py:66-76. *)
Definition closed_pairwise {A} (l : list A) : result (list (A * A)) :=
  let number_of_items := length l in
  collect (fun i =>
    a <- py_index l i ;;
    k <- py_mod (i + 1) number_of_items ;;
    b <- py_index l k ;;
    Ok (a, b)) (seq 0 number_of_items).

(** One round of python's [zip]: the heads of all iterators, unless one is exhausted. *)
Fixpoint heads {A} (ls : list (list A)) : option (list A) :=
  match ls with
  | [] => Some []
  | l :: t =>
      match l, heads t with
      | x :: _, Some hs => Some (x :: hs)
      | _, _ => None
      end
  end.

(** python [zip] applied to a list of iterators; the first iterator bounds the number of rounds. *)
Fixpoint zip_rounds {A} (rounds : nat) (ls : list (list A)) : list (list A) :=
  match rounds with
  | O => []
  | S k => match heads ls with
           | None => []
           | Some hs => hs :: zip_rounds k (map (@tl A) ls)
           end
  end.

Definition zip_star {A} (ls : list (list A)) : list (list A) :=
  match ls with
  | [] => []
  | l :: _ => zip_rounds (length l) ls
  end.

(** multiwise, Patro/Common/IterTools.py:80-116: [tee] makes [n] iterators, the i-th is advanced
    i times ([next(iterator, None)] never raises). *)
Definition multiwise {A} (l : list A) (n : nat) : list (list A) :=
  zip_star (map (fun i => skipn i l) (seq 0 n)).

(** closed_multiwise_index_iterator, Patro/Common/IterTools.py:127-129. *)
Definition closed_multiwise_index_iterator (number_of_items n : nat) : result (list (list nat)) :=
  collect (fun i => collect (fun j => py_mod (i + j) number_of_items) (seq 0 n))
          (seq 0 number_of_items).
