(** Common vocabulary of the model: python exceptions as values. *)
From Coq Require Import List ZArith.
Import ListNotations.

(** The python exception classes that the modelled code raises, explicitly or through the
    interpreter.  Messages are not modelled. *)
Inductive exn :=
| ValueError | NameError | KeyError | IndexError | TypeError | AttributeError
| ZeroDivisionError | NotImplementedError | OverflowError | UnboundLocalError
| StopIteration | LookupError
| RecursionError      (** python recursion limit or an unbounded recursion *)
| NotANumber          (** no python exception: a numpy float division by zero, the outcome is nan
                          or infinite and outside of the real numbers of the model *)
| OutOfFuel.          (** the model's fuel ran out: never a python outcome, always excluded *)

Inductive result (A : Type) :=
| Ok (a : A)
| Raise (e : exn).
Arguments Ok {A} a.
Arguments Raise {A} e.

Definition bind {A B} (r : result A) (f : A -> result B) : result B :=
  match r with Ok a => f a | Raise e => Raise e end.

Definition map_result {A B} (f : A -> B) (r : result A) : result B :=
  match r with Ok a => Ok (f a) | Raise e => Raise e end.

Declare Scope result_scope.
Notation "x <- r ;; k" := (bind r (fun x => k))
  (at level 61, r at next level, right associativity) : result_scope.

(** A list comprehension whose element expression may raise: evaluated from left to right, the
    first exception ends it. *)
Fixpoint traverse {A B} (f : A -> result B) (l : list A) : result (list B) :=
  match l with
  | [] => Ok []
  | a :: l => bind (f a) (fun b => bind (traverse f l) (fun bs => Ok (b :: bs)))
  end.

Definition is_ok {A} (r : result A) : Prop := exists a, r = Ok a.

(** Replace the [i]-th element of a list (python [l[i] = x] for a valid index). *)
Fixpoint update {A} (i : nat) (x : A) (l : list A) : list A :=
  match l, i with
  | [], _ => []
  | _ :: t, O => x :: t
  | y :: t, S j => y :: update j x t
  end.

Lemma update_length : forall A (l : list A) i x, length (update i x l) = length l.
Proof. induction l; destruct i; simpl; intros; auto. Qed.

Lemma nth_error_update_eq : forall A (l : list A) i x y,
  nth_error l i = Some y -> nth_error (update i x l) i = Some x.
Proof. induction l; destruct i; simpl; intros; try discriminate; eauto. Qed.

Lemma nth_error_update_neq : forall A (l : list A) i j x,
  i <> j -> nth_error (update i x l) j = nth_error l j.
Proof.
  induction l; destruct i, j; simpl; intros; auto; try congruence.
Qed.
