(** Specification vocabulary for counters, independent of the behaviour of the model. *)
From Coq Require Import List ZArith.
From Verif Require Import Base ModelCounter.
Import ListNotations.
Local Open Scope Z_scope.

(** The values of the calls that did not raise, in order. *)
Fixpoint successes {A} (rs : list (result A)) : list A :=
  match rs with
  | [] => []
  | Ok a :: t => a :: successes t
  | Raise _ :: t => successes t
  end.

(** Every element is strictly greater than all the elements before it. *)
Definition strictly_increasing (l : list Z) : Prop :=
  forall i j x y, (i < j)%nat -> nth_error l i = Some x -> nth_error l j = Some y -> x < y.

Definition sum (l : list Z) : Z := fold_right Z.add 0 l.

(** The largest of [init] and the elements of [l]: "the last id given". *)
Definition last_of (init : Z) (l : list Z) : Z := last l init.

(** An abstract counter serving whole requests one after the other: adding never fails, moving
    to a value is refused unless it goes forward. *)
Inductive request := Add (a : Z) | MoveTo (v : Z).

Inductive serve : Z -> request -> bool -> Z -> Prop :=
| serve_add v a : serve v (Add a) true (v + a)
| serve_move v w : v < w -> serve v (MoveTo w) true w
| serve_refuse v w : w <= v -> serve v (MoveTo w) false v.

Inductive serve_all : Z -> list (request * bool) -> Z -> Prop :=
| serve_nil v : serve_all v [] v
| serve_cons v r ok v1 l v2 :
    serve v r ok v1 -> serve_all v1 l v2 -> serve_all v ((r, ok) :: l) v2.

(** ** Reading the model's calls and threads *)

(** What a call asks of the abstract counter. *)
Definition request_of (c : call) : request :=
  match c with CIncrement a => Add a | CSet v => MoveTo v end.

(** What a returned thread looks like to its caller. *)
Definition succeeded (th : thread) : bool :=
  match t_pc th with PReturned (Ok _) => true | _ => false end.

(** Only increments, by non-negative amounts. *)
Definition nonneg_increments (calls : list call) : Prop :=
  forall c, In c calls -> exists a, c = CIncrement a /\ 0 <= a.
