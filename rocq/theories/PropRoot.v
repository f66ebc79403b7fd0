(** Property C11: roots of polynomials. *)
From Coq Require Import Reals List Lra.
From Verif Require Import Base ModelVector ModelRoot ProofRoot.
Import ListNotations.
Local Open Scope R_scope.

(** The values a caller reads from the returned None, float, tuple or list. *)
Definition root_values (r : roots) : list R :=
  match r with RNone => [] | ROne x => [x] | RTwo x y => [x; y] | RList l => l end.

(** C11: never an exception, and exactly the real solutions, each once, unless a = b = 0. *)
Theorem C11_quadratic_root : forall a b c, a <> 0 \/ b <> 0 ->
  exists r, quadratic_root a b c = Ok r /\
    NoDup (root_values r) /\
    forall x, In x (root_values r) <-> a * x * x + b * x + c = 0.
Proof. exact quadratic_root_ok. Qed.
Print Assumptions C11_quadratic_root.

Theorem C11_quadratic_root_degenerate : forall c, quadratic_root 0 0 c = Ok RNone.
Proof. exact quadratic_root_degenerate. Qed.
Print Assumptions C11_quadratic_root_degenerate.

(** With a positive leading coefficient two roots come in increasing order. *)
Theorem C11_quadratic_root_order : forall a b c x y, 0 < a ->
  quadratic_root a b c = Ok (RTwo x y) -> x < y.
Proof. exact quadratic_root_order. Qed.
Print Assumptions C11_quadratic_root_order.

Example C11_example : quadratic_root 1 (-3) 2 = Ok (RTwo 1 2).
Proof. exact quadratic_root_example. Qed.

(** cubic_root with a null leading coefficient: exactly the roots of the quadratic. *)
Theorem C11_cubic_root_degenerate : forall f b c d, b <> 0 \/ c <> 0 ->
  exists r, cubic_root f 0 b c d = Ok r /\
    forall x, In x (root_values r) <-> 0 * x * x * x + b * x * x + c * x + d = 0.
Proof. exact cubic_root_degenerate. Qed.
Print Assumptions C11_cubic_root_degenerate.

(** The private closed form: whatever it returns is exactly the set of roots of the cubic. *)
Theorem C11_cubic_closed_form : forall a b c d r, _cubic_root a b c d = Ok r ->
  forall x, In x (root_values r) <-> a * x * x * x + b * x * x + c * x + d = 0.
Proof. exact _cubic_root_ok. Qed.
Print Assumptions C11_cubic_closed_form.

(** (x-1)^2 (x-3) *)
Example C11_cubic_example : _cubic_root 1 (-5) 7 (-3) = Ok (RTwo 1 3).
Proof. exact _cubic_root_example. Qed.

(** cubic_root_normalised does not return roots: [**1/3] is a division by three. *)
Theorem C11_cubic_root_normalised_refuted :
  ~ (forall a b c l x, cubic_root_normalised a b c = Ok (RList l) -> In x l ->
       x * x * x + a * x * x + b * x + c = 0).
Proof. exact cubic_root_normalised_refuted. Qed.
Print Assumptions C11_cubic_root_normalised_refuted.
