(** What the names and the values of a set of measurements should be. *)
From Coq Require Import String Ascii List Bool Arith.
From Verif Require Import Base ModelFormula ModelMeasure.
Import ListNotations.

Definition word_text (s : text) : Prop := Forall (fun c => is_word c = true) s.
(** An identifier: a letter or a score, then letters, digits and scores *)
Definition identifier (s : text) : Prop :=
  match s with
  | [] => False
  | c :: _ => ~ (48 <= nat_of_ascii c <= 57) /\ word_text s
  end.
(** The spaces of a given name are scores. *)
Definition scored (s : text) : text := map (fun c => if Ascii.eqb c " "%char then "_"%char else c) s.
Definition permitted (c : ascii) : Prop := is_alnum c = true \/ c = "_"%char.

Section Accepted.
Variable number expression : Type.
Variable sympify : text -> result expression.
Variable of_number : number -> expression.

(** The additions which are accepted, in order, with the expression which is registered: the name is
    made of permitted characters, was not accepted before, and the expression is understood. *)
Definition expression_of (v : value number) : option expression :=
  match v with
  | Number _ x => Some (of_number x)
  | Text _ s => match sympify s with Ok e => Some e | Raise _ => None end
  end.
Inductive accepted : list (text * expression) -> list (measure_op number) -> list (text * expression) -> Prop :=
| acc_nil used : accepted used [] used
| acc_add used n v f d h e out : Forall permitted (scored n) -> ~ In (scored n) (map fst used) -> expression_of v = Some e ->
    accepted (used ++ [(scored n, e)]) h out -> accepted used (OpAdd _ n v f d :: h) out
| acc_reject used n v f d h out : ~ Forall permitted (scored n) \/ In (scored n) (map fst used) \/ expression_of v = None ->
    accepted used h out -> accepted used (OpAdd _ n v f d :: h) out
| acc_value used n h out : accepted used h out -> accepted used (OpValue _ n :: h) out.
End Accepted.

(** Only additions *)
Definition only_adds {number} (h : list (measure_op number)) : Prop := Forall (fun o => match o with OpAdd _ _ _ _ _ => True | _ => False end) h.
