(** Model of the scopes of a pattern: Patro/Pattern/Pattern.py, class Pattern, lines 39-98. *)
From Coq Require Import String List Bool Arith ZArith.
From Verif Require Import Base.
Import ListNotations.
Local Open Scope result_scope.

(** 102-133: PatternScope; [s_uid] is the identity of the python object, the name is None or a str
    (Patro/Common/Object.py 35-48).  The sketch of the scope is not modelled here. *)
Record scope := { s_uid : nat; s_name : option string }.
(** Pattern: 54 the list of scopes; [p_next] is the identity of the next object *)
Record pattern := { p_scopes : list scope; p_next : nat }.
Definition new_pattern : pattern := {| p_scopes := []; p_next := 0 |}.

Definition name_eqb (a b : option string) : bool :=
  match a, b with
  | None, None => true
  | Some a, Some b => String.eqb a b
  | _, _ => false
  end.

(** The argument of scope and remove_scope: an int or a name *)
Inductive key := Index (i : Z) | Name (n : option string).

(** python list indexing: a negative index counts from the end *)
Definition list_index {A} (l : list A) (i : Z) : result A :=
  let k := (if (i <? 0)%Z then i + Z.of_nat (length l) else i)%Z in
  if (k <? 0)%Z then Raise IndexError
  else match nth_error l (Z.to_nat k) with Some x => Ok x | None => Raise IndexError end.

(** 70-71 *)
Definition scope_names (p : pattern) : list (option string) := map s_name (p_scopes p).
(** 75-78 *)
Definition add_scope (p : pattern) (name : option string) : pattern * scope :=
  let s := {| s_uid := p_next p; s_name := name |} in
  ({| p_scopes := p_scopes p ++ [s]; p_next := S (p_next p) |}, s).
(** 82-91 *)
Fixpoint first_named (l : list scope) (name : option string) : option scope :=
  match l with
  | [] => None
  | s :: l => if name_eqb (s_name s) name then Some s else first_named l name
  end.
Definition find_scope (p : pattern) (id : key) : result (option scope) :=
  match id with
  | Index i => s <- list_index (p_scopes p) i ;; Ok (Some s)
  | Name n => Ok (first_named (p_scopes p) n)
  end.
(** list.remove: the first element which is equal, here identical since scopes do not define __eq__ *)
Fixpoint remove_uid (uid : nat) (l : list scope) : list scope :=
  match l with
  | [] => []
  | s :: l => if s_uid s =? uid then l else s :: remove_uid uid l
  end.
(** 95-98 *)
Definition remove_scope (p : pattern) (name : key) : result pattern :=
  found <- find_scope p name ;;
  match found with
  | None => Ok p
  | Some s => Ok {| p_scopes := remove_uid (s_uid s) (p_scopes p); p_next := p_next p |}
  end.
(** Object.py 43-48: scope.name = value, on the scope which has this identity *)
Definition rename_scope (p : pattern) (uid : nat) (name : option string) : pattern :=
  {| p_scopes := map (fun s => if s_uid s =? uid then {| s_uid := uid; s_name := name |} else s) (p_scopes p);
     p_next := p_next p |}.

Inductive scope_op := Add (name : option string) | Remove (name : key) | Rename (uid : nat) (name : option string).
(** A removal which raises leaves the pattern as it is. *)
Definition scope_step (p : pattern) (o : scope_op) : pattern :=
  match o with
  | Add n => fst (add_scope p n)
  | Remove k => match remove_scope p k with Ok p' => p' | Raise _ => p end
  | Rename u n => rename_scope p u n
  end.
Definition scope_run (h : list scope_op) : pattern := fold_left scope_step h new_pattern.
