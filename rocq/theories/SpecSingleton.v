(** Specification vocabulary for C05. *)
From Coq Require Import List.
From Verif Require Import Base ModelSingleton.

(** A call is in progress. *)
Definition busy (p : qpc) : bool :=
  match p with QStart | QDone _ => false | _ => true end.

(** No two calls are in progress at the same time. *)
Definition exclusive (c : sconfig) : Prop :=
  forall i j p q, nth_error (s_threads c) i = Some p -> nth_error (s_threads c) j = Some q ->
    busy p = true -> busy q = true -> i = j.

