(** Properties C01, C02 and C03: object ids and the shared counter. *)
From Coq Require Import List ZArith Lia Permutation.
From Verif Require Import Base ModelCounter SpecCounter ProofCounter.
Import ListNotations.
Local Open Scope Z_scope.

(** C01: the ids given by any history of constructor calls, on top of any counter value, are
    strictly increasing and above that value. *)
Theorem C01_ids_strictly_increasing : forall counter calls outcomes counter',
  new_objects counter calls = (outcomes, counter') ->
  strictly_increasing (counter :: successes outcomes).
Proof. intros; eapply new_objects_increasing; eauto. Qed.
Print Assumptions C01_ids_strictly_increasing.

(** C01: what every single call of the history does: with [given] the last id given before it,
    an automatic id is [given + 1]; an explicit id is refused with ValueError exactly when it is
    not above [given]; so a refused call consumes nothing. *)
Theorem C01_each_creation : forall counter calls outcomes counter' k asked,
  new_objects counter calls = (outcomes, counter') ->
  nth_error calls k = Some asked ->
  let given := last_of counter (successes (firstn k outcomes)) in
  nth_error outcomes k =
    Some (match asked with
          | None => Ok (given + 1)
          | Some i => if given <? i then Ok i else Raise ValueError
          end).
Proof. exact (fun counter calls outcomes counter' k asked H => new_objects_outcome calls counter outcomes counter' k asked H). Qed.
Print Assumptions C01_each_creation.

(** A refused creation between two automatic ones, after an explicit jump. *)
Example C01_example :
  new_objects initial_counter [None; Some 10; Some 10; None; Some 3; None] =
    ([Ok 0; Ok 10; Raise ValueError; Ok 11; Raise ValueError; Ok 12], 12).
Proof. reflexivity. Qed.

(** C02: when all threads have finished, every increment has been counted. *)
Theorem C02_no_lost_increment : forall initial amounts schedule,
  let final := run (init_config initial (map CIncrement amounts)) schedule in
  forallb finished (c_threads final) = true ->
  c_value final = initial + sum amounts.
Proof. exact increments_all_counted. Qed.
Print Assumptions C02_no_lost_increment.

(** C02, mixed calls: for every schedule of increments and sets there is one order of all calls
    in which an abstract counter serving them one by one refuses the same sets and ends with the
    same value. *)
Theorem C02_calls_take_effect_one_by_one : forall initial calls schedule,
  let final := run (init_config initial calls) schedule in
  forallb finished (c_threads final) = true ->
  exists order,
    Permutation order (seq 0 (length calls)) /\
    serve_all initial
      (map (fun i => (request_of (nth i calls (CIncrement 0)),
                      succeeded (nth i (c_threads final) (mkThread (CIncrement 0) PStart)))) order)
      (c_value final).
Proof. exact counter_linearised. Qed.
Print Assumptions C02_calls_take_effect_one_by_one.

(** Three threads, interleaved, all finishing. *)
Example C02_example :
  let final := run (init_config 5 [CIncrement 1; CSet 7; CIncrement 2])
                   [0;1;0;1;0;0;2;2;0;2;2;1;1;1;1;2;1]%nat in
  forallb finished (c_threads final) = true /\ c_value final = 8 /\
  map succeeded (c_threads final) = [true; false; true].
Proof. vm_compute. auto. Qed.

(** C03 is false of the code: two increments by one return the same value, because the value is
    read again after the lock was released. *)
Theorem C03_distinct_returns_refuted :
  exists schedule,
    let final := run (init_config (-1) [CIncrement 1; CIncrement 1]) schedule in
    map t_pc (c_threads final) =
      [PReturned (Ok (Some 1)); PReturned (Ok (Some 1))].
Proof. exists [0;0;0;0;1;1;1;1;0;1]%nat. reflexivity. Qed.
Print Assumptions C03_distinct_returns_refuted.

(** C03, the part that holds: a call that begins after another one returned gets a value larger
    by at least its own amount.  Missing: calls that overlap. *)
Theorem C03_distinct_returns_partial : forall initial calls schedule1 schedule2 i j ti tj tj' a ri rj,
  nonneg_increments calls ->
  let c1 := run (init_config initial calls) schedule1 in
  let c2 := run c1 schedule2 in
  nth_error (c_threads c1) i = Some ti -> t_pc ti = PReturned (Ok (Some ri)) ->
  nth_error (c_threads c1) j = Some tj -> t_pc tj = PStart -> t_call tj = CIncrement a ->
  nth_error (c_threads c2) j = Some tj' -> t_pc tj' = PReturned (Ok (Some rj)) ->
  ri + a <= rj.
Proof.
  exact (fun v0 calls s1 s2 i j thi thj tj' a ri rj =>
           non_overlapping_increase v0 calls s1 s2 i j thi thj a ri rj tj').
Qed.
Print Assumptions C03_distinct_returns_partial.

Example C03_example :
  let calls := [CIncrement 1; CIncrement 1; CIncrement 1] in
  let c1 := run (init_config (-1) calls) [0;2;0;0;0;2;0]%nat in
  let c2 := run c1 [2;1;2;1;2;2;1;1;1;1;1;1]%nat in
  nonneg_increments calls /\
  map t_pc (c_threads c1) = [PReturned (Ok (Some 0)); PStart; PLocked] /\
  map t_pc (c_threads c2) = [PReturned (Ok (Some 0)); PReturned (Ok (Some 2)); PReturned (Ok (Some 1))].
Proof.
  cbv zeta. split; [|vm_compute; auto].
  intros c [<-|[<-|[<-|[]]]]; eexists; split; try reflexivity; lia.
Qed.
