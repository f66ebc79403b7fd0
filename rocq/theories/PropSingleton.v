(** Properties C04 and C05: singletons under concurrency. *)
From Coq Require Import List.
From Verif Require Import Base ModelSingleton SpecSingleton ProofSingleton.
Import ListNotations.

(** C04: whatever the schedule, and whichever constructor calls raise, the constructor succeeds at
    most once and all calls that return give one and the same object. *)
Theorem C04_one_instance : forall raises n schedule,
  let final := s_run (meta_step raises) (s_init n) schedule in
  s_made final <= 1 /\
  exists o, forall i r, nth_error (s_threads final) i = Some (QDone (Ok r)) -> r = Some o.
Proof. exact meta_singleton. Qed.
Print Assumptions C04_one_instance.

(** Thread 0 fails in the constructor while 1 and 2 wait; both then get object 0. *)
Example C04_example :
  let final := s_run (meta_step (fun i => Nat.eqb i 0)) (s_init 3)
      [0;1;0;2;0;0;2;1;2;2;2;1;2;2;1;1;1;1] in
  s_made final = 1 /\
  s_threads final = [QDone (Raise ValueError); QDone (Ok (Some 0)); QDone (Ok (Some 0))].
Proof. vm_compute. auto. Qed.

(** C05 is false of the decorator: two threads can build and return different objects. *)
Theorem C05_one_instance_refuted :
  exists schedule,
    let final := s_run (deco_step (fun _ => false)) (s_init 2) schedule in
    s_made final = 2 /\ s_threads final = [QDone (Ok (Some 0)); QDone (Ok (Some 1))].
Proof. exists [0;1;0;0;0;1;1;1]. vm_compute. auto. Qed.
Print Assumptions C05_one_instance_refuted.

(** C05, the part that holds: if at no moment two calls are in progress, there is one instance.
    Missing: overlapping calls. *)
Theorem C05_one_instance_partial : forall raises n schedule,
  (forall k, exclusive (s_run (deco_step raises) (s_init n) (firstn k schedule))) ->
  let final := s_run (deco_step raises) (s_init n) schedule in
  s_made final <= 1 /\
  exists o, forall i r, nth_error (s_threads final) i = Some (QDone (Ok r)) -> r = Some o.
Proof. exact deco_singleton. Qed.
Print Assumptions C05_one_instance_partial.

(** Two successive calls: the hypothesis holds at every prefix. *)
Example C05_example :
  let sched := [0;0;0;0;1;1] in
  (forall k, exclusive (s_run (deco_step (fun _ => false)) (s_init 2) (firstn k sched))) /\
  s_threads (s_run (deco_step (fun _ => false)) (s_init 2) sched) =
    [QDone (Ok (Some 0)); QDone (Ok (Some 0))].
Proof.
  split; [|reflexivity].
  intros k i j p q. do 7 (destruct k as [|k]; [
    destruct i as [|[|i]], j as [|[|j]]; simpl; intros Hp Hq Bp Bq; auto;
      try (inversion Hp; inversion Hq; subst; discriminate);
      try (destruct i; discriminate); try (destruct j; discriminate) |]).
  destruct i as [|[|i]], j as [|[|j]]; simpl; intros Hp Hq Bp Bq; auto;
      try (inversion Hp; inversion Hq; subst; discriminate);
      try (destruct i; discriminate); try (destruct j; discriminate).
Qed.
