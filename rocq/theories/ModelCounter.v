(** Model of Patro/Common/AtomicCounter.py and of the id mixin of Patro/Common/Object.py. *)
From Coq Require Import List ZArith.
From Verif Require Import Base.
Import ListNotations.
Local Open Scope Z_scope.

(** ** One thread *)

(** AtomicCounter.increment, Patro/Common/AtomicCounter.py:49-55.
    State: the attribute [_value].  Returns the new value and the new state. *)
Definition counter_increment (value : Z) (amount : Z) : result Z * Z :=
  let value' := value + amount in (Ok value', value').

(** AtomicCounter.set, Patro/Common/AtomicCounter.py:59-64. *)
Definition counter_set (value : Z) (v : Z) : result unit * Z :=
  if v <=? value then (Raise ValueError, value) else (Ok tt, v).

(** ObjectGlobalIdMixin.__object_counter__, Patro/Common/Object.py:67. *)
Definition initial_counter : Z := -1.

(** ObjectGlobalIdMixin.__init__, Patro/Common/Object.py:71-78: the id given to the new object,
    and the new value of the shared counter.  [None] is the default [id=None]. *)
Definition new_object (counter : Z) (id : option Z) : result Z * Z :=
  match id with
  | Some i =>
      match counter_set counter i with
      | (Ok _, counter') => (Ok i, counter')
      | (Raise e, counter') => (Raise e, counter')
      end
  | None => counter_increment counter 1
  end.

(** A history of constructor calls, each catching its exception: the outcome of every call in
    order, and the final counter.  Driver, models client code. *)
Fixpoint new_objects (counter : Z) (calls : list (option Z)) : list (result Z) * Z :=
  match calls with
  | [] => ([], counter)
  | c :: cs =>
      let (r, counter1) := new_object counter c in
      let (rs, counter2) := new_objects counter1 cs in
      (r :: rs, counter2)
  end.

(** ** Many threads *)

(** What a thread calls on the shared counter. *)
Inductive call := CIncrement (amount : Z) | CSet (v : Z).

(** Program counter of a thread inside AtomicCounter.increment (lines 53-55) or
    AtomicCounter.set (lines 61-64).  One step per attribute access, as CPython's byte code
    allows a switch between any two of them:
    - [PStart]: before acquiring the lock;
    - [PLocked]: holds the lock, has not read [_value];
    - [PRead v]: holds the lock, has read [v] (the load of [self._value += value], line 54,
      or of the test, line 62);
    - [PWritten]: holds the lock, has stored (line 54 or 64);
    - [PFailing]: holds the lock, has raised ValueError (line 63);
    - [PUnlocked]: has released the lock, has not executed [return self._value] (line 55);
    - [PReturned r]: call over. *)
Inductive pc :=
| PStart | PLocked | PRead (v : Z) | PWritten | PFailing | PUnlocked
| PReturned (r : result (option Z)).

Record thread := mkThread { t_call : call; t_pc : pc }.

(** [c_value] is the attribute [_value], [c_lock] the owner of [_lock] (AtomicCounter.py:39-40). *)
Record config := mkConfig { c_value : Z; c_lock : option nat; c_threads : list thread }.

(** All threads about to make their call. *)
Definition init_config (value : Z) (calls : list call) : config :=
  mkConfig value None (map (fun c => mkThread c PStart) calls).

Definition set_pc (i : nat) (th : thread) (p : pc) (ths : list thread) : list thread :=
  update i (mkThread (t_call th) p) ths.

(** One step of thread [i]; a blocked or finished thread does nothing.
    AtomicCounter.increment and set, Patro/Common/AtomicCounter.py:49-64. *)
Definition step (c : config) (i : nat) : config :=
  match nth_error (c_threads c) i with
  | None => c
  | Some th =>
      match t_pc th with
      | PStart =>                                  (* with self._lock: acquire *)
          match c_lock c with
          | None => mkConfig (c_value c) (Some i) (set_pc i th PLocked (c_threads c))
          | Some _ => c
          end
      | PLocked =>                                 (* load self._value *)
          mkConfig (c_value c) (c_lock c) (set_pc i th (PRead (c_value c)) (c_threads c))
      | PRead v =>
          match t_call th with
          | CIncrement a =>                        (* store self._value *)
              mkConfig (v + a) (c_lock c) (set_pc i th PWritten (c_threads c))
          | CSet w =>
              if w <=? v
              then mkConfig (c_value c) (c_lock c) (set_pc i th PFailing (c_threads c))
              else mkConfig w (c_lock c) (set_pc i th PWritten (c_threads c))
          end
      | PWritten =>                                (* leave the with block *)
          match t_call th with
          | CIncrement _ => mkConfig (c_value c) None (set_pc i th PUnlocked (c_threads c))
          | CSet _ => mkConfig (c_value c) None (set_pc i th (PReturned (Ok None)) (c_threads c))
          end
      | PFailing =>                                (* the with block releases on exception *)
          mkConfig (c_value c) None (set_pc i th (PReturned (Raise ValueError)) (c_threads c))
      | PUnlocked =>                               (* return self._value, outside the lock *)
          mkConfig (c_value c) (c_lock c)
                   (set_pc i th (PReturned (Ok (Some (c_value c)))) (c_threads c))
      | PReturned _ => c
      end
  end.

(** A schedule is the list of threads that get to run, one step each. *)
Definition run (c : config) (schedule : list nat) : config := fold_left step schedule c.

Definition finished (th : thread) : bool :=
  match t_pc th with PReturned _ => true | _ => false end.
