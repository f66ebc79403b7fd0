(** Model of Patro/Common/Singleton.py: threads instantiating a singleton class. *)
From Coq Require Import List.
From Verif Require Import Base.
Import ListNotations.

(** Program counter of a thread inside a call [cls(...)].
    - [QStart]: call not begun;
    - [QLocked]: (metaclass only) inside [with cls._rlock];
    - [QMissing]: the test [_instance is None] was true, the constructor has not run;
    - [QBuilt o]: the constructor made object [o], not yet stored;
    - [QUnlock]: (metaclass only) about to leave the with block normally;
    - [QFailing]: the constructor raised, the exception is leaving the call;
    - [QReturn]: about to execute [return _instance];
    - [QDone r]: call over with an object or an exception. *)
Inductive qpc :=
| QStart | QLocked | QMissing | QBuilt (o : nat) | QUnlock | QFailing | QReturn
| QDone (r : result (option nat)).

(** [s_instance]: the attribute [_instance]; [s_lock]: the owner of [_rlock];
    [s_made]: the objects the constructor has built so far, i.e. how often it succeeded. *)
Record sconfig := mkS {
  s_instance : option nat;
  s_lock : option nat;
  s_made : nat;
  s_threads : list qpc
}.

(** SingletonMetaClass.__init__, Patro/Common/Singleton.py:43-48, and [n] calling threads. *)
Definition s_init (n : nat) : sconfig := mkS None None 0 (repeat QStart n).

(** SingletonMetaClass.__call__, Patro/Common/Singleton.py:52-59: one step of thread [i].
    [raises i] says whether the constructor call of thread [i] raises (an oracle, quantified in
    the theorems).  Simplification: the constructor is one step and does not itself
    instantiate the class. *)
Definition meta_step (raises : nat -> bool) (c : sconfig) (i : nat) : sconfig :=
  match nth_error (s_threads c) i with
  | None => c
  | Some p =>
      let goto q := update i q (s_threads c) in
      match p with
      | QStart =>                                   (* line 56: acquire *)
          match s_lock c with
          | None => mkS (s_instance c) (Some i) (s_made c) (goto QLocked)
          | Some _ => c
          end
      | QLocked =>                                  (* line 57 *)
          match s_instance c with
          | None => mkS (s_instance c) (s_lock c) (s_made c) (goto QMissing)
          | Some _ => mkS (s_instance c) (s_lock c) (s_made c) (goto QUnlock)
          end
      | QMissing =>                                 (* line 58: type.__call__ *)
          if raises i
          then mkS (s_instance c) (s_lock c) (s_made c) (goto QFailing)
          else mkS (s_instance c) (s_lock c) (S (s_made c)) (goto (QBuilt (s_made c)))
      | QBuilt o =>                                 (* line 58: store *)
          mkS (Some o) (s_lock c) (s_made c) (goto QUnlock)
      | QUnlock => mkS (s_instance c) None (s_made c) (goto QReturn)
      | QFailing => mkS (s_instance c) None (s_made c) (goto (QDone (Raise ValueError)))
      | QReturn =>                                  (* line 59 *)
          mkS (s_instance c) (s_lock c) (s_made c) (goto (QDone (Ok (s_instance c))))
      | QDone _ => c
      end
  end.

(** singleton.__call__, Patro/Common/Singleton.py:79-83: no lock.  singleton_func
    (lines 94-98) has the same shape, with a dict entry in place of the attribute. *)
Definition deco_step (raises : nat -> bool) (c : sconfig) (i : nat) : sconfig :=
  match nth_error (s_threads c) i with
  | None => c
  | Some p =>
      let goto q := update i q (s_threads c) in
      match p with
      | QStart =>                                   (* line 81 *)
          match s_instance c with
          | None => mkS (s_instance c) (s_lock c) (s_made c) (goto QMissing)
          | Some _ => mkS (s_instance c) (s_lock c) (s_made c) (goto QReturn)
          end
      | QMissing =>                                 (* line 82: self._cls(...) *)
          if raises i
          then mkS (s_instance c) (s_lock c) (s_made c) (goto (QDone (Raise ValueError)))
          else mkS (s_instance c) (s_lock c) (S (s_made c)) (goto (QBuilt (s_made c)))
      | QBuilt o => mkS (Some o) (s_lock c) (s_made c) (goto QReturn)
      | QReturn =>                                  (* line 83 *)
          mkS (s_instance c) (s_lock c) (s_made c) (goto (QDone (Ok (s_instance c))))
      | QLocked | QUnlock | QFailing | QDone _ => c
      end
  end.

Definition s_run (stepf : sconfig -> nat -> sconfig) (c : sconfig) (schedule : list nat) : sconfig :=
  fold_left stepf schedule c.
