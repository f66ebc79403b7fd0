(** Model of QtShim/__init__.py: the choice of a Qt binding and the modules which the package shows.  A python object is a value with
    attributes and a truth value; ImportError is modelled by LookupError; the logging, the lists of extra modules (which are empty) and QtCompat, which nothing fills, are left out. *)
From Coq Require Import String Ascii List Bool.
From Verif Require Import Base ModelFormula ModelShimData.
Import ListNotations.
Local Open Scope string_scope.
Local Open Scope list_scope.
Local Open Scope result_scope.

(** name.split(c) *)
Definition cut (c : ascii) (name : string) : list string := map string_of_list_ascii (split c (list_ascii_of_string name)).

(** Dictionaries: the attributes of a module, sys.modules *)
Fixpoint get {A} (k : string) (l : list (string * A)) : option A :=
  match l with [] => None | (n, x) :: l => if String.eqb k n then Some x else get k l end.
Fixpoint put {A} (k : string) (x : A) (l : list (string * A)) : list (string * A) :=
  match l with [] => [(k, x)] | (n, y) :: l => if String.eqb k n then (n, x) :: l else (n, y) :: put k x l end.

(** 43-51: the order of preference, from the environment *)
Definition preferred (environ : string) : list string :=
  if String.eqb environ "" then ["PyQt5"; "PySide2"] else filter (fun x => negb (String.eqb x "")) (cut "," environ).

Section Shim.
Variable value : Type.
(** getattr, bool *)
Variable attr : value -> string -> option value.
Variable truth : value -> bool.
(** A binding which is installed: its sub-modules, and the reading of its versions once the sub-modules are there *)
Record binding := Binding { b_sub : string -> option value; b_version : result unit }.
Variable installed : string -> option binding.
(** __import__ of a module which is not in a package *)
Variable top_level : string -> option value.
(** The tables of QtConfig.py *)
Variable common : list (string * list string).
Variable misplaced : string -> list (string * string).

(** The modules of the binding (Qt._QtCore), those of the package (Qt.QtCore), __all__, and the modules which can be imported by their path *)
Record shim := Shim { theirs : list (string * value); ours : list (string * list (string * value)); public : list string; loaded : list string }.
Definition empty : shim := Shim [] [("QtCompat", [])] [] [].
Definition set_member (s : shim) (m x : string) (v : value) : shim :=
  Shim (theirs s) (put m (put x v (match get m (ours s) with Some l => l | None => [] end)) (ours s)) (public s) (loaded s).

(** 78-100: _setup *)
Definition setup1 (b : binding) (s : shim) (name : string) : shim :=
  match (match b_sub b name with Some v => Some v | None => top_level name end) with
  | Some v => Shim (put name v (theirs s)) (put name [] (ours s)) (public s) (loaded s)
  | None => s
  end.
Definition setup (b : binding) : shim := fold_left (setup1 b) (map fst common) empty.

(** 141-145: the member of a path *)
Fixpoint walk (v : value) (path : list string) : option value :=
  match path with [] => Some v | n :: path => match attr v n with Some w => walk w path | None => None end end.
(** 104-184: _reassign_misplaced_members.  The list src_member is emptied by the walk, so that a member which is false gives way to its
    module. *)
Definition reassign1 (s : shim) (e : string * string) : result shim :=
  match cut "." (fst e), cut "." (snd e) with
  | src_module :: src_member, dst_module :: dst_member :: _ =>
      match get src_module (theirs s) with
      | None => Ok s
      | Some v =>
          match walk v src_member with
          | None => Ok s
          | Some w =>
              let x := if truth w then w else v in
              match get dst_module (ours s) with
              | Some _ => Ok (set_member s dst_module dst_member x)
              | None =>
                  if existsb (String.eqb dst_module) (map fst common)
                  then Ok (set_member (Shim (theirs s) (put dst_module [] (ours s)) (public s) (loaded s ++ [dst_module])) dst_module dst_member x)
                  else Ok s
              end
          end
      end
  | _, _ => Raise IndexError
  end.
Fixpoint reassign (s : shim) (l : list (string * string)) : result shim :=
  match l with [] => Ok s | e :: l => s <- reassign1 s e ;; reassign s l end.

(** 246-310: _pyside2, _pyqt5 *)
Definition initialise (name : string) (b : binding) : result shim :=
  let s := setup b in
  _ <- (if existsb (String.eqb "QtCore") (map fst (theirs s)) then b_version b else Ok tt) ;;
  reassign s (misplaced name).
(** 314-345: _install, the choice; KeyError and ImportError lead to the next name *)
Fixpoint choose (order : list string) : result (string * shim) :=
  match order with
  | [] => Raise LookupError
  | name :: order =>
      if existsb (String.eqb name) ["PySide2"; "PyQt5"] then
        match installed name with
        | Some b => s <- initialise name b ;; Ok (name, s)
        | None => choose order
        end
      else choose order
  end.
(** 347-372: _install, the members *)
Definition member1 (v : value) (m : string) (s : shim) (x : string) : shim :=
  match attr v x with Some w => set_member s m x w | None => s end.
Definition members1 (s : shim) (e : string * list string) : shim :=
  match get (fst e) (theirs s) with
  | None => s
  | Some v =>
      let s := Shim (theirs s) (ours s) (public s ++ [fst e]) (loaded s ++ [fst e]) in
      fold_left (member1 v (fst e)) (snd e) s
  end.
Definition install (environ : string) : result (string * shim) :=
  c <- choose (preferred environ) ;; Ok (fst c, fold_left members1 common (snd c)).

(** from QtShim.m import x *)
Definition import (s : shim) (m x : string) : result value :=
  if existsb (String.eqb m) (loaded s) then
    match get m (ours s) with Some l => match get x l with Some v => Ok v | None => Raise LookupError end | None => Raise LookupError end
  else Raise LookupError.
End Shim.
Arguments theirs {value} _. Arguments ours {value} _. Arguments public {value} _. Arguments loaded {value} _. Arguments Shim {value} _ _ _ _.
Arguments b_sub {value} _. Arguments b_version {value} _. Arguments Binding {value} _ _.
Arguments set_member {value} _ _ _ _. Arguments import {value} s m x. Arguments empty {value}.

(** The tables of the package *)
Definition misplaced_members (name : string) : list (string * string) :=
  if String.eqb name "PySide2" then misplaced_pyside2 else misplaced_pyqt5.
