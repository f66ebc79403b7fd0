(** Model of QtApplication/QmlApplication.py: the single application, the scene and its signal, the messages of Qt and the user scripts; and of
    Common/ArgparseAction.py.  Qt, the event loop and the texts of the tracebacks are not modelled; sys.exit is an outcome. *)
From Coq Require Import String List Bool Arith.
From Verif Require Import Base.
Import ListNotations.
Local Open Scope string_scope.
Local Open Scope list_scope.

(** 110-117: Application.create.  The state is Application.instance; the constructor makes an object or raises *)
Definition create {A} (instance : option A) (constructor : result A) : result A * option A :=
  match instance with
  | Some _ => (Raise NameError, instance)
  | None => match constructor with Ok a => (Ok a, Some a) | Raise e => (Raise e, None) end
  end.
(** Calls one after the other, their outcomes and the instance *)
Fixpoint creates {A} (instance : option A) (calls : list (result A)) : list (result A) * option A :=
  match calls with
  | [] => ([], instance)
  | c :: calls => let r := create instance c in let q := creates (snd r) calls in (fst r :: fst q, snd q)
  end.

(** 84-94: QmlApplication.scene; a scene is its identity, None at first; the signals which were emitted *)
Definition set_scene (s : option nat * list (option nat)) (scene : option nat) : option nat * list (option nat) :=
  if (match fst s, scene with Some a, Some b => Nat.eqb a b | None, None => true | _, _ => false end) then s else (scene, snd s ++ [scene]).
Definition set_scenes (l : list (option nat)) : option nat * list (option nat) := fold_left set_scene l (None, []).

(** 185-212: _message_handler *)
Inductive qt_type := QtDebugMsg | QtInfoMsg | QtWarningMsg | QtCriticalMsg | QtFatalMsg | QtOther.
Inductive effect := Debug (m : string) | Info (m : string) | Warning (m : string) | Printed (m : string).
Section Messages.
(** Path(file).name *)
Variable name_of : string -> string.
Definition message_handler (t : qt_type) (file : option string) (function : option string) (msg : string) : result effect :=
  let file_path := match file with Some f => name_of f | None => "" end in
  let message := (file_path ++ " " ++ (match function with Some f => f | None => "None" end) ++ " — " ++ msg)%string in
  match t with
  | QtDebugMsg => Ok (Debug message)
  | QtInfoMsg => Ok (Info message)
  | QtWarningMsg => Ok (Warning message)
  | QtCriticalMsg | QtFatalMsg => Ok (Printed message)
  | QtOther => Raise UnboundLocalError
  end.
End Messages.

(** 343-370: execute_user_script.  What opening and compiling do; what the script does when it is run in a context.  The end of the call *)
Inductive opening := Source (s : string) | FileNotFound | Unreadable.
Inductive compiling (C : Type) := Code (c : C) | SyntaxErr (m : string) | Uncompilable.
Arguments Code {C} c. Arguments SyntaxErr {C} m. Arguments Uncompilable {C}.
Inductive running := Finished | Raised (m : string) | Exited (n : nat).
Inductive ending := Returned | Exit (n : nat) | Escaped.
Section Script.
Context {A C W : Type}.
Variable compile : string -> compiling C.
(** exec: the names of the context, the world before and after *)
Variable exec : C -> list (string * A) -> W -> running * W.
Definition execute_user_script (application : A) (file : opening) (w : W) : list effect * ending * W :=
  match file with
  | FileNotFound => ([Info "not found"], Exit 1, w)
  | Unreadable => ([], Escaped, w)
  | Source s =>
      match compile s with
      | SyntaxErr m => ([Printed m], Exit 1, w)
      | Uncompilable => ([], Escaped, w)
      | Code c =>
          match exec c [("application", application)] w with
          | (Finished, w) => ([Info "User script done"], Returned, w)
          | (Raised m, w) => ([Printed m], Exit 1, w)
          | (Exited n, w) => ([], Exit n, w)
          end
      end
  end.
End Script.

(** ArgparseAction.py 44-53: PathAction; a value is None, a text or a list of texts *)
Inductive values := VNone | VOne (s : string) | VList (l : list string).
Inductive paths (P : Type) := PNone | POne (p : P) | PList (l : list P).
Arguments PNone {P}. Arguments POne {P} p. Arguments PList {P} l.
Definition path_action {P} (path : string -> P) (dest : string) (v : values) (namespace : string -> option (paths P)) : string -> option (paths P) :=
  let p := match v with VNone => PNone | VOne s => POne (path s) | VList l => PList (map path l) end in
  fun k => if String.eqb k dest then Some p else namespace k.
