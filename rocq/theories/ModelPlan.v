(** Model of Patro/GeometryEngine/Sketch.py: the definition of the module and the construction of the primitives of a sketch.  Annotations
    which are texts or None are left out; the objects which are not built are left out too. *)
From Coq Require Import String List Bool Arith Reals.
From Verif Require Import Base ModelVector ModelLine.
Import ListNotations.
Local Open Scope string_scope.
Local Open Scope list_scope.
Local Open Scope result_scope.

(** ** Definition of a module *)
(** A class or a function: the name which it binds, and the names in the annotations of its methods.  They are evaluated at the definition
    until python 3.13, and on demand since python 3.14. *)
Record statement := Statement { st_name : string; st_annotations : list string }.
Definition known (bound : list string) (n : string) : bool := existsb (String.eqb n) bound.
Fixpoint load (deferred : bool) (bound : list string) (l : list statement) : result (list string) :=
  match l with
  | [] => Ok bound
  | s :: l => if deferred || forallb (known bound) (st_annotations s) then load deferred (st_name s :: bound) l else Raise NameError
  end.
(** Sketch.py 32-34 and the builtins which are used *)
Definition imported : list string := ["Line2D"; "Segment2D"; "Vector2D"; "float"; "str"; "bool"; "dict"].
(** Sketch.py 38, 43-82, 86-95, 99-150, 154-161, 165-248 *)
Definition module : list statement := [
  Statement "Distance" ["Vector2D"; "Vector2D"; "float"];
  Statement "SketchPrimitive" ["str"; "str"; "str"; "str"; "str"];
  Statement "SketchPoint" ["Vector2D"];
  Statement "SketchLine" ["Vector2D"; "Vector2D"; "SketchPoint"; "float"; "float"; "SketchPoint"; "SketchPoint"; "SketchPoint"; "SketchLine"; "float"; "bool"; "SketchLine"];
  Statement "SketchSegment" ["Vector2D"; "Vector2D"];
  Statement "Sketch" ["str"; "Vector2D"; "SketchPrimitive"; "float"; "float"; "dict"; "SketchPoint"; "SketchPoint"; "SketchLine"; "SketchSegment"]].

(** ** Calls *)
(** A parameter and whether it has a default value; self is left out.  The call has [n] positional arguments and keyword arguments of
    different names; the answer is what goes to the dictionary of the other keywords, when there is one. *)
Definition bind_call (params : list (string * bool)) (others : bool) (n : nat) (keywords : list string) : result (list string) :=
  let names := map fst params in
  if Nat.ltb (length params) n then Raise TypeError
  else if existsb (known keywords) (firstn n names) then Raise TypeError
  else if negb others && existsb (fun k => negb (known names k)) keywords then Raise TypeError
  else if existsb (fun p => negb (snd p) && negb (known keywords (fst p))) (skipn n params) then Raise TypeError
  else Ok (filter (fun k => negb (known names k)) keywords).
(** object.__init__ takes no argument *)
Definition object_init (n : nat) (keywords : list string) : result unit := _ <- bind_call [] false n keywords ;; Ok tt.
(** Sketch.py 47-51: SketchPrimitive.__init__ *)
Definition primitive_init (n : nat) (keywords : list string) : result unit :=
  _ <- bind_call [("sketch", false); ("name", false); ("description", false)] false n keywords ;; Ok tt.

(** Sketch.py 38-39: Distance *)
Definition distance (vector1 vector2 : vec) : R := magnitude (vsub vector2 vector1).

(** What is drawn: the geometry p of a primitive *)
Inductive drawn := DPoint (p : vec) | DLine (l : line) | DSegment (s : segment).
(** 90-95: SketchPoint(sketch, vector, **kgwars) *)
Definition sketch_point (vector : vec) (keywords : list string) : result drawn :=
  kg <- bind_call [("sketch", false); ("vector", false)] true 2 keywords ;;
  _ <- primitive_init 0 kg ;;
  Ok (DPoint vector).
(** 103-113: SketchLine(point, vector, **kgwars), called with [n] positional arguments; kwargs is not a name of the function *)
Definition sketch_line (n : nat) (keywords : list string) : result drawn :=
  kg <- bind_call [("point", true); ("vector", true)] true n keywords ;;
  _ <- object_init 0 kg ;;
  Raise NameError.
(** 158-160: SketchSegment(point1, point2, **kgwars), called with [n] positional arguments *)
Definition sketch_segment (n : nat) (point1 point2 : vec) (keywords : list string) : result drawn :=
  kg <- bind_call [("point1", false); ("point2", false)] true n keywords ;;
  _ <- object_init 0 kg ;;
  Ok (DSegment (Seg point1 point2)).

(** ** Sketch *)
(** 197-199: point *)
Definition point (x y : R) (keywords : list string) : result drawn := sketch_point (V x y) keywords.
(** 203-205: middle; Vector.py 510-513 *)
Definition middle (p1 p2 : vec) (keywords : list string) : result drawn := sketch_point (vmiddle p1 p2) keywords.
(** 209-213: line; the sketch, the point and the vector are given by position *)
Definition line_ (keywords : list string) : result drawn := sketch_line 3 keywords.
(** 217-223: hline, vline *)
Definition hline (keywords : list string) : result drawn := line_ keywords.
Definition vline (keywords : list string) : result drawn := line_ keywords.
(** 227-228: segment; the sketch and the two points are given by position *)
Definition segment_ (p1 p2 : vec) (keywords : list string) : result drawn := sketch_segment 3 p1 p2 keywords.
