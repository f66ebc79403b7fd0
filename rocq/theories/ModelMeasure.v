(** Model of the sets of measurements: Patro/Measurement/Measurement.py, Measurement (lines 40-124) and
    MeasurementSet (lines 128-205), and Patro/Measurement/StandardMeasurement.py, StandardMeasurement
    (lines 78-116).  A name is a list of Latin-1 characters.  The numbers and the sympy expressions are
    the parameters of the section. *)
From Coq Require Import String Ascii List Bool Arith.
From Verif Require Import Base ModelFormula.
Import ListNotations.
Local Open Scope result_scope.

(** str.isalnum on a Latin-1 character: letters, digits, superscripts and fractions *)
Definition is_alnum (c : ascii) : bool :=
  let n := nat_of_ascii c in
  ((48 <=? n) && (n <=? 57)) || ((65 <=? n) && (n <=? 90)) || ((97 <=? n) && (n <=? 122)) ||
  existsb (Nat.eqb n) [170; 178; 179; 181; 185; 186; 188; 189; 190] ||
  ((192 <=? n) && (n <=? 255) && negb (n =? 215) && negb (n =? 247)).

(** 69-77: _validate_name *)
Definition validate_name (name : text) : result text :=
  let name := replace (lit " ") (lit "_") name in
  if forallb (fun c => is_alnum c || Ascii.eqb c "_"%char) name then Ok name else Raise ValueError.

Section Measurements.
(** int or float; sympy expression; sympy.sympify of a text, which may raise; substitution of the
    names by their expressions; float(evalf(3)) *)
Variable number expression : Type.
Variable sympify : text -> result expression.
Variable of_number : number -> expression.
Variable float : number -> number.
Variable subs : expression -> list (text * expression) -> expression.
Variable evalf : expression -> result number.

Inductive value := Number (x : number) | Text (s : text).
(** 46-65 *)
Record measurement := {
  m_name : text; m_expression : expression;
  m_evaluated : option expression; m_value : option number;
  m_full_name : text; m_description : text }.
Definition new_measurement (name : text) (v : value) (full_name description : text) : result measurement :=
  name <- validate_name name ;;
  match v with
  | Number x => Ok {| m_name := name; m_expression := of_number x; m_evaluated := Some (of_number x); m_value := Some (float x);
                      m_full_name := full_name; m_description := description |}
  | Text s =>
      e <- sympify s ;;
      Ok {| m_name := name; m_expression := e; m_evaluated := None; m_value := None;
            m_full_name := full_name; m_description := description |}
  end.

(** 145-146: the dictionaries, in the order of insertion *)
Record measurements := { ms_items : list (text * measurement); ms_expressions : list (text * expression) }.
Definition empty_set : measurements := {| ms_items := []; ms_expressions := [] |}.

Fixpoint text_eqb (a b : text) : bool :=
  match a, b with
  | [], [] => true
  | x :: a, y :: b => Ascii.eqb x y && text_eqb a b
  | _, _ => false
  end.
Fixpoint lookup {A} (l : list (text * A)) (name : text) : option A :=
  match l with
  | [] => None
  | (n, x) :: l => if text_eqb n name then Some x else lookup l name
  end.
(** dict.__setitem__ *)
Fixpoint set_item {A} (l : list (text * A)) (name : text) (x : A) : list (text * A) :=
  match l with
  | [] => [(name, x)]
  | (n, y) :: l => if text_eqb n name then (n, x) :: l else (n, y) :: set_item l name x
  end.
(** 189-193: __getitem__ and __getattr__ *)
Definition get_item (s : measurements) (name : text) : result measurement :=
  match lookup (ms_items s) name with Some m => Ok m | None => Raise KeyError end.
(** 179-180: __iter__ *)
Definition iter (s : measurements) : list measurement := map snd (ms_items s).
(** 198-205: add; the set after the call, and what the call returns *)
Definition add (s : measurements) (name : text) (v : value) (full_name description : text) : measurements * result measurement :=
  match new_measurement name v full_name description with
  | Raise e => (s, Raise e)
  | Ok m =>
      match lookup (ms_items s) (m_name m) with
      | Some _ => (s, Raise NameError)
      | None => ({| ms_items := set_item (ms_items s) (m_name m) m;
                    ms_expressions := set_item (ms_expressions s) (m_name m) (m_expression m) |}, Ok m)
      end
  end.
(** 108-121: evaluated_expression and value, computed at the first reading and kept; 209-210: subs *)
Definition evaluated (s : measurements) (m : measurement) : measurement * expression :=
  match m_evaluated m with
  | Some e => (m, e)
  | None =>
      let e := subs (m_expression m) (ms_expressions s) in
      ({| m_name := m_name m; m_expression := m_expression m; m_evaluated := Some e; m_value := m_value m;
          m_full_name := m_full_name m; m_description := m_description m |}, e)
  end.
Definition value_of (s : measurements) (m : measurement) : measurement * result number :=
  match m_value m with
  | Some x => (m, Ok x)
  | None =>
      let (m, e) := evaluated s m in
      match evalf e with
      | Raise ex => (m, Raise ex)
      | Ok x => ({| m_name := m_name m; m_expression := m_expression m; m_evaluated := m_evaluated m; m_value := Some x;
                    m_full_name := m_full_name m; m_description := m_description m |}, Ok x)
      end
  end.
(** Reading the value of the measurement of a name: the object in the dictionary is updated *)
Definition read_value (s : measurements) (name : text) : measurements * result number :=
  match lookup (ms_items s) name with
  | None => (s, Raise KeyError)
  | Some m =>
      let (m, r) := value_of s m in
      ({| ms_items := set_item (ms_items s) name m; ms_expressions := ms_expressions s |}, r)
  end.

Inductive measure_op := OpAdd (name : text) (v : value) (full_name description : text) | OpValue (name : text).
Definition measure_step (s : measurements) (o : measure_op) : measurements :=
  match o with
  | OpAdd n v f d => fst (add s n v f d)
  | OpValue n => fst (read_value s n)
  end.
Definition measure_run (h : list measure_op) : measurements := fold_left measure_step h empty_set.
End Measurements.
