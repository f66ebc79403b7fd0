(** Model of Patro/Measurement/ValentinaMeasurement.py and of Patro/FileFormat/Valentina/Measurement.py (VitFile): the measurements
    of a person read in a file.  The import of the missing name Measurements is repaired: it is MeasurementSet. *)
From Coq Require Import String Ascii List Bool Arith ZArith.
From Verif Require Import Base ModelFormula ModelMeasure ModelDate.
From Verif Require ModelValFile.
Import ModelValFile(xml, Node, Comment, children, attributes, body, tag_is, first_element, iterate).
Import ListNotations.
Local Open Scope result_scope.

Section Vit.
Variable number expression : Type.
Variable sympify : text -> result expression.
Variable of_number : number -> expression.
Variable float : number -> number.
Variable subs : expression -> list (text * expression) -> expression.
Variable evalf : expression -> result number.
Notation measurement := (measurement number expression).

(** ValentinaMeasurement.py 47-50: replace_custom_prefix *)
Definition replace_custom_prefix (s : text) : text := replace (lit "@") (lit "C_") s.

(** A set: the objects in the order of their creation, the dictionary of the names, where two names can be the one of an
    object, and the dictionary of the expressions (Measurement.py 136-147) *)
Record vset := VSet { v_objects : list measurement; v_names : list (text * nat); v_expressions : list (text * expression) }.
Definition empty_vset : vset := VSet [] [] [].

(** 54-69: __init__; 79-80: is_custom; 94-98: add; Measurement.py 198-205: add of the set *)
Definition v_add (s : vset) (name value : option text) (full_name description : text) : result vset :=
  let valentina_name := match name with Some n => n | None => lit "None" end in
  let name := replace_custom_prefix valentina_name in
  value <- match value with Some v => Ok (replace_custom_prefix v) | None => Raise AttributeError end ;;
  m <- new_measurement number expression sympify of_number float name (Text _ value) full_name description ;;
  match lookup (v_names s) (m_name _ _ m) with
  | Some _ => Raise NameError
  | None =>
      let i := length (v_objects s) in
      let names := set_item (v_names s) (m_name _ _ m) i in
      Ok (VSet (v_objects s ++ [m])
            (if starts (lit "@") valentina_name then set_item names valentina_name i else names)
            (set_item (v_expressions s) (m_name _ _ m) (m_expression _ _ m)))
  end.
(** Measurement.py 188-192: __getitem__, __getattr__ *)
Definition v_get (s : vset) (name : text) : result nat :=
  match lookup (v_names s) name with Some i => Ok i | None => Raise KeyError end.
(** Measurement.py 109-121, 209-210: reading the value of an object, which keeps it *)
Definition v_value (s : vset) (i : nat) : vset * result number :=
  match nth_error (v_objects s) i with
  | None => (s, Raise KeyError)
  | Some m =>
      let (m, r) := value_of number expression subs evalf (Build_measurements _ _ [] (v_expressions s)) m in
      (VSet (update i m (v_objects s)) (v_names s) (v_expressions s), r)
  end.
(** Measurement.py 177-178: __iter__: the values of the dictionary: a custom measurement is there twice *)
Definition v_iter (s : vset) : list nat := map snd (v_names s).

(** ** Files: Valentina/Measurement.py *)
(** What is read: the unit and the system are attributes of the reader, not of the measurements *)
Record vitfile := Vit {
  vit_unit : option text; vit_system : option text; vit_customer : option text; vit_personal : personal; vit_set : vset;
  set_unit : option text; set_system : option text }.
Definition text_in (e : xml) (tag : string) : result (option text) :=
  match first_element e tag with Some e => Ok (body e) | None => Raise AttributeError end.
(** 58-66, 108-113: a measurement *)
Definition read_m (s : vset) (e : xml) : result vset :=
  if tag_is (lit "m") e then
    let get := lookup (attributes e) in
    let default name := match get (lit name) with Some t => t | None => [] end in
    v_add s (get (lit "name")) (get (lit "value")) (default "full_name"%string) (default "description"%string)
  else Raise NotImplementedError.
Fixpoint read_ms (s : vset) (l : list xml) : result vset :=
  match l with
  | [] => Ok s
  | e :: l => s <- read_m s e ;; read_ms s l
  end.
(** 76-79, 83-113: read *)
Definition read_vit (root : xml) : result vitfile :=
  p <- new_personal [] ;;
  _ <- text_in root "version" ;;
  unit <- text_in root "unit" ;;
  system <- text_in root "pm_system" ;;
  personal <- match first_element root "personal" with Some e => Ok e | None => Raise AttributeError end ;;
  customer <- text_in personal "customer" ;;
  birth <- text_in personal "birth-date" ;;
  birth <- set_birth_date (match birth with Some t => GText t | None => GNone end) ;;
  gender <- text_in personal "gender" ;;
  gender <- match gender with
            | Some t => match lookup gender_names (upper t) with Some g => Ok g | None => Raise KeyError end
            | None => Raise AttributeError
            end ;;
  email <- text_in personal "email" ;;
  let email := match email with Some t => t | None => lit "None" end in
  l <- iterate (first_element root "body-measurements") ;;
  s <- read_ms empty_vset l ;;
  Ok (Vit unit system customer (Personal (first_name p) (last_name p) birth (measurement_date p) gender email (comment p)) s None None).
End Vit.
