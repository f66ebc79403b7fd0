(** Model of the Python code of an operation of a sketch: Patro/Pattern/SketchOperation.py 50-51, 134-177 (quote, _init_args,
    to_python) with the signatures of the constructors, and of the attributes which the constructors make of their arguments.

    A number is its text [str(number)], a point its name; other objects (styles, colours, operations which are not points) are
    not told apart. *)
From Coq Require Import String Ascii List Bool Arith.
From Verif Require Import Base ModelSketch.
From Verif Require ModelFormula ModelMeasure.
Import ModelFormula(text, lit).
Import ModelMeasure(text_eqb).
Import ListNotations.
Local Open Scope result_scope.

Inductive attribute :=
| VNone
| VNumber (t : text)
| VString (t : text)
| VPoint (name : text)
| VExpression (t : text)
| VVector (x y : text)
| VOther.

(** ** Calculator.py 235-241: is_float, for texts of ASCII characters: float(text) *)
Definition digit (c : ascii) : bool := Nat.leb 48 (nat_of_ascii c) && Nat.leb (nat_of_ascii c) 57.
Definition blank (c : ascii) : bool := let n := nat_of_ascii c in (Nat.leb 9 n && Nat.leb n 13) || (Nat.leb 28 n && Nat.leb n 32).
Fixpoint lstrip (t : text) : text := match t with c :: t' => if blank c then lstrip t' else t | [] => [] end.
Definition strip (t : text) : text := rev (lstrip (rev (lstrip t))).
(** digits with single underscores between them: what is left after the longest such text, None without digit *)
Fixpoint digits_from (t : text) : text :=
  match t with
  | c :: t' => if digit c then digits_from t' else
      if Ascii.eqb c "_" then match t' with d :: t'' => if digit d then digits_from t'' else t | [] => t end else t
  | [] => []
  end.
Definition digits (t : text) : option text := match t with c :: t' => if digit c then Some (digits_from t') else None | [] => None end.
Definition sign_ (t : text) : text := match t with c :: t' => if Ascii.eqb c "+" || Ascii.eqb c "-" then t' else t | [] => [] end.
Definition exponent (t : text) : bool :=
  match t with
  | [] => true
  | c :: t => if Ascii.eqb c "e" || Ascii.eqb c "E" then match digits (sign_ t) with Some [] => true | _ => false end else false
  end.
Definition decimal (t : text) : bool :=
  match digits t with
  | Some [] => true
  | Some (c :: r) => if Ascii.eqb c "." then match digits r with Some r => exponent r | None => exponent r end else exponent (c :: r)
  | None => match t with c :: r => Ascii.eqb c "." && match digits r with Some r => exponent r | None => false end | [] => false end
  end.
Definition lower (c : ascii) : ascii := let n := nat_of_ascii c in if Nat.leb 65 n && Nat.leb n 90 then ascii_of_nat (n + 32) else c.
Definition is_float (t : text) : bool :=
  let t := sign_ (strip t) in
  decimal t || existsb (text_eqb (map lower t)) [lit "inf"; lit "infinity"; lit "nan"].

(** ** The constructors *)

(** 365-371, 411-414, 451-455, 486-490, 518-521, 572-576, 615-620, 670-673, 698-701, 733-736: the names of the arguments; 75: the
    constructor of the base class *)
Definition varnames (k : kind) : list text :=
  map lit match k with
  | KOperation => ["self"; "sketch"; "id"]
  | KPoint => ["self"; "sketch"; "name"; "label_offset"; "id"]
  | KSingle => ["self"; "sketch"; "name"; "x"; "y"; "label_offset"; "id"]
  | KAlong => ["self"; "sketch"; "name"; "first_point"; "second_point"; "length"; "label_offset"; "line_style"; "line_color"; "id"]
  | KEnd => ["self"; "sketch"; "name"; "base_point"; "angle"; "length"; "label_offset"; "line_style"; "line_color"; "id"]
  | KIntersect => ["self"; "sketch"; "name"; "point1_line1"; "point2_line1"; "point1_line2"; "point2_line2"; "label_offset"; "id"]
  | KNormal => ["self"; "sketch"; "name"; "first_point"; "second_point"; "angle"; "length"; "label_offset"; "line_style"; "line_color"; "id"]
  | KContact => ["self"; "sketch"; "name"; "first_point"; "second_point"; "center"; "radius"; "label_offset"; "id"]
  | KIntersection => ["self"; "sketch"; "name"; "first_point"; "second_point"; "label_offset"; "id"]
  | KLine => ["self"; "sketch"; "first_point"; "second_point"; "line_style"; "line_color"; "id"]
  | KSpline => ["self"; "sketch"; "first_point"; "second_point"; "angle1"; "length1"; "angle2"; "length2"; "line_style"; "line_color"; "id"]
  end%string.
Definition class_name (k : kind) : text :=
  lit match k with
  | KOperation => "SketchOperation" | KPoint => "Point" | KSingle => "SinglePoint" | KAlong => "AlongLinePoint" | KEnd => "EndLinePoint"
  | KIntersect => "LineIntersectPoint" | KNormal => "NormalPoint" | KContact => "PointOfContact" | KIntersection => "PointOfIntersection"
  | KLine => "Line" | KSpline => "SimpleInteractiveSpline"
  end%string.

(** ** to_python *)
(** 134-140: args[2:-1] *)
Definition init_args (k : kind) : list text := removelast (skipn 2 (varnames k)).
(** 50-51 *)
Definition quote (t : text) : text := lit "'" ++ t ++ lit "'".
(** 152-174 *)
Definition value_str (v : attribute) : text :=
  match v with
  | VNone => lit "None"
  | VNumber t => t
  | VString t => quote t
  | VPoint t => quote t
  | VExpression t => if is_float t then t else quote t
  | VVector x y => lit "Vector2D(" ++ x ++ lit ", " ++ y ++ lit ")"
  | VOther => []
  end.
Fixpoint join (sep : text) (l : list text) : text :=
  match l with [] => [] | [t] => t | t :: l => t ++ sep ++ join sep l end.
(** 144-177; [attributes] is getattr, an operation has an attribute for each argument of its constructor *)
Definition to_python (k : kind) (attributes : text -> attribute) : text :=
  let args := init_args k in
  class_name k ++ lit "(" ++ join (lit ", ") (lit "sketch" :: map (fun a => a ++ lit "=" ++ value_str (attributes a)) args) ++ lit ")".

(** ** What a constructor makes of an argument: 216-224, 244-256, 265-272, 281-290, 297-304, 323-329, 339-345, 371-377, 417-419, 524-528, 740-748 with
    Calculator.py 203-205: an expression is made of the text of its argument, whatever it is (not modelled: an expression made of a vector or of an object).  A point can be given by its name
    (102-115); which point has the name is in ModelSketch. *)
Inductive argument_role := AsName | AsPoint | AsExpression | AsGiven.
Definition role_of (a : text) : argument_role :=
  if existsb (text_eqb a) (map lit ["first_point"; "second_point"; "base_point"; "center"; "point1_line1"; "point2_line1"; "point1_line2"; "point2_line2"]%string) then AsPoint
  else if existsb (text_eqb a) (map lit ["x"; "y"; "length"; "angle"; "radius"; "angle1"; "length1"; "angle2"; "length2"]%string) then AsExpression
  else if text_eqb a (lit "name") then AsName else AsGiven.
Definition initialised (a : text) (v : attribute) : attribute :=
  match role_of a, v with
  | AsPoint, VString n => VPoint n
  | AsExpression, VNone => VExpression (lit "None")
  | AsExpression, (VNumber t | VString t | VExpression t) => VExpression t
  | _, _ => v
  end.
