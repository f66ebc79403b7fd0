(** Reading of the Python code of an operation: a call with keywords whose values are simple. *)
From Coq Require Import String Ascii List Bool Arith.
From Verif Require Import Base ModelSketch.
From Verif Require ModelFormula ModelMeasure ModelPython.
Import ModelFormula(text, lit).
Import ModelMeasure(text_eqb).
Import ListNotations.

(** ** Numbers of the Python language *)
Definition is_digit (c : ascii) : Prop := 48 <= nat_of_ascii c <= 57.
(** Groups of digits separated by single underscores *)
Inductive digit_part : text -> Prop :=
| digit_one c : is_digit c -> digit_part [c]
| digit_more c t : is_digit c -> digit_part t -> digit_part (c :: t)
| digit_underscore c t : is_digit c -> digit_part t -> digit_part (c :: "_"%char :: t).
Inductive exponent_part : text -> Prop :=
| exponent_none : exponent_part []
| exponent_some e s t : (e = "e" \/ e = "E")%char -> (s = [] \/ s = ["+"] \/ s = ["-"])%char -> digit_part t -> exponent_part (e :: s ++ t).
(** An integer does not begin with 0, unless it is 0. *)
Definition nought (c : ascii) : Prop := c = "0"%char \/ c = "_"%char.
Inductive unsigned : text -> Prop :=
| integer t : digit_part t -> (forall u, t = "0"%char :: u -> Forall nought u) -> unsigned t
| with_point a b e : digit_part a -> b = [] \/ digit_part b -> exponent_part e -> unsigned (a ++ "."%char :: b ++ e)
| only_point b e : digit_part b -> exponent_part e -> unsigned ("."%char :: b ++ e)
| with_exponent a e : digit_part a -> exponent_part e -> e <> [] -> unsigned (a ++ e).
(** With spaces around and a sign *)
Definition number (t : text) : Prop := exists a s u b, t = a ++ s ++ u ++ b /\ Forall (eq " "%char) a /\ (s = [] \/ s = ["+"] \/ s = ["-"])%char /\
  unsigned u /\ Forall (eq " "%char) b.

(** What float accepts: leading zeros too, any white space around, and three words in small or capital letters *)
Inductive decimal_text : text -> Prop :=
| decimal_integer a e : digit_part a -> exponent_part e -> decimal_text (a ++ e)
| decimal_point a b e : digit_part a -> b = [] \/ digit_part b -> exponent_part e -> decimal_text (a ++ "."%char :: b ++ e)
| decimal_only b e : digit_part b -> exponent_part e -> decimal_text ("."%char :: b ++ e).
Definition white (c : ascii) : Prop := let n := nat_of_ascii c in 9 <= n <= 13 \/ 28 <= n <= 32.
Definition same_letter (c d : ascii) : Prop := c = d \/ 65 <= nat_of_ascii c <= 90 /\ nat_of_ascii d = nat_of_ascii c + 32.
Definition float_text (t : text) : Prop := exists a s u b, t = a ++ s ++ u ++ b /\ Forall white a /\ (s = [] \/ s = ["+"] \/ s = ["-"])%char /\ Forall white b /\
  (decimal_text u \/ exists w, In w [lit "inf"; lit "infinity"; lit "nan"] /\ Forall2 same_letter u w).

(** ** Values *)
Inductive literal := LNone | LNumber (t : text) | LString (t : text) | LVector (x y : text).
(** A character which stands for itself between quotes *)
Definition plain_char (c : ascii) : Prop := c <> "'"%char /\ c <> "\"%char /\ c <> ascii_of_nat 10 /\ c <> ascii_of_nat 13 /\ c <> ascii_of_nat 0.
Inductive literal_text : text -> literal -> Prop :=
| none_text : literal_text (lit "None") LNone
| number_text t : number t -> literal_text t (LNumber t)
| string_text t : Forall plain_char t -> literal_text (lit "'" ++ t ++ lit "'") (LString t)
| vector_text x y : number x -> number y -> literal_text (lit "Vector2D(" ++ x ++ lit ", " ++ y ++ lit ")") (LVector x y).
(** ** Calls: the class, and the keywords after the sketch *)
Definition letter (c : ascii) : Prop := let n := nat_of_ascii c in 48 <= n <= 57 \/ 65 <= n <= 90 \/ 97 <= n <= 122 \/ n = 95.
Definition identifier (t : text) : Prop := t <> [] /\ Forall letter t /\ forall c u, t = c :: u -> ~ is_digit c.
Inductive keywords : text -> list (text * literal) -> Prop :=
| keywords_nil : keywords [] []
| keywords_cons n v x t l : identifier n -> literal_text v x -> keywords t l -> keywords (lit ", " ++ n ++ lit "=" ++ v ++ t) ((n, x) :: l).
Definition call (t class : text) (l : list (text * literal)) : Prop :=
  identifier class /\ exists u, keywords u l /\ t = class ++ lit "(sketch" ++ u ++ lit ")".

(** ** The arguments which the documentation of each class asks for *)
Definition arguments_of (k : kind) : list text :=
  let point := [lit "name"] in let label := [lit "label_offset"] in let line := [lit "line_style"; lit "line_color"] in
  let ends := [lit "first_point"; lit "second_point"] in
  match k with
  | KOperation => []
  | KPoint => point ++ label
  | KSingle => point ++ [lit "x"; lit "y"] ++ label
  | KAlong => point ++ ends ++ [lit "length"] ++ label ++ line
  | KEnd => point ++ [lit "base_point"; lit "angle"; lit "length"] ++ label ++ line
  | KIntersect => point ++ [lit "point1_line1"; lit "point2_line1"; lit "point1_line2"; lit "point2_line2"] ++ label
  | KNormal => point ++ ends ++ [lit "angle"; lit "length"] ++ label ++ line
  | KContact => point ++ ends ++ [lit "center"; lit "radius"] ++ label
  | KIntersection => point ++ ends ++ label
  | KLine => ends ++ line
  | KSpline => ends ++ [lit "angle1"; lit "length1"; lit "angle2"; lit "length2"] ++ line
  end.

(** ** The code of an operation *)
Import ModelPython(attribute, VNone, VNumber, VString, VPoint, VExpression, VVector, VOther).
(** The value which stands for an attribute in the code; an expression which is a number is given as a number *)
Inductive stands_for : attribute -> literal -> Prop :=
| for_none : stands_for VNone LNone
| for_number t : number t -> stands_for (VNumber t) (LNumber t)
| for_string t : Forall plain_char t -> stands_for (VString t) (LString t)
| for_point t : Forall plain_char t -> stands_for (VPoint t) (LString t)
| for_expression t : ~ float_text t -> Forall plain_char t -> stands_for (VExpression t) (LString t)
| for_constant t : float_text t -> number t -> stands_for (VExpression t) (LNumber t)
| for_vector x y : number x -> number y -> stands_for (VVector x y) (LVector x y).
(** The value of a literal; [number_str] is the text of a number which has been read *)
Definition evaluated (number_str : text -> text) (x : literal) : attribute :=
  match x with
  | LNone => VNone
  | LNumber t => VNumber (number_str t)
  | LString t => VString t
  | LVector x y => VVector (number_str x) (number_str y)
  end.
(** The same attribute, as far as the texts of the numbers go *)
Definition alike (number_str : text -> text) (v w : attribute) : Prop :=
  match v with
  | VNumber t => w = VNumber (number_str t)
  | VVector x y => w = VVector (number_str x) (number_str y)
  | VExpression t => float_text t /\ w = VExpression (number_str t) \/ ~ float_text t /\ w = v
  | _ => w = v
  end.
(** An operation as its constructor leaves it: references are points, measures are expressions, the name is a text. *)
Definition constructed (attributes : text -> attribute) : Prop :=
  (forall a, In a (map lit ["first_point"; "second_point"; "base_point"; "center"; "point1_line1"; "point2_line1"; "point1_line2"; "point2_line2"]%string) ->
     exists n, attributes a = VPoint n) /\
  (forall a, In a (map lit ["x"; "y"; "length"; "angle"; "radius"; "angle1"; "length1"; "angle2"; "length2"]%string) -> exists t, attributes a = VExpression t) /\
  (exists n, attributes (lit "name") = VString n) /\
  (forall a, In a (map lit ["label_offset"; "line_style"; "line_color"]%string) -> (forall n, attributes a <> VPoint n) /\ forall t, attributes a <> VExpression t).
