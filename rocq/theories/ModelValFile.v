(** Model of the Valentina pattern files: Patro/FileFormat/Valentina/Pattern.py, the classes Modeling, Dispatcher,
    ValFileReaderInternal and ValFileWriter, with the classes of the details of VitFormat.py 752-880, and
    Patro/Common/Xml/XmlFile.py.  The calculations are those of ModelValentina.  A file is an XML tree: the texts of
    the tree and their parsing are done by lxml and are not modelled, see [stored]. *)
From Coq Require Import String Ascii List Bool Arith ZArith.
From Verif Require Import Base ModelFormula ModelMeasure.
From Verif Require ModelXml ModelColor ModelSketch.
From Verif Require Import ModelValentina.
Import ModelXml(int_parse, xml_char).
Import ModelColor(color, database).
Import ModelSketch(expr, ops, o_refs, is_point, o_kind, counter, new_sketch, get_operation, KeyId).
Import ListNotations.
Local Open Scope result_scope.

(** An XML node: an element with its tag, its attributes, its text and its children, or a comment *)
Inductive xml := Node (tag : text) (attrib : list (text * text)) (body : option text) (children : list xml) | Comment (body : text).
Definition children (e : xml) : list xml := match e with Node _ _ _ l => l | Comment _ => [] end.
Definition attributes (e : xml) : list (text * text) := match e with Node _ a _ _ => a | Comment _ => [] end.
Definition body (e : xml) : option text := match e with Node _ _ b _ => b | Comment b => Some b end.
(** The tag of a comment is not a text. *)
Definition tag_is (t : text) (e : xml) : bool := match e with Node t' _ _ _ => text_eqb t' t | Comment _ => false end.

(** A tree written in a file then parsed: an empty text is no text.  (pretty_print adds blank texts in the elements
    which have children: nobody reads them, they are not modelled.) *)
Fixpoint stored (e : xml) : xml :=
  match e with
  | Node t a b l => Node t a (match b with Some [] => None | _ => b end) (map stored l)
  | Comment b => Comment b
  end.

(** XmlFile.py 76-100: get_xpath_elements, get_xpath_element, get_text_element, for the paths which are a tag *)
Definition elements (root : xml) (t : string) : list xml := filter (tag_is (lit t)) (children root).
Definition first_element (root : xml) (t : string) : option xml := hd_error (elements root t).
Definition text_element (root : xml) (t : string) : option text :=
  match first_element root t with Some e => body e | None => None end.
(** The loop on the children of an element; None is not iterable *)
Definition iterate (e : option xml) : result (list xml) :=
  match e with Some e => Ok (children e) | None => Raise TypeError end.

(** ** The modeling and the details *)
(** Objectivity.py 131-204: the classes of attributes used here *)
Inductive dkind := DInt | DFloat | DBool | DString.
(** VitFormat.py 274-279, 752-880: the attributes (python name, XML name, class); the order and the repetitions made
    by the metaclass do not matter as each text is read by the same class *)
Definition a_item : list (string * string * dkind) :=
  [("id", "id", DInt); ("object_id", "idObject", DInt); ("type", "type", DString); ("in_use", "inUse", DBool)]%string.
Definition a_place : list (string * string * dkind) := [("mx", "mx", DFloat); ("my", "my", DFloat)]%string.
Definition a_size : list (string * string * dkind) := [("height", "height", DInt); ("width", "width", DInt)]%string.
Definition a_font : list (string * string * dkind) := [("fontSize", "fontSize", DInt)]%string.
Definition a_shown : list (string * string * dkind) := [("visible", "visible", DBool); ("rotation", "rotation", DInt)]%string.
Definition modeling_point := a_item ++ a_place.
Definition modeling_spline := a_item.
Definition detail :=
  a_place ++ [("id", "id", DInt); ("version", "version", DInt); ("forbidFlipping", "forbidFlipping", DBool);
   ("width", "width", DInt); ("united", "united", DBool); ("name", "name", DString); ("inLayout", "inLayout", DBool);
   ("seamAllowance", "seamAllowance", DBool)]%string.
Definition detail_data := a_size ++ a_place ++ a_font ++ a_shown ++ [("letter", "letter", DString)]%string.
Definition detail_info := a_size ++ a_place ++ a_font ++ a_shown.
Definition detail_grainline := a_place ++ a_shown ++ [("arrows", "arrows", DInt); ("length", "length", DInt)]%string.
Definition detail_node : list (string * string * dkind) := [("object_id", "idObject", DInt); ("type", "type", DString); ("reverse", "reverse", DBool)]%string.
(** Pattern.py 164-183: the tags *)
Definition modeling_tags : list (string * list (string * string * dkind)) :=
  [("point", modeling_point); ("spline", modeling_spline)]%string.
Definition detail_tags : list (string * list (string * string * dkind)) :=
  [("grainline", detail_grainline); ("patternInfo", detail_info); ("data", detail_data)]%string.
Fixpoint class_of (l : list (string * list (string * string * dkind))) (e : xml) : result (list (string * string * dkind)) :=
  match l with
  | [] => Raise KeyError
  | (t, c) :: l => if tag_is (lit t) e then Ok c else class_of l e
  end.

Section ValFile.
Variable float : Type.
Variable float_str : float -> text.
Variable float_parse : text -> result float.
Variable db : database.
Variable black : color.
Variable parse : text -> expr.
Notation state := (state float).

(** The file system: whether there is a file, the path beside the pattern, the measurements of a .vit file
    and the values of these measurements (Calculator.py 99-101) *)
Variable vit : Type.
Variable exists_file : text -> bool.
Variable beside : text -> text.
Variable load : text -> result vit.
Variable values : vit -> result (list (string * Rdefinitions.R)).

(** Objectivity.py 134-204, 271-280: reading the attributes of an object: None when there is no attribute *)
Inductive dval := DVInt (z : Z) | DVFloat (x : float) | DVBool (b : bool) | DVText (t : text).
Definition read_value (k : dkind) (t : text) : result dval :=
  match k with
  | DInt => z <- int_parse t ;; Ok (DVInt z)
  | DFloat => x <- float_parse t ;; Ok (DVFloat x)
  | DBool =>
      if text_eqb t (lit "true") || text_eqb t (lit "1") then Ok (DVBool true)
      else if text_eqb t (lit "false") || text_eqb t (lit "0") then Ok (DVBool false)
      else Raise ValueError
  | DString => Ok (DVText t)
  end.
Definition item := list (string * option dval).
Fixpoint read_item (c : list (string * string * dkind)) (e : xml) : result item :=
  match c with
  | [] => Ok []
  | (py, name, k) :: c =>
      v <- match lookup (attributes e) (lit name) with Some t => v <- read_value k t ;; Ok (Some v) | None => Ok None end ;;
      i <- read_item c e ;; Ok ((py, v) :: i)
  end.
(** An integer attribute, as a key of a dict *)
Fixpoint key_of (name : string) (i : item) : option Z :=
  match i with
  | [] => None
  | (py, v) :: i => if String.eqb py name then (match v with Some (DVInt z) => Some z | _ => None end) else key_of name i
  end.
(** Pattern.py 59-76: Modeling, a dict with the newest first *)
Definition modeling := list (option Z * item).
Definition key_eqb (a b : option Z) : bool :=
  match a, b with Some x, Some y => Z.eqb x y | None, None => true | _, _ => false end.
Fixpoint get_item (m : modeling) (k : option Z) : result item :=
  match m with
  | [] => Raise KeyError
  | (k', i) :: m => if key_eqb k k' then Ok i else get_item m k
  end.
(** 88-94: from_xml; 318-322: the items of the modeling *)
Definition from_xml (l : list (string * list (string * string * dkind))) (e : xml) : result item :=
  c <- class_of l e ;; read_item c e.
Fixpoint read_modeling (l : list xml) (m : modeling) : result modeling :=
  match l with
  | [] => Ok m
  | e :: l => i <- from_xml modeling_tags e ;; read_modeling l ((key_of "id" i, i) :: m)
  end.
(** 335-343: the children of a detail: the nodes are kept, the other ones are read and left *)
Fixpoint read_parts (l : list xml) (nodes : list item) : result (list item) :=
  match l with
  | [] => Ok nodes
  | e :: l =>
      if tag_is (lit "nodes") e then n <- traverse (read_item detail_node) (children e) ;; read_parts l (nodes ++ n)
      else _ <- from_xml detail_tags e ;; read_parts l nodes
  end.
(** SketchOperation.py 434-711, 779-780: the operation is printed with the names of its points; 629-632: the one of a
    center is printed itself, hence the names of its points: a center is a point, as the sketch was evaluated *)
Definition print_operation (st : state) (i : nat) : result unit :=
  match nth_error (ops (st_sketch _ st)) i with
  | Some o =>
      if forallb (fun r => match nth_error (ops (st_sketch _ st)) r with Some p => is_point (o_kind p) | None => false end) (o_refs o)
      then Ok tt else Raise AttributeError
  | None => Raise KeyError
  end.
(** 345-347, VitFormat.py 810-812: the nodes of the detail; the id None is not in the dict of the operations *)
Definition find_node (st : state) (m : modeling) (node : item) : result unit :=
  i <- get_item m (key_of "object_id" node) ;;
  match key_of "object_id" i with
  | Some z => j <- get_operation (st_sketch _ st) (KeyId z) ;; print_operation st j
  | None => Raise KeyError
  end.
(** 331-347: read_detail *)
Definition read_detail (st : state) (m : modeling) (e : xml) : result unit :=
  _ <- read_item detail e ;;
  nodes <- read_parts (children e) [] ;;
  _ <- traverse (find_node st m) nodes ;;
  Ok tt.

(** ** Reading *)
(** Pattern.py (package Pattern) 39-78: a pattern: its unit and its scopes, each with its name and its sketch *)
Record pattern := Pattern { p_unit : option text; p_scopes : list (option text * state) }.

(** 309-315: the calculations; a comment has no class *)
Fixpoint read_calculations (l : list xml) (st : state) : result unit * state :=
  match l with
  | [] => (Ok tt, st)
  | Node t a _ _ :: l =>
      match read float float_str float_parse db black parse (Element t a) st with
      | (Ok _, st) => read_calculations l st
      | (Raise x, st) => (Raise x, st)
      end
  | Comment _ :: _ => (Raise KeyError, st)
  end.
(** 302-326: read_piece, with the value of the counter of ids before and after *)
Definition read_draw (measurements : option vit) (piece : xml) (c : Z) : result (option text * state) * Z :=
  match
    (name <- match lookup (attributes piece) (lit "name") with Some n => Ok n | None => Raise KeyError end ;;
     m <- match measurements with Some v => values v | None => Ok [] end ;;
     l <- iterate (first_element piece "calculation") ;;
     Ok (name, m, l))
  with
  | Raise x => (Raise x, c)
  | Ok (name, m, l) =>
      match read_calculations l (empty float c m) with
      | (Raise x, st) => (Raise x, counter (st_sketch _ st))
      | (Ok _, st) =>
          let (r, s) := ModelSketch.eval_sketch (st_sketch _ st) in
          let st := State _ s (st_extra _ st) in
          (_ <- r ;;
           l <- iterate (first_element piece "modeling") ;;
           m <- read_modeling l [] ;;
           l <- iterate (first_element piece "details") ;;
           _ <- traverse (read_detail st m) l ;;
           Ok (Some name, st), counter (st_sketch _ st))
      end
  end.
Fixpoint read_draws (measurements : option vit) (l : list xml) (c : Z) : result (list (option text * state)) * Z :=
  match l with
  | [] => (Ok [], c)
  | piece :: l =>
      match read_draw measurements piece c with
      | (Raise x, c) => (Raise x, c)
      | (Ok s, c) =>
          match read_draws measurements l c with
          | (Raise x, c) => (Raise x, c)
          | (Ok t, c) => (Ok (s :: t), c)
          end
      end
  end.
(** 267-278: read_measurements *)
Definition read_measurements (root : xml) : result (option vit) :=
  match first_element root "measurements" with
  | None => Raise AttributeError
  | Some e =>
      match body e with
      | None => Ok None
      | Some path =>
          let path := if exists_file path then path else beside path in
          if exists_file path then v <- load path ;; Ok (Some v) else Raise NameError
      end
  end.
(** 223-263, 282-298: read, read_attributes; the optional attributes are not used *)
Definition read_file (root : xml) (c : Z) : result (option vit * pattern) * Z :=
  match
    (_ <- match text_element root "unit" with Some _ => Ok tt | None => Raise NameError end ;; read_measurements root)
  with
  | Raise x => (Raise x, c)
  | Ok v =>
      match read_draws v (elements root "draw") c with
      | (Raise x, c) => (Raise x, c)
      | (Ok scopes, c) => (Ok (v, Pattern (text_element root "unit") scopes), c)
      end
  end.

(** ** Writing *)
(** lxml refuses control characters; None is no text, but not an attribute *)
Definition checked (t : text) : result text := if forallb xml_char t then Ok t else Raise ValueError.
Definition checked_body (t : option text) : result (option text) :=
  match t with Some t => t <- checked t ;; Ok (Some t) | None => Ok None end.
(** 410-422: the element of a scope *)
Definition write_draw (s : option text * state) : result xml :=
  name <- match fst s with Some n => checked n | None => Raise TypeError end ;;
  l <- write_all float float_str float_parse db (snd s) ;;
  Ok (Node (lit "draw") [(lit "name", name)] None
    [Node (lit "calculation") [] None (map (fun e => Node (e_tag e) (e_attrib e) None []) l);
     Node (lit "modeling") [] None []; Node (lit "details") [] None []]).
(** 395-424: _build_xml_tree; the path of the .vit file is given *)
Definition write_file (path : option text) (p : pattern) : result xml :=
  unit <- checked_body (p_unit p) ;;
  path <- checked_body path ;;
  l <- traverse write_draw (p_scopes p) ;;
  Ok (Node (lit "pattern") [] None
    ([Comment (lit "Pattern created with Patro (https://github.com/FabriceSalvaire/Patro)");
      Node (lit "version") [] (Some (lit "0.7.10")) [];
      Node (lit "unit") [] unit [];
      Node (lit "author") [] None [];
      Node (lit "description") [] None [];
      Node (lit "notes") [] None [];
      Node (lit "measurements") [] path [];
      Node (lit "increments") [] None []] ++ l)).
End ValFile.
