(** Model of the YAML files: Patro/Measurement/Measurement.py 222-252 (save_as_yaml, load_yaml), Patro/Measurement/StandardMeasurement.py,
    Patro/Measurement/ValentinaStandardMeasurement.py and Patro/TextileTechnology (Database.py, Fiber.py, StitchType.py, Fabric.py, Seam.py,
    SewingMachine.py).  The reading and the writing of the text of a YAML file are left to the library: what is modelled starts from, or
    ends with, the value.  The booleans and the dates of YAML are not modelled. *)
From Coq Require Import String Ascii List Bool Arith ZArith.
From Verif Require Import Base ModelFormula ModelMeasure.
From Verif Require ModelXml.
Import ModelXml(int_str).
Import ListNotations.
Local Open Scope result_scope.

(** A key of a dictionary *)
Inductive ykey := KText (t : text) | KInt (z : Z) | KNull.
Definition key_eqb (a b : ykey) : bool :=
  match a, b with
  | KText s, KText t => text_eqb s t
  | KInt m, KInt n => Z.eqb m n
  | KNull, KNull => true
  | _, _ => false
  end.

Section Values.
(** int or float *)
Variable number : Type.
Inductive yaml := YNull | YNum (x : number) | YText (t : text) | YList (l : list yaml) | YMap (l : list (ykey * yaml)).

Fixpoint find_key (l : list (ykey * yaml)) (k : ykey) : option yaml :=
  match l with
  | [] => None
  | (k', v) :: l => if key_eqb k' k then Some v else find_key l k
  end.
(** v[k], for a key which is a text *)
Definition item (v : yaml) (k : string) : result yaml :=
  match v with
  | YMap l => match find_key l (KText (lit k)) with Some x => Ok x | None => Raise KeyError end
  | _ => Raise TypeError
  end.
(** v.items(); v.values() *)
Definition items (v : yaml) : result (list (ykey * yaml)) := match v with YMap l => Ok l | _ => Raise AttributeError end.
Definition values (v : yaml) : result (list yaml) := match v with YMap l => Ok (map snd l) | _ => Raise AttributeError end.
(** v.get(k, None) *)
Definition get_or_none (v : yaml) (k : string) : result yaml :=
  match v with
  | YMap l => Ok (match find_key l (KText (lit k)) with Some x => x | None => YNull end)
  | _ => Raise AttributeError
  end.

(** The conversion of an int, which is the key of a dictionary, to a number; str() of a number, of a list and of a dictionary *)
Variable of_int : Z -> number.
Variable other_str : yaml -> text.
Definition key_value (k : ykey) : yaml := match k with KText t => YText t | KInt z => YNum (of_int z) | KNull => YNull end.
Definition str_of (v : yaml) : text := match v with YText t => t | YNull => lit "None" | _ => other_str v end.
Definition key_str (k : ykey) : text := match k with KText t => t | KInt z => int_str z | KNull => lit "None" end.
(** The elements of an iterable: the characters of a text, the keys of a dictionary *)
Definition elements (v : yaml) : result (list yaml) :=
  match v with
  | YList l => Ok l
  | YText t => Ok (map (fun c => YText [c]) t)
  | YMap l => Ok (map (fun kv => key_value (fst kv)) l)
  | YNull | YNum _ => Raise TypeError
  end.
(** v[0] *)
Definition first (v : yaml) : result yaml :=
  match v with
  | YList (x :: _) => Ok x
  | YText (c :: _) => Ok (YText [c])
  | YList [] | YText [] => Raise IndexError
  | YMap l => match find_key l (KInt 0) with Some x => Ok x | None => Raise KeyError end
  | YNull | YNum _ => Raise TypeError
  end.

(** ** Measurement.py *)
(** sympy expressions; isinstance(expression, sympy.Integer) or sympy.Float, with int() or float() of it; str() *)
Variable sympy : Type.
Variable sympify : text -> result sympy.
Variable as_number : sympy -> option number.
Variable sympy_str : sympy -> text.
Variable number_str : number -> text.
Variable float : number -> number.

(** 46-65: the expression of a measurement is the int or the float which was given, or the sympy expression of a text *)
Inductive expression := Python (x : number) | Sympy (e : sympy).
Definition read_expression (t : text) : result expression := e <- sympify t ;; Ok (Sympy e).
Notation measurement := (measurement number expression).
Notation measurements := (measurements number expression).
Notation add := (add number expression read_expression Python float).

(** sorted(), on texts: the order of the code points *)
Fixpoint text_leb (a b : text) : bool :=
  match a, b with
  | [], _ => true
  | _ :: _, [] => false
  | x :: a, y :: b => let m := nat_of_ascii x in let n := nat_of_ascii y in if m =? n then text_leb a b else m <? n
  end.
Fixpoint insert (m : measurement) (l : list measurement) : list measurement :=
  match l with
  | [] => [m]
  | m' :: l' => if text_leb (m_name _ _ m) (m_name _ _ m') then m :: l else m' :: insert m l'
  end.
(** 183-185: sorted_iter *)
Definition sorted_iter (s : measurements) : list measurement := fold_right insert [] (iter _ _ s).

(** 226-232: a python number is neither a sympy.Integer nor a sympy.Float *)
Definition saved_expression (e : expression) : yaml :=
  match e with
  | Python x => YText (number_str x)
  | Sympy e => match as_number e with Some x => YNum x | None => YText (sympy_str e) end
  end.
Definition is_empty (t : text) : bool := match t with [] => true | _ => false end.
(** 233-236 *)
Definition saved_entry (m : measurement) : ykey * yaml :=
  (KText (m_name _ _ m),
   YList (saved_expression (m_expression _ _ m) ::
          if negb (is_empty (m_full_name _ _ m)) || negb (is_empty (m_description _ _ m))
          then [YText (m_full_name _ _ m); YText (m_description _ _ m)] else [])).
Definition saved_data (s : measurements) : yaml := YMap (map saved_entry (sorted_iter s)).

(** codecs.lookup: some of the names which Python knows *)
Definition codec (name : string) : result unit :=
  if existsb (String.eqb name) ["utf8"; "utf-8"; "U8"; "UTF"; "ascii"; "latin-1"; "latin1"; "iso-8859-1"; "cp1252"; "utf-16"; "utf-32"]%string
  then Ok tt else Raise LookupError.

(** yaml.dump; yaml.load *)
Variable dump : yaml -> text.
Variable load : text -> result yaml.

(** 222-239: save_as_yaml: what the file contains next, and how the call ends.  open() with 'w' empties the file, then looks for the codec. *)
Definition save_as_yaml (s : measurements) : text * result unit :=
  let data := saved_data s in
  match codec "uft8" with
  | Raise e => ([], Raise e)
  | Ok _ => (dump data, Ok tt)
  end.

(** 49, 58-65: the value which is given to the constructor *)
Definition as_value (v : yaml) : value number := match v with YNum x => Number _ x | _ => Text _ (str_of v) end.
(** 247-251: len(), the unpacking of three values *)
Definition fields (data : yaml) : result (yaml * yaml * yaml) :=
  l <- elements data ;;
  if 1 <? length l then match l with [v; f; d] => Ok (v, f, d) | _ => Raise ValueError end
  else v <- first data ;; Ok (v, YText [], YText []).
(** 246-252 *)
Fixpoint load_items (s : measurements) (l : list (ykey * yaml)) : measurements * result unit :=
  match l with
  | [] => (s, Ok tt)
  | (name, data) :: l =>
      match fields data with
      | Raise e => (s, Raise e)
      | Ok (v, f, d) =>
          match add s (key_str name) (as_value v) (str_of f) (str_of d) with
          | (s, Raise e) => (s, Raise e)
          | (s, Ok _) => load_items s l
          end
      end
  end.
Definition load_data (s : measurements) (data : yaml) : measurements * result unit :=
  match items data with Raise e => (s, Raise e) | Ok l => load_items s l end.
(** 243-252: load_yaml, of a file which exists *)
Definition load_yaml (s : measurements) (content : text) : measurements * result unit :=
  match codec "uft8" with
  | Raise e => (s, Raise e)
  | Ok _ => match load content with Raise e => (s, Raise e) | Ok data => load_data s data end
  end.
End Values.

Arguments YNull {number}. Arguments YNum {number} x. Arguments YText {number} t. Arguments YList {number} l. Arguments YMap {number} l.
Arguments item {number} v k. Arguments items {number} v. Arguments values {number} v. Arguments get_or_none {number} v k.
Arguments find_key {number} l k. Arguments Python {number sympy} x. Arguments Sympy {number sympy} e.

(** ** The tables: they contain no floating-point number *)
Notation yvalue := (yaml Z).
Definition to_key (v : yvalue) : option ykey :=
  match v with YText t => Some (KText t) | YNum z => Some (KInt z) | YNull => Some KNull | _ => None end.

(** *** StandardMeasurement.py 33-37, ValentinaStandardMeasurement.py 35-38: the attributes are kept as they are given *)
Record standard := Standard { sd_code : ykey; sd_name : yvalue; sd_full_name : yvalue; sd_description : yvalue; sd_default : yvalue }.
(** 78-83: the dictionary, in the order of insertion *)
Definition table := list (ykey * standard).
Fixpoint table_find (t : table) (k : ykey) : option standard :=
  match t with [] => None | (k', m) :: t => if key_eqb k' k then Some m else table_find t k end.
(** 87-88, 92-93, 97-98, 102-103: __len__, __iter__, __getitem__, __contains__ *)
Definition table_len (t : table) : nat := length t.
Definition table_iter (t : table) : list standard := map snd t.
Definition table_get (t : table) (k : ykey) : result standard := match table_find t k with Some m => Ok m | None => Raise KeyError end.
Definition table_contains (t : table) (k : ykey) : bool := match table_find t k with Some _ => true | None => false end.
(** 107-111: add; a list or a dictionary is not hashable *)
Definition table_add (t : table) (m : standard) : result table :=
  match to_key (sd_name m) with
  | None => Raise TypeError
  | Some k => if table_contains t k then Raise NameError else Ok (t ++ [(k, m)])
  end.
(** ValentinaStandardMeasurement.py 64: ValentinaMeasurement(code, *measurement_data) *)
Definition new_standard (code : ykey) (data : yvalue) : result standard :=
  l <- elements Z (fun z => z) data ;;
  match l with [n; f; d; v] => Ok (Standard code n f d v) | _ => Raise TypeError end.
(** 63-65 *)
Fixpoint load_topic (t : table) (l : list (ykey * yvalue)) : result table :=
  match l with
  | [] => Ok t
  | (code, data) :: l => m <- new_standard code data ;; t <- table_add t m ;; load_topic t l
  end.
Fixpoint load_topics (t : table) (l : list yvalue) : result table :=
  match l with
  | [] => Ok t
  | topic :: l => ms <- item topic "measurements" ;; ms <- items ms ;; t <- load_topic t ms ;; load_topics t l
  end.
(** 55-65: __init__, from the value of the file *)
Definition new_table (data : yvalue) : result table := topics <- values data ;; load_topics [] topics.

(** *** Fiber.py 30-36 *)
Inductive fiber_type := Animal | Natural | Plant | Synthetic.
(** str() of a member *)
Definition fiber_type_str (t : fiber_type) : text :=
  lit match t with Animal => "FiberType.Animal" | Natural => "FiberType.Natural" | Plant => "FiberType.Plant" | Synthetic => "FiberType.Synthetic" end.
(** 46-51: the name, the type, str(source_type), str(source) *)
Record fiber := Fiber { fb_name : text; fb_type : fiber_type; fb_source_type : text; fb_source : text }.
Section Textile.
(** str() of a number, of a list and of a dictionary; int() and float() of a value *)
Variable other_str : yvalue -> text.
Variable to_int : yvalue -> result Z.
Variable to_float : yvalue -> result unit.
Notation str_of := (str_of Z other_str).

(** Database.py 37-38, 42-49 *)
Definition database := list (text * fiber).
Definition db_get (db : database) (name : text) : result fiber := match lookup db name with Some f => Ok f | None => Raise KeyError end.
Definition db_iter (db : database) : list fiber := map snd db.
(** 53-55: add *)
Definition db_add (db : database) (f : fiber) : database :=
  match lookup db (fb_name f) with Some _ => db | None => set_item db (fb_name f) f end.
(** Fiber.py 84-87, 91-92: the loops; what was added stays when an item is refused *)
Fixpoint db_add_all (make : ykey -> yvalue -> result fiber) (db : database) (l : list (ykey * yvalue)) : database * result unit :=
  match l with
  | [] => (db, Ok tt)
  | (name, data) :: l =>
      match make name data with
      | Raise e => (db, Raise e)
      | Ok f => db_add_all make (db_add db f) l
      end
  end.
Definition natural (source_type : fiber_type) (name : ykey) (data : yvalue) : result fiber :=
  source <- item data "source" ;; Ok (Fiber (key_str name) Natural (fiber_type_str source_type) (str_of source)).
Definition synthetic (name : ykey) (data : yvalue) : result fiber := Ok (Fiber (key_str name) Synthetic (lit "None") (lit "None")).
Definition section_items (data : yvalue) (name : string) : result (list (ykey * yvalue)) := d <- item data name ;; items d.
Definition then_do (r : database * result unit) (k : database -> database * result unit) : database * result unit :=
  match r with (db, Raise e) => (db, Raise e) | (db, Ok _) => k db end.
Definition add_section make (l : result (list (ykey * yvalue))) (db : database) : database * result unit :=
  match l with Raise e => (db, Raise e) | Ok l => db_add_all make db l end.
(** 79-92: load, from the value of the file *)
Definition load_fibers (db : database) (data : yvalue) : database * result unit :=
  match item data "Natural Fibers" with
  | Raise e => (db, Raise e)
  | Ok n =>
      then_do (add_section (natural Plant) (section_items n "Plant Fibers") db) (fun db =>
      then_do (add_section (natural Animal) (section_items n "Animal Fibers") db) (fun db =>
      add_section synthetic (section_items data "Synthetic Fibers") db))
  end.

(** *** StitchType.py 85-102: load: how the call ends, and the items of the database, which is never written *)
Definition read_stitch (data : yvalue) : result unit :=
  match data with
  | YNull => Ok tt
  | _ =>
      _ <- item data "name" ;;
      _ <- get_or_none data "number_of_needles" ;; _ <- get_or_none data "number_of_threads" ;; _ <- get_or_none data "number_of_loops" ;;
      _ <- get_or_none data "composition" ;; _ <- get_or_none data "astm" ;; Ok tt
  end.
Definition read_class (c : yvalue) : result unit :=
  _ <- item c "name" ;; _ <- item c "description" ;;
  l <- (d <- item c "stitches" ;; items d) ;;
  _ <- traverse (fun kv => read_stitch (snd kv)) l ;; Ok tt.
Record stitch := { st_number : Z; st_name : text; st_needles : Z; st_threads : Z; st_loops : Z }.
Definition load_stitches (db : list (text * stitch)) (data : yvalue) : list (text * stitch) * result unit :=
  (db,
   _ <- item data "introduction" ;;
   classes <- item data "classes" ;; l <- items classes ;;
   _ <- traverse (fun kv => read_class (snd kv)) l ;; Ok tt).
(** 44-52: int() of a missing number raises *)
Definition new_stitch (number name needles threads loops : yvalue) : result stitch :=
  n <- to_int number ;; a <- to_int needles ;; b <- to_int threads ;; c <- to_int loops ;;
  Ok {| st_number := n; st_name := str_of name; st_needles := a; st_threads := b; st_loops := c |}.

(** *** Fabric.py 72-73: FloatPair takes two arguments; 96-104: __init__ *)
Definition kwargs := list (text * yvalue).
Definition required (k : kwargs) (name : string) : result yvalue := match lookup k (lit name) with Some v => Ok v | None => Raise KeyError end.
Definition float_pair (args : list yvalue) : result unit :=
  match args with [x; y] => _ <- to_float x ;; _ <- to_float y ;; Ok tt | _ => Raise TypeError end.
Definition required_pair (k : kwargs) (name : string) : result unit := v <- required k name ;; l <- elements Z (fun z => z) v ;; float_pair l.
Definition required_float (k : kwargs) (name : string) : result unit := v <- required k name ;; to_float v.
Definition new_fabric (k : kwargs) : result unit :=
  _ <- required_pair k "bending" ;; _ <- required_pair k "stretch" ;;
  _ <- required_float k "shear" ;; _ <- required_float k "friction" ;; _ <- required_float k "weight" ;;
  _ <- float_pair [match lookup k (lit "shrinkage") with Some v => v | None => YList [YNum 0%Z; YNum 0%Z] end] ;;
  _ <- required_float k "pressure" ;; Ok tt.

(** *** Seam.py 53-54: str.format with a positional argument only: the field self is looked for among the arguments which have a name *)
Definition seam_name (class type rows : text) : result text :=
  let named : list (text * text) := [] in
  match lookup named (lit "self") with
  | Some _ => Ok (class ++ type ++ lit "-" ++ rows)
  | None => Raise KeyError
  end.

(** *** SewingMachine.py 51-73: __init__: kwargs.get(name, None), then the conversion *)
Definition or_none (k : kwargs) (name : string) : yvalue := match lookup k (lit name) with Some v => v | None => YNull end.
Record machine := {
  sw_name : text; sw_stitches : list yvalue; sw_needles : Z; sw_loopers : Z; sw_length : yvalue; sw_width : yvalue; sw_feed : text }.
Definition new_machine (k : kwargs) : result machine :=
  types <- elements Z (fun z => z) (or_none k "sitche_types") ;;
  needles <- to_int (or_none k "number_of_needles") ;;
  loopers <- to_int (or_none k "number_of_loopers") ;;
  _ <- to_float (or_none k "max_sewing_speed") ;;
  _ <- to_float (or_none k "needle_gauge") ;;
  _ <- to_float (or_none k "overedging_width") ;;
  Ok {| sw_name := str_of (or_none k "name"); sw_stitches := types; sw_needles := needles; sw_loopers := loopers;
        sw_length := or_none k "sitch_length"; sw_width := or_none k "sitch_width"; sw_feed := str_of (or_none k "feed_system") |}.
End Textile.
