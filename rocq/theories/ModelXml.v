(** Model of Patro/Common/Xml/Objectivity.py: the attributes of XML elements and the objects made of
    them.  Texts are lists of Latin-1 characters.  The floating point numbers, their reading and
    their writing are parameters. *)
From Coq Require Import String Ascii List Bool Arith ZArith NArith.
From Verif Require Import Base ModelFormula ModelMeasure.
Import ListNotations.
Local Open Scope result_scope.

(** ** str and int on integers *)
Definition digit (n : N) : ascii := ascii_of_N (48 + n).
Fixpoint digits (fuel : nat) (n : N) : text :=
  match fuel with
  | 0 => []
  | S fuel => if (n <? 10)%N then [digit n] else digits fuel (n / 10) ++ [digit (n mod 10)]
  end.
Definition nat_str (n : N) : text := digits (S (N.size_nat n)) n.
Definition int_str (z : Z) : text :=
  match z with
  | Z0 => lit "0"
  | Zpos p => nat_str (Npos p)
  | Zneg p => lit "-" ++ nat_str (Npos p)
  end.
(** int of a text: spaces around, a sign, digits which may be separated by single scores.  Not
    modelled: the digits of other alphabets than Latin, which are not Latin-1 characters. *)
Definition is_space (c : ascii) : bool :=
  let n := nat_of_ascii c in
  ((9 <=? n) && (n <=? 13)) || ((28 <=? n) && (n <=? 32)) || (n =? 133) || (n =? 160).
Fixpoint lstrip (s : text) : text := match s with [] => [] | c :: s' => if is_space c then lstrip s' else s end.
Definition strip (s : text) : text := rev (lstrip (rev (lstrip s))).
Definition digit_value (c : ascii) : option N :=
  let n := N_of_ascii c in if ((48 <=? n) && (n <=? 57))%N then Some (n - 48)%N else None.
Fixpoint read_digits (acc : N) (s : text) : option N :=
  match s with
  | [] => Some acc
  | c :: s =>
      match digit_value c with
      | Some d => read_digits (10 * acc + d) s
      | None =>
          if Ascii.eqb c "_"%char then
            match s with
            | [] => None
            | c :: s => match digit_value c with Some d => read_digits (10 * acc + d) s | None => None end
            end
          else None
      end
  end.
Definition read_nat (s : text) : option N :=
  match s with [] => None | c :: s => match digit_value c with Some d => read_digits d s | None => None end end.
Definition int_parse (s : text) : result Z :=
  match
    match strip s with
    | c :: s' =>
        if Ascii.eqb c "-"%char then option_map (fun n => (- Z.of_N n)%Z) (read_nat s')
        else if Ascii.eqb c "+"%char then option_map Z.of_N (read_nat s')
        else option_map Z.of_N (read_nat (c :: s'))
    | [] => None
    end
  with Some z => Ok z | None => Raise ValueError end.

Section Xml.
Variable float : Type.
Variable float_str : float -> text.
Variable float_parse : text -> result float.
Variable float_of_int : Z -> result float.
Variable int_of_float : float -> result Z.
Variable float_truth : float -> bool.

(** The python values of the attributes *)
Inductive value := VNone | VBool (b : bool) | VInt (z : Z) | VFloat (x : float) | VList (l : list float) | VStr (s : text).

(** str *)
Definition py_str (v : value) : text :=
  match v with
  | VNone => lit "None"
  | VBool b => if b then lit "True" else lit "False"
  | VInt z => int_str z
  | VFloat x => float_str x
  | VList l => lit "[" ++ join (lit ", ") (map float_str l) ++ lit "]"
  | VStr s => s
  end.
Definition truth (v : value) : bool :=
  match v with
  | VNone => false
  | VBool b => b
  | VInt z => negb (z =? 0)%Z
  | VFloat x => float_truth x
  | VList l => match l with [] => false | _ => true end
  | VStr s => match s with [] => false | _ => true end
  end.

(** 129-204: the classes of attributes *)
Inductive kind := KBool | KInt | KFloat | KFloatList | KString.

Definition contains (c : ascii) (s : text) : bool := existsb (Ascii.eqb c) s.
(** 134-139, 155, 165, 175-188, 203: from_xml, on any python value since the constructor by keywords
    uses it too *)
Definition from_xml (k : kind) (v : value) : result value :=
  match k with
  | KBool =>
      match v with
      | VStr s =>
          if text_eqb s (lit "true") || text_eqb s (lit "1") then Ok (VBool true)
          else if text_eqb s (lit "false") || text_eqb s (lit "0") then Ok (VBool false)
          else Raise ValueError
      | _ => Raise ValueError
      end
  | KInt =>
      match v with
      | VStr s => z <- int_parse s ;; Ok (VInt z)
      | VInt z => Ok (VInt z)
      | VBool b => Ok (VInt (if b then 1 else 0))
      | VFloat x => z <- int_of_float x ;; Ok (VInt z)
      | VNone | VList _ => Raise TypeError
      end
  | KFloat =>
      match v with
      | VStr s => x <- float_parse s ;; Ok (VFloat x)
      | VInt z => x <- float_of_int z ;; Ok (VFloat x)
      | VBool b => x <- float_of_int (if b then 1 else 0) ;; Ok (VFloat x)
      | VFloat x => Ok (VFloat x)
      | VNone | VList _ => Raise TypeError
      end
  | KFloatList =>
      match v with
      | VNone => Ok VNone
      | VList l => Ok (VList l)
      | VStr s =>
          if text_eqb s (lit "none") then Ok VNone
          else if contains " "%char s then l <- traverse float_parse (split " "%char s) ;; Ok (VList l)
          else if contains ","%char s then l <- traverse float_parse (split ","%char s) ;; Ok (VList l)
          else x <- float_parse s ;; Ok (VList [x])
      | VBool _ | VInt _ | VFloat _ => Raise TypeError
      end
  | KString => Ok (VStr (py_str v))
  end.
(** 98-100, 143-145, 192-194: to_xml *)
Definition to_xml (k : kind) (v : value) : result text :=
  match k with
  | KBool => Ok (if truth v then lit "true" else lit "false")
  | KFloatList =>
      match v with
      | VList l => Ok (join (lit " ") (map float_str l))
      | VStr s => Ok (join (lit " ") (map (fun c => [c]) s))
      | _ => Raise TypeError
      end
  | _ => Ok (py_str v)
  end.

(** 51-64: an attribute *)
Record attribute := { a_py : text; a_xml : text; a_kind : kind; a_default : value }.
(** The private python attributes of an instance, and the attributes of an element *)
Definition instance := list (text * value).
Definition element := list (text * text).

(** 271-280: _init_from_xml *)
Fixpoint init_from_xml (table : list attribute) (e : element) (i : instance) : result instance :=
  match table with
  | [] => Ok i
  | a :: table =>
      v <- match lookup e (a_xml a) with Some s => from_xml (a_kind a) (VStr s) | None => Ok (a_default a) end ;;
      init_from_xml table e (set_item i (a_py a) v)
  end.
(** 284-294: _init_from_kwargs *)
Fixpoint init_from_kwargs (table : list attribute) (kwargs : list (text * value)) (i : instance) : result instance :=
  match table with
  | [] => Ok i
  | a :: table =>
      v <- match lookup kwargs (a_py a) with Some v => from_xml (a_kind a) v | None => Ok (a_default a) end ;;
      init_from_kwargs table kwargs (set_item i (a_py a) v)
  end.
(** 115-117: get_attribute *)
Definition get_attribute (i : instance) (a : attribute) : result value :=
  match lookup i (a_py a) with Some v => Ok v | None => Raise AttributeError end.
(** 121-123: set_attribute, and the setter of the property 104-111 *)
Definition set_attribute (i : instance) (py : text) (v : value) : instance := set_item i py v.
(** lxml refuses the control characters in the values *)
Definition xml_char (c : ascii) : bool := let n := nat_of_ascii c in (32 <=? n) || (n =? 9) || (n =? 10) || (n =? 13).
Definition check_element (e : element) : result element :=
  if forallb (fun p => forallb xml_char (snd p)) e then Ok e else Raise ValueError.
(** 318-331: to_xml, without additional attributes; the element is kept in memory *)
Fixpoint attributes_of (table : list attribute) (i : instance) (e : element) : result element :=
  match table with
  | [] => Ok e
  | a :: table =>
      v <- get_attribute i a ;;
      match v with
      | VNone => attributes_of table i e
      | _ => s <- to_xml (a_kind a) v ;; attributes_of table i (set_item e (a_xml a) s)
      end
  end.
Definition object_to_xml (table : list attribute) (i : instance) : result element :=
  e <- attributes_of table i [] ;; check_element e.
Definition read_object (table : list attribute) (e : element) : result instance := init_from_xml table e [].

(** 346-371: the objects with a text: the attributes, the text of the element *)
Definition read_text_object (table : list attribute) (e : element) (element_text : text) : result (instance * text) :=
  i <- init_from_xml table e [] ;;
  (* 363: _init_from_xml, then 356: the constructor *)
  let t := element_text in
  let t := lit "" in
  Ok (i, t).
Definition text_object_to_xml (table : list attribute) (i : instance) (t : text) : result (element * text) :=
  e <- object_to_xml table i ;;
  if forallb xml_char t then Ok (e, t) else Raise ValueError.

(** 208-244: the metaclass.  A class: its own attributes, its bases, the classes of its __mro__ but
    itself and object; a plain class is not made by the metaclass and keeps its own table. *)
Inductive cls := Class (plain : bool) (own : list attribute) (bases mro : list cls).
(** 232-244: register_from_super_class, for one class; the own attributes are the value of
    __attributes__ in the class statement *)
Fixpoint register (c : cls) : list attribute :=
  match c with
  | Class plain own bases mro => flat_map register mro ++ (if plain then own else flat_map register bases ++ own)
  end.
(** 216-228: __attributes__ after the creation of the class *)
Definition table_of (c : cls) : list attribute :=
  match c with Class plain own bases _ => if plain then own else flat_map register bases ++ own end.
End Xml.
