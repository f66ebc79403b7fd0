(** Model of Patro/GraphicStyle/Color/ColorDataBase.py and of Color/__init__.py, with the IEEE 754
    double precision numbers of Flocq. *)
From Coq Require Import String Ascii List Bool Arith ZArith NArith.
From Flocq Require Import Core BinarySingleNaN.
From Verif Require Import Base ModelFormula ModelMeasure ModelXml.
Import ListNotations.
Local Open Scope result_scope.

(** ** Python floats *)
Definition prec_ok : FLX.Prec_gt_0 53 := eq_refl.
Definition emax_ok : Prec_lt_emax 53 1024 := eq_refl.
Definition float := binary_float 53 1024.
Definition of_int (z : Z) : float := binary_normalize 53 1024 prec_ok emax_ok mode_NE z 0 false.
Definition fmul (x y : float) : float := @Bmult 53 1024 prec_ok emax_ok mode_NE x y.
Definition fdiv (x y : float) : float := @Bdiv 53 1024 prec_ok emax_ok mode_NE x y.
(** int of a float *)
Definition int_of (x : float) : result Z :=
  match x with
  | B754_nan => Raise ValueError
  | B754_infinity _ => Raise OverflowError
  | _ => Ok (Btrunc x)
  end.

(** ** Hexadecimal numbers *)
Definition hex_digit (n : N) : ascii := if (n <? 10)%N then ascii_of_N (48 + n) else ascii_of_N (87 + n).
Fixpoint hex_digits (fuel : nat) (n : N) : text :=
  match fuel with
  | 0 => []
  | S fuel => if (n <? 16)%N then [hex_digit n] else hex_digits fuel (n / 16) ++ [hex_digit (n mod 16)]
  end.
Definition hex (n : N) : text := hex_digits (S (N.size_nat n)) n.
(** '{:02x}' *)
Definition hex2 (z : Z) : text :=
  let h := hex (Z.abs_N z) in
  let sign := if (z <? 0)%Z then lit "-" else [] in
  sign ++ repeat "0"%char (2 - length (sign ++ h)) ++ h.
(** int(x, 16): spaces around, a sign, digits which may be separated by single scores.  The prefix 0x
    is not modelled: the texts read here have two characters at most. *)
Definition hex_value (c : ascii) : option N :=
  let n := N_of_ascii c in
  if ((48 <=? n) && (n <=? 57))%N then Some (n - 48)%N
  else if ((97 <=? n) && (n <=? 102))%N then Some (n - 87)%N
  else if ((65 <=? n) && (n <=? 70))%N then Some (n - 55)%N
  else None.
Fixpoint read_hex (acc : N) (s : text) : option N :=
  match s with
  | [] => Some acc
  | c :: s =>
      match hex_value c with
      | Some d => read_hex (16 * acc + d) s
      | None =>
          if Ascii.eqb c "_"%char then
            match s with
            | [] => None
            | c :: s => match hex_value c with Some d => read_hex (16 * acc + d) s | None => None end
            end
          else None
      end
  end.
Definition read_hex1 (s : text) : option N :=
  match s with [] => None | c :: s => match hex_value c with Some d => read_hex d s | None => None end end.
Definition int16 (s : text) : result Z :=
  match
    match strip s with
    | c :: s' =>
        if Ascii.eqb c "-"%char then option_map (fun n => (- Z.of_N n)%Z) (read_hex1 s')
        else if Ascii.eqb c "+"%char then option_map Z.of_N (read_hex1 s')
        else option_map Z.of_N (read_hex1 (c :: s'))
    | [] => None
    end
  with Some z => Ok z | None => Raise ValueError end.

(** ** Colours *)
(** The components; the int 0 of line 80 is taken as the float 0 *)
Record color := Color { c_red : float; c_green : float; c_blue : float; c_name : option text }.
(** 117-123: _to_int, _to_float *)
Definition to_int (x : float) : result Z := int_of (fmul x (of_int 255)).
Definition to_float (z : Z) : float := fdiv (of_int z) (of_int 255).
(** 147-179: the components as integers *)
Definition red (c : color) : result Z := to_int (c_red c).
Definition green (c : color) : result Z := to_int (c_green c).
Definition blue (c : color) : result Z := to_int (c_blue c).
(** 57, 107-108: __str__ *)
Definition color_str (c : color) : result text :=
  r <- red c ;; g <- green c ;; b <- blue c ;; Ok (lit "#" ++ hex2 r ++ hex2 g ++ hex2 b).

(** What is given to the constructor: an int (or a bool), a float, a text, a colour, something else
    whose text does not start with # *)
Inductive argument := AInt (z : Z) | AFloat (x : float) | AText (s : text) | AColor (c : color) | AOther.
(** 127-136: _check_value *)
Definition check_value (a : argument) : result float :=
  match a with
  | AInt z => if ((0 <=? z) && (z <=? 255))%Z then Ok (to_float z) else Raise ValueError
  | AFloat x => if Bleb (B754_zero false) x && Bleb x (of_int 1) then Ok x else Raise ValueError
  | _ => Raise ValueError
  end.
(** 69-76: the text of a colour.  Line 65, isinstance(str, Color), is always false: a colour is read
    from its text. *)
Definition read_color (s : text) (name : option text) : result color :=
  match s with
  | c :: rgb =>
      if Ascii.eqb c "#"%char then
        r <- int16 (firstn 2 rgb) ;;
        g <- int16 (firstn 2 (skipn 2 rgb)) ;;
        b <- int16 (skipn (length rgb - 2) rgb) ;;
        Ok (Color (to_float r) (to_float g) (to_float b) name)
      else Raise ValueError
  | [] => Raise ValueError
  end.
(** 61-80, 94-98: the constructor, without hue *)
Definition new_color (args : list argument) (name : option text) : result color :=
  match args with
  | [AText s] => read_color s name
  | [AColor c] => s <- color_str c ;; read_color s name
  | [_] => Raise ValueError
  | [r; g; b] => r <- check_value r ;; g <- check_value g ;; b <- check_value b ;; Ok (Color r g b name)
  | _ => Ok (Color (of_int 0) (of_int 0) (of_int 0) name)
  end.
(** 102-103: clone *)
Definition clone (c : color) : result color := new_color [AFloat (c_red c); AFloat (c_green c); AFloat (c_blue c)] (c_name c).
(** 151-183: the setters *)
Definition set_red (c : color) (a : argument) : result color := x <- check_value a ;; Ok (Color x (c_green c) (c_blue c) (c_name c)).
Definition set_green (c : color) (a : argument) : result color := x <- check_value a ;; Ok (Color (c_red c) x (c_blue c) (c_name c)).
Definition set_blue (c : color) (a : argument) : result color := x <- check_value a ;; Ok (Color (c_red c) (c_green c) x (c_name c)).
(** 199-200: __eq__ of two colours *)
Definition color_eq (c d : color) : result bool := s <- color_str c ;; t <- color_str d ;; Ok (text_eqb s t).

(** ** The data base, 204-270 *)
Definition database := list (text * color).
Definition add (db : database) (name : text) (c : color) : database := set_item db name c.
Definition getitem (db : database) (name : text) : result color :=
  match lookup db name with Some c => Ok c | None => Raise KeyError end.
(** 253-266: ensure_color, on None, a colour, a text or something else *)
Definition ensure_color (db : database) (a : option argument) : result (option color) :=
  match a with
  | None => Ok None
  | Some (AColor c) => Ok (Some c)
  | Some (AText s) =>
      if starts (lit "#") s then c <- new_color [AText s] None ;; Ok (Some c)
      else c <- getitem db s ;; Ok (Some c)
  | Some _ => Raise ValueError
  end.
(** Color/__init__.py 45-55: the names and texts of the colour sets are added, the first one wins *)
Fixpoint fill (db : database) (l : list (text * text)) : result database :=
  match l with
  | [] => Ok db
  | (name, value) :: l =>
      let name := replace (lit " ") (lit "_") name in
      c <- new_color [AText value] (Some name) ;;
      match lookup db name with
      | Some d => same <- color_eq c d ;; fill (if same then add db name c else db) l
      | None => fill (add db name c) l
      end
  end.
