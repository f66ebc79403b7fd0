(** Model of PathDataAttribute of Patro/FileFormat/Svg/SvgFormat.py, 875-1072: the path data of SVG.
    Texts are lists of Latin-1 characters. *)
From Coq Require Import String Ascii List Bool Arith ZArith Reals.
From Verif Require Import Base ModelFormula ModelVector ModelPath.
Import ListNotations.
Local Open Scope result_scope.

(** 91-92: split_space_list; 964, 973 *)
Definition split_space_list (s : text) : list text :=
  filter (fun w => match w with [] => false | _ => true end) (split " "%char s).
Definition words (s : text) : list text := split_space_list (replace (lit ",") (lit " ") s).

(** str.isalpha and str.lower on a character.  The letters out of ASCII are left as they are by
    [lower], none of them is a command. *)
Definition is_alpha (c : ascii) : bool :=
  let n := nat_of_ascii c in
  ((65 <=? n) && (n <=? 90)) || ((97 <=? n) && (n <=? 122)) || existsb (Nat.eqb n) [170; 181; 186] ||
  ((192 <=? n) && (n <=? 255) && negb (n =? 215) && negb (n =? 247)).
Definition is_upper (c : ascii) : bool := let n := nat_of_ascii c in (65 <=? n) && (n <=? 90).
Definition lower (c : ascii) : ascii := if is_upper c then ascii_of_nat (nat_of_ascii c + 32) else c.

(** 939-950: NUMBER_OF_ARGS *)
Definition NUMBER_OF_ARGS : list (ascii * nat) :=
  [("m", 2); ("l", 2); ("h", 1); ("v", 1); ("c", 6); ("s", 4); ("q", 4); ("t", 3); ("a", 7); ("z", 0)]%char.
Definition number_of_args (c : ascii) : option nat :=
  option_map snd (List.find (fun p => Ascii.eqb (fst p) c) NUMBER_OF_ARGS).

(** A part is a float or a text *)
Inductive token (float : Type) := Num (x : float) | Letter (c : ascii).
Arguments Num {float}. Arguments Letter {float}.
Definition svg_command (float : Type) : Type := ascii * list (token float).

Section Data.
Context {float : Type} (float_str : float -> text) (float_parse : text -> result float).
Notation token := (token float).
Notation svg_command := (svg_command float).

(** 974-976 *)
Definition token_of (w : text) : result token :=
  match w with
  | [c] => if is_alpha c then Ok (Letter c) else (x <- float_parse w ;; Ok (Num x))
  | _ => x <- float_parse w ;; Ok (Num x)
  end.
(** 996-1000 *)
Definition implicit (c : ascii) : ascii :=
  if Ascii.eqb c "m" then "l"%char else if Ascii.eqb c "M" then "L"%char else c.
(** 978-1000: the loop; the parts from the index on, the last command and its number of arguments.
    The loop may not end: [fuel] bounds the number of turns. *)
Fixpoint loop (fuel : nat) (last : option (ascii * nat)) (parts : list token) : result (list svg_command) :=
  match parts with
  | [] => Ok []
  | p :: rest =>
      match fuel with
      | 0 => Raise OutOfFuel
      | S fuel =>
          k <- match p with
               | Letter c =>
                   match number_of_args (lower c) with
                   | None => Raise ValueError
                   | Some n => Ok (c, n, rest)
                   end
               | Num _ => match last with None => Raise TypeError | Some (c, n) => Ok (c, n, parts) end
               end ;;
          let '(c, n, parts) := k in
          l <- loop fuel (Some (implicit c, n)) (skipn n parts) ;;
          Ok ((c, firstn n parts) :: l)
      end
  end.
(** 959-1000: from_xml before to_geometry *)
Definition parse (fuel : nat) (s : text) : result (list svg_command) :=
  parts <- traverse token_of (words s) ;; loop fuel None parts.

(** 1009-1016: to_xml, of a list of commands *)
Definition token_str (t : token) : text := match t with Num x => float_str x | Letter c => [c] end.
Definition command_text (c : svg_command) : text := join (lit " ") ([fst c] :: map token_str (snd c)).
Definition to_xml (l : list svg_command) : text :=
  fold_left (fun data c => (match data with [] => [] | _ => data ++ lit " " end) ++ command_text c) l [].
End Data.

(** ** 1032-1072: to_geometry, for arguments which are numbers *)
Local Open Scope R_scope.
Definition number (t : token R) : result R := match t with Num x => Ok x | Letter _ => Raise TypeError end.
(** Vector2D of a list *)
Definition vector_of (args : list R) : result vec := match args with [x; y] => Ok (V x y) | _ => Raise ValueError end.
(** 1021-1027: as_vector *)
Fixpoint as_vector (args : list R) : result (list vec) :=
  match args with
  | [] => Ok []
  | [_] => Raise ValueError
  | x :: y :: args => l <- as_vector args ;; Ok (V x y :: l)
  end.
Definition truth (x : R) : bool := negb (Reqb x 0).
(** 1046-1070.  A method called with the wrong number of arguments raises TypeError; a list which is
    not a point raises when the part is made only, which a closed path does not do. *)
Definition do_svg (p : path) (c : ascii) (args : list R) : result path :=
  let lc := lower c in
  let absolute := negb (Ascii.eqb lc c) in
  if Ascii.eqb lc "l" then
    match vector_of args with
    | Ok v => do_command p (LineTo v None absolute)
    | Raise e => add_part p (Raise e)
    end
  else if Ascii.eqb c "h" then
    match args with
    | [x] => do_command p (HorizontalTo x None false)
    | [x; r] => do_command p (HorizontalTo x (Some r) false)
    | _ => Raise TypeError
    end
  else if Ascii.eqb c "H" then
    match args with
    | [x] => do_command p (AbsoluteHorizontalTo x None)
    | [x; r] => do_command p (AbsoluteHorizontalTo x (Some r))
    | _ => Raise TypeError
    end
  else if Ascii.eqb lc "v" then
    match args with
    | [y] => do_command p (VerticalTo y None absolute)
    | [y; r] => do_command p (VerticalTo y (Some r) absolute)
    | _ => Raise TypeError
    end
  else if Ascii.eqb c "V" then
    match args with
    | [y] => do_command p (AbsoluteVerticalTo y None)
    | [y; r] => do_command p (AbsoluteVerticalTo y (Some r))
    | _ => Raise TypeError
    end
  else if Ascii.eqb lc "c" then
    l <- as_vector args ;;
    match l with [a; b; d] => do_command p (CubicTo a b d absolute) | _ => Raise TypeError end
  else if Ascii.eqb lc "s" then
    l <- as_vector args ;;
    match l with [a] => do_command p (StringedQuadraticTo a absolute) | _ => Raise TypeError end
  else if Ascii.eqb lc "q" then
    l <- as_vector args ;;
    match l with [a; b] => do_command p (QuadraticTo a b absolute) | _ => Raise TypeError end
  else if Ascii.eqb lc "t" then
    l <- as_vector args ;;
    match l with [a; b] => do_command p (StringedCubicTo a b absolute) | _ => Raise TypeError end
  else if Ascii.eqb lc "a" then
    match args with
    | [rx; ry; angle; large; sweep; x; y] => do_command p (ArcTo (V x y) rx ry angle (truth large) (truth sweep) absolute)
    | _ => Raise ValueError
    end
  else if Ascii.eqb lc "z" then do_command p (Close None None)
  else Ok p.
Fixpoint do_svgs (p : path) (l : list (ascii * list R)) : result path :=
  match l with
  | [] => Ok p
  | (c, args) :: l => p <- do_svg p c args ;; do_svgs p l
  end.
(** None for no command at all *)
Definition to_geometry (l : list (ascii * list R)) : result (option path) :=
  match l with
  | [] => Ok None
  | (c, args) :: l =>
      if Ascii.eqb (lower c) "m" then
        v <- vector_of args ;; p <- do_svgs (new_path v) l ;; Ok (Some p)
      else Raise NameError
  end.
(** 1004: from_xml of texts whose numbers are real numbers *)
Definition from_xml (float_parse : text -> result R) (fuel : nat) (s : text) : result (option path) :=
  l <- parse float_parse fuel s ;;
  l <- traverse (fun c : svg_command R => args <- traverse number (snd c) ;; Ok (fst c, args)) l ;;
  to_geometry l.
