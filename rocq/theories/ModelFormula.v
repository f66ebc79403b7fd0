(** Model of the rewriting of formulas in Patro/Pattern/Calculator.py, Expression._compile, up to the
    text which is given to ast.parse.  A text is the list of its characters. *)
From Coq Require Import String Ascii List Bool Arith.
From Verif Require Import Base.
Import ListNotations.
Local Open Scope result_scope.

Definition text := list ascii.
Definition lit (s : string) : text := list_ascii_of_string s.

(** 249: the characters of an identifier *)
Definition is_word (c : ascii) : bool :=
  let n := nat_of_ascii c in
  ((97 <=? n) && (n <=? 122)) || ((65 <=? n) && (n <=? 90)) || ((48 <=? n) && (n <=? 57)) || (n =? 95).

(** The methods of python str: startswith, find (from a position), replace, split, join *)
Fixpoint starts (p s : text) : bool :=
  match p, s with
  | [], _ => true
  | a :: p, b :: s => Ascii.eqb a b && starts p s
  | _ :: _, [] => false
  end.
Fixpoint find (p s : text) : option nat :=
  if starts p s then Some 0
  else match s with [] => None | _ :: s => option_map S (find p s) end.
Definition find_from (p : text) (start : nat) (s : text) : option nat :=
  if length s <? start then None else option_map (fun k => start + k) (find p (skipn start s)).
(** [skip] characters were already replaced *)
Fixpoint replacing (old new : text) (skip : nat) (s : text) : text :=
  match s with
  | [] => []
  | c :: s' =>
      match skip with
      | S k => replacing old new k s'
      | 0 => if starts old s then new ++ replacing old new (length old - 1) s' else c :: replacing old new 0 s'
      end
  end.
Definition replace (old new s : text) : text := replacing old new 0 s.
Fixpoint split (sep : ascii) (s : text) : list text :=
  match s with
  | [] => [[]]
  | c :: s =>
      if Ascii.eqb c sep then [] :: split sep s
      else match split sep s with [] => [[c]] | w :: l => (c :: w) :: l end
  end.
Fixpoint join (sep : text) (l : list text) : text :=
  match l with
  | [] => []
  | [w] => w
  | w :: l => w ++ sep ++ join sep l
  end.

(** 241-256: _find_identifier *)
Fixpoint word_length (s : text) : nat :=
  match s with [] => 0 | c :: s => if is_word c then S (word_length s) else 0 end.
Definition find_identifier (expression prefix : text) (start : nat) : option (text * nat) :=
  match find_from prefix start expression with
  | None => None
  | Some start =>
      let index := start + 1 + word_length (skipn (start + 1) expression) in
      Some (firstn (index - start) (skipn start expression), index + 1)
  end.
(** 270-276 and 293-299: the loops over the occurrences; the position increases, the fuel is enough *)
Fixpoint identifiers (fuel : nat) (expression prefix : text) (start : nat) : list text :=
  match fuel with
  | 0 => []
  | S fuel =>
      match find_identifier expression prefix start with
      | None => []
      | Some (name, start) => name :: identifiers fuel expression prefix start
      end
  end.
Definition all_identifiers (expression prefix : text) : list text :=
  identifiers (S (length expression)) expression prefix 0.

(** 277-279: the custom measurements; [measurements] gives the python name of a measurement; each
    replacement starts from the formula *)
Fixpoint replace_customs (measurements : text -> option text) (formula : text) (names : list text) (expression : text)
  : result text :=
  match names with
  | [] => Ok expression
  | name :: names =>
      match measurements name with
      | None => Raise KeyError
      | Some py_name => replace_customs measurements formula names (replace name py_name formula)
      end
  end.

(** 283-292 *)
Definition functions : list text :=
  map lit ["Angle1Spl_"; "Angle2Spl_"; "AngleLine_"; "CurrentLength"; "C1LengthSpl_"; "C2LengthSpl_"; "Line_"; "Spl_"]%string.
(** 302-305 *)
Definition quote : ascii := "'"%char.
Definition pythonised (function_call : text) : text :=
  match split "_"%char function_call with
  | [] => []
  | function :: args =>
      lit "__calculator__._function_" ++ function ++ lit "(" ++
      join (lit ", ") (map (fun x => quote :: x ++ [quote]) args) ++ lit ")"
  end.

(** 260-307: _compile *)
Definition compile (measurements : text -> option text) (formula : text) : result text :=
  expression <- replace_customs measurements formula (all_identifiers formula (lit "@")) formula ;;
  let calls := flat_map (all_identifiers formula) functions in
  Ok (fold_left (fun e call => replace call (pythonised call) e) calls expression).
