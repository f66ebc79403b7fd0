(** What a formula means as python text: a sequence of tokens, each rewritten on its own. *)
From Coq Require Import String Ascii List Bool.
From Verif Require Import ModelFormula.
Import ListNotations.

(** The special functions: the class of the measure, and the two lengths and angles of a curve *)
Definition measures : list text :=
  map lit ["Angle1Spl"; "Angle2Spl"; "AngleLine"; "C1LengthSpl"; "C2LengthSpl"; "Line"; "Spl"]%string.

Inductive token :=
| Word (w : text)                       (* a number, a measurement, a python name *)
| Call (f : text) (args : list text)    (* Line_A_B *)
| Current                               (* CurrentLength *)
| Custom (w : text)                     (* @name *)
| Other (c : ascii).                    (* an operator, a space... *)

Definition text_of (t : token) : text :=
  match t with
  | Word w => w
  | Call f args => f ++ lit "_" ++ join (lit "_") args
  | Current => lit "CurrentLength"
  | Custom w => lit "@" ++ w
  | Other c => [c]
  end.
Definition formula_of (l : list token) : text := concat (map text_of l).

(** The python counterpart; [py] gives the name of a custom measurement. *)
Definition python_of (py : text -> text) (t : token) : text :=
  match t with
  | Word w => w
  | Call f args =>
      lit "__calculator__._function_" ++ f ++ lit "(" ++
      join (lit ", ") (map (fun a => lit "'" ++ a ++ lit "'") args) ++ lit ")"
  | Current => lit "__calculator__._function_CurrentLength()"
  | Custom w => py (lit "@" ++ w)
  | Other c => [c]
  end.

Definition occurs (p s : text) : Prop := exists a b, s = a ++ p ++ b.
(** Nothing in it looks like a special function. *)
Definition innocent (s : text) : Prop :=
  Forall (fun f => ~ occurs (f ++ lit "_") s) measures /\ ~ occurs (lit "CurrentLength") s.
Definition word_only (s : text) : Prop := Forall (fun c => is_word c = true) s.
Definition no_score (s : text) : Prop := ~ In "_"%char s.

Definition good_token (t : token) : Prop :=
  match t with
  | Word w | Custom w => word_only w /\ innocent w
  | Call f args => In f measures /\ args <> [] /\ Forall word_only args /\ Forall no_score args /\
      innocent (join (lit "_") args)
  | Current => True
  | Other c => is_word c = false /\ c <> "@"%char
  end.
(** Two tokens which are not operators do not touch. *)
Inductive separated : list token -> Prop :=
| sep_nil : separated []
| sep_other c l : separated l -> separated (Other c :: l)
| sep_one t : separated [t]
| sep_cons t c l : separated l -> separated (t :: Other c :: l).

(** The formulas which are rewritten as they should: no measured pair of points is the beginning of
    another one, the current length is written once, and there is only one custom measurement. *)
Record plain (l : list token) : Prop := {
  pl_good : Forall good_token l;
  pl_separated : separated l;
  pl_pairs : forall f args g args', In (Call f args) l -> In (Call g args') l ->
    (exists r, join (lit "_") args' = join (lit "_") args ++ r) -> args = args';
  pl_current : forall l1 l2, l = l1 ++ Current :: l2 -> ~ In Current l1 /\ ~ In Current l2;
  pl_custom : forall w w', In (Custom w) l -> In (Custom w') l -> w = w' }.
