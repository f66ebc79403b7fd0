(** Colours of 24 bits. *)
From Coq Require Import String Ascii List Bool ZArith.
From Verif Require Import ModelFormula.
Import ListNotations.

(** A byte in two hexadecimal digits *)
Definition nibble (z : Z) : ascii := nth (Z.to_nat z) (lit "0123456789abcdef") "?"%char.
Definition byte_text (z : Z) : text := [nibble (z / 16); nibble (z mod 16)].
Definition rgb_text (r g b : Z) : text := "#"%char :: byte_text r ++ byte_text g ++ byte_text b.
Definition byte (z : Z) : Prop := (0 <= z <= 255)%Z.
(** The same digits, some in capitals *)
Definition capital (z : Z) : ascii := nth (Z.to_nat z) (lit "0123456789ABCDEF") "?"%char.
Definition spells_nibble (c : ascii) (z : Z) : Prop := c = nibble z \/ c = capital z.
Inductive spells : text -> Z -> Z -> Z -> Prop :=
| spells_six a b c d e f r g l : spells_nibble a (r / 16) -> spells_nibble b (r mod 16) -> spells_nibble c (g / 16) ->
    spells_nibble d (g mod 16) -> spells_nibble e (l / 16) -> spells_nibble f (l mod 16) -> spells ["#"%char; a; b; c; d; e; f] r g l.
(** The first value given to a name, where spaces count as scores *)
Fixpoint first_given (l : list (text * text)) (name : text) : option text :=
  match l with
  | [] => None
  | (n, v) :: l =>
      if list_eq_dec ascii_dec (map (fun c => if Ascii.eqb c " "%char then "_"%char else c) n) name then Some v
      else first_given l name
  end.
