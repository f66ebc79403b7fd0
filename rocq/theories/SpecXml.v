(** What the XML attributes should do. *)
From Coq Require Import String Ascii List Bool Arith ZArith.
From Verif Require Import Base ModelFormula ModelMeasure ModelXml.
Import ListNotations.

Section Spec.
Context {float : Type} (float_str : float -> text) (float_parse : text -> result float).
Notation value := (value float).
Notation attribute := (attribute float).
Notation kind := ModelXml.kind.

(** str and float of a python float: what is written is read back, in one word. *)
Record faithful : Prop := {
  f_back : forall x, float_parse (float_str x) = Ok x;
  f_word : forall x c, In c (float_str x) -> 32 < nat_of_ascii c;
  f_comma : forall x, ~ In ","%char (float_str x);
  f_none : forall x, float_str x <> lit "none" }.

Definition xml_text (s : text) : Prop := forall c, In c s -> 32 <= nat_of_ascii c \/ In (nat_of_ascii c) [9; 10; 13].
(** A value of the kind of the attribute *)
Definition suits (k : kind) (v : value) : Prop :=
  match k, v with
  | KBool, VBool _ _ | KInt, VInt _ _ | KFloat, VFloat _ _ => True
  | KFloatList, VList _ l => l <> []
  | KString, VStr _ s => xml_text s
  | _, _ => False
  end.
(** Two attributes with the same python name or the same XML name are the same attribute. *)
Definition consistent (table : list attribute) : Prop :=
  forall a b, In a table -> In b table -> a_py _ a = a_py _ b \/ a_xml _ a = a_xml _ b -> a = b.

(** The classes a class inherits from, itself included *)
Inductive reach : cls float -> cls float -> Prop :=
| reach_refl c : reach c c
| reach_mro plain own bases mro m d : In m mro -> reach m d -> reach (Class _ plain own bases mro) d
| reach_base own bases mro b d : In b bases -> reach b d -> reach (Class _ false own bases mro) d.
Definition own_of (c : cls float) : list attribute := match c with Class _ _ own _ _ => own end.
End Spec.
