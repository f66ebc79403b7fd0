(** Specification for C150 and C151: lines of text which mention a word, texts in which a word is replaced. *)
From Coq Require Import String Ascii List.
From Verif Require Import ModelFormula.
From Verif Require ModelXml.
Import ListNotations.

Definition mentions (p s : text) : Prop := exists a b, s = a ++ p ++ b.
Definition blank (s : text) : Prop := forall c, In c s -> ModelXml.is_space c = true.
(** Neither the first nor the last character is a space *)
Definition trimmed (s : text) : Prop :=
  match s with c :: _ => ModelXml.is_space c = false | [] => True end /\ match rev s with c :: _ => ModelXml.is_space c = false | [] => True end.
(** t' is t with each p replaced by q *)
Fixpoint between_words (p : text) (parts : list text) : text :=
  match parts with [] => [] | [s] => s | s :: parts => s ++ p ++ between_words p parts end.
Definition replaced (p q t t' : text) : Prop :=
  exists parts, parts <> [] /\ t = between_words p parts /\ t' = between_words q parts /\ Forall (fun s => ~ mentions p s) parts.
