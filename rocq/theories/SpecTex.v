(** The text of a nest of buffers. *)
From Coq Require Import String Ascii List Bool Arith.
From Verif Require Import Base ModelFormula ModelTex.
Import ListNotations.

(** A nest is a tree: texts at the leaves; a node remembers the buffer it comes from *)
Inductive tree := Leaf (t : text) | Node (i : nat) (first last : text) (children : list tree).
Fixpoint flatten (t : tree) : text :=
  match t with
  | Leaf t => t
  | Node _ first last children => first ++ concat (map flatten children) ++ last
  end.
(** The buffer [i] of the heap holds this tree *)
Inductive holds (h : heap) : item -> tree -> Prop :=
| holds_text t : holds h (Str t) (Leaf t)
| holds_buffer i first content last children :
    nth_error h i = Some (Buffer first content last) -> Forall2 (holds h) content children ->
    holds h (Ref i) (Node i first last children).
(** The buffers of a tree *)
Fixpoint buffers (t : tree) : list nat :=
  match t with Leaf _ => [] | Node i _ _ children => i :: flat_map buffers children end.
(** The text of a buffer, for every large enough recursion limit *)
Definition reads (h : heap) (i : nat) (t : text) : Prop := exists n, forall m, n <= m -> str m h i = Ok t.

(** Names of files *)
Definition has_suffix (name : text) : Prop := exists s, name = s ++ lit ".tex".

(** Templates: fields between « and » *)
Inductive piece := Literal (t : text) | Field (name : text).
Definition quoted (p : piece) : text := match p with Literal t => t | Field name => [open_quote] ++ name ++ [close_quote] end.
Definition plain_piece (p : piece) : Prop :=
  match p with
  | Literal t => ~ In open_quote t /\ ~ In close_quote t
  | Field n => forall c, In c n -> c <> "{"%char /\ c <> "}"%char /\ c <> open_quote /\ c <> close_quote
  end.
Fixpoint filled (field : text -> result text) (l : list piece) : result text :=
  match l with
  | [] => Ok []
  | Literal t :: l => bind (filled field l) (fun s => Ok (t ++ s))
  | Field n :: l => bind (field n) (fun v => bind (filled field l) (fun s => Ok (v ++ s)))
  end.
