(** The style of the items of an SVG tree. *)
From Coq Require Import String Ascii List Bool Arith Reals.
From Verif Require Import Base ModelFormula ModelMeasure ModelXml ModelVector ModelTransformation ModelSvgState.
Import ListNotations.

Section Spec.
Context {number : Type} (read_number : text -> option number) (defaults : list (text * value number)).
Notation item := (item number).
Notation value := (value number).
Notation node := (node number).

(** The declarations of a style: names and values around a colon, between semicolons; the last one
    wins. *)
Definition declaration (t : text) : option (text * text) :=
  match split ":"%char t with
  | [a; b] => Some (map (fun c => if Ascii.eqb c "-"%char then "_"%char else c) (strip a), strip b)
  | _ => None
  end.
Fixpoint declared (l : list text) (name : text) : option text :=
  match l with
  | [] => None
  | t :: l =>
      match declared l name with
      | Some v => Some v
      | None => match declaration t with Some (n, v) => if text_eqb n name then Some v else None | None => None end
      end
  end.
Definition styled (i : item) (name : text) : option text :=
  match i_style _ i with Some s => declared (split ";"%char s) name | None => None end.
(** The value an item gives: in its style or as an attribute *)
Definition given (i : item) (name : text) : option value :=
  match styled i name with
  | Some v => Some (VText _ v)
  | None => match lookup (i_attributes _ i) name with Some (VNone _) => None | v => v end
  end.
(** The same, but an attribute which the class has and the element does not give counts as None *)
Definition answered (i : item) (name : text) : option value :=
  match styled i name with
  | Some v => Some (VText _ v)
  | None => lookup (i_attributes _ i) name
  end.
(** The value from the nearest item which has one; [items] starts with the nearest *)
Definition from_nearest (f : item -> text -> option value) (items : list item) (name : text) : option value :=
  fold_right (fun i r => match f i name with Some v => Some v | None => r end) (lookup defaults name) items.
Definition rendered (f : item -> text -> option value) (items : list item) (name : text) : option value :=
  option_map (to_python number read_number) (from_nearest f items name).
(** A point of the item in the coordinates of the document *)
Definition place (items : list item) (p : vec) : vec :=
  fold_left (fun p i => match i_transform _ i with Some t => apply t p | None => p end) items p.

(** Each graphic item with the groups which enclose it, the nearest first *)
Fixpoint enclosed (around : list item) (n : node) : list (list item * item) :=
  match n with
  | Group _ i l => flat_map (enclosed (i :: around)) l
  | Graphic _ i => [(around, i)]
  | Other _ => []
  end.
(** Each graphic item with the groups opened before it in the document, the nearest first *)
Fixpoint groups_in (n : node) : list item :=
  match n with
  | Group _ i l => fold_left (fun acc n => groups_in n ++ acc) l [i]
  | _ => []
  end.
Section Preceded.
Variable preceded : list item -> node -> list (list item * item).
Fixpoint all_preceded (before : list item) (l : list node) : list (list item * item) :=
  match l with
  | [] => []
  | n :: l => preceded before n ++ all_preceded (groups_in n ++ before) l
  end.
End Preceded.
Fixpoint preceded (before : list item) (n : node) : list (list item * item) :=
  match n with
  | Group _ i l => all_preceded preceded (i :: before) l
  | Graphic _ i => [(before, i)]
  | Other _ => []
  end.

(** The trees where nothing follows a group *)
Inductive group_last : list node -> Prop :=
| last_nil : group_last []
| last_graphic i l : group_last l -> group_last (Graphic _ i :: l)
| last_other l : group_last l -> group_last (Other _ :: l)
| last_group i l : group_last l -> group_last [Group _ i l].
(** The items of a tree *)
Inductive member : item -> node -> Prop :=
| member_graphic i : member i (Graphic _ i)
| member_group i l : member i (Group _ i l)
| member_inside i j l n : In n l -> member i n -> member i (Group _ j l).
End Spec.
