(** What the description of the package should be, apart from how it is made. *)
From Coq Require Import List Bool.
From Verif Require Import ModelFormula.
Import ListNotations.

Section Spec.
(** The files, the lines which include one, and the name which they give *)
Variable file : text -> option (list text).
Variable includes : text -> option text.
(** The lines of a file which are text, and the files it names *)
Fixpoint own_lines (l : list text) : list text :=
  match l with [] => [] | x :: l => match includes x with None => x :: own_lines l | Some _ => own_lines l end end.
Fixpoint named (l : list text) : list text :=
  match l with [] => [] | x :: l => match includes x with None => named l | Some n => n :: named l end end.
Definition content (n : text) : list text := match file n with Some l => l | None => [] end.
(** The files which are reached from a text *)
Inductive reached (src : list text) : text -> Prop :=
| reached_here n : In n (named src) -> reached src n
| reached_from n k : reached src n -> In k (named (content n)) -> reached src k.
(** The text in which each include is replaced by the file, and the names of the files as they are met *)
Inductive expands : list text -> list text -> list text -> Prop :=
| expands_nil : expands [] [] []
| expands_line x l out seen : includes x = None -> expands l out seen -> expands (x :: l) (x :: out) seen
| expands_file x n src l out1 seen1 out2 seen2 : includes x = Some n -> file n = Some src -> expands src out1 seen1 -> expands l out2 seen2 ->
    expands (x :: l) (out1 ++ out2) (n :: seen1 ++ seen2).
End Spec.
