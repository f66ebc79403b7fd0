(** Specification for C148 and C149: trees of files, absolute paths. *)
From Coq Require Import String Ascii List.
From Verif Require Import ModelFormula ModelFiles.
Import ListNotations.

(** A name which a file can have *)
Definition proper (n : text) : Prop := n <> [] /\ ~ In slash n /\ n <> lit "." /\ n <> lit "..".
(** A tree whose names are proper and distinct in each directory *)
Inductive tree : node -> Prop :=
| tree_file : tree File
| tree_dir l : NoDup (map fst l) -> Forall (fun e => proper (fst e) /\ tree (snd e)) l -> tree (Dir l).
(** From a node, following names downwards *)
Inductive down : node -> list text -> node -> Prop :=
| down_here n : down n [] n
| down_in l n x names y : In (n, x) l -> down x names y -> down (Dir l) (n :: names) y.
(** The usual text of a place, given by its names from the root *)
Fixpoint after_slashes (names : list text) : text :=
  match names with [] => [] | n :: names => slash :: n ++ after_slashes names end.
Definition spelled (names : list text) : text := match names with [] => [slash] | _ => after_slashes names end.
