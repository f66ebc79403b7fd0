(** Model of Patro/Common/Path.py: absolute paths, parent directories, the search of a file; with the functions of posixpath and os.walk of
    the library which they call.  A path is a text; the file system is a tree without links, the order of the entries of a directory is the
    order in which the system lists them, and every directory can be read. *)
From Coq Require Import String Ascii List Bool Arith ZArith.
From Verif Require Import Base ModelFormula.
Import ListNotations.
Local Open Scope result_scope.

Definition slash : ascii := "/"%char.
Definition dot : text := lit ".".
Definition dots : text := lit "..".
Definition text_eqb (a b : text) : bool := if list_eq_dec ascii_dec a b then true else false.

(** ** posixpath *)

Definition is_abs (p : text) : bool := starts [slash] p.
Definition ends_slash (p : text) : bool := starts [slash] (rev p).
(** join of two paths *)
Definition pjoin (a b : text) : text :=
  if is_abs b then b else if text_eqb a [] || ends_slash a then a ++ b else a ++ [slash] ++ b.
(** str.rstrip('/') *)
Fixpoint lstrip_slash (p : text) : text :=
  match p with c :: q => if Ascii.eqb c slash then lstrip_slash q else p | [] => [] end.
Definition rstrip_slash (p : text) : text := rev (lstrip_slash (rev p)).
(** str.rfind('/') + 1: the text up to the last '/' included *)
Fixpoint until_name (r : text) : text := match r with c :: q => if Ascii.eqb c slash then r else until_name q | [] => [] end.
Definition head_of (p : text) : text := rev (until_name (rev p)).
(** dirname *)
Definition dirname (p : text) : text :=
  let head := head_of p in
  if text_eqb head [] || text_eqb head (repeat slash (length head)) then head else rstrip_slash head.
(** normpath; [done] holds the last component first *)
Definition initial_slashes (p : text) : nat :=
  if is_abs p then if starts [slash; slash] p && negb (starts [slash; slash; slash] p) then 2 else 1 else 0.
Fixpoint normal_components (absolute : bool) (comps done : list text) : list text :=
  match comps with
  | [] => rev done
  | c :: comps =>
      if text_eqb c [] || text_eqb c dot then normal_components absolute comps done
      else if negb (text_eqb c dots) || (negb absolute && match done with [] => true | _ => false end) ||
              match done with l :: _ => text_eqb l dots | [] => false end
      then normal_components absolute comps (c :: done)
      else normal_components absolute comps (tl done)
  end.
Definition normpath (p : text) : text :=
  if text_eqb p [] then dot
  else
    let n := initial_slashes p in
    let q := join [slash] (normal_components (0 <? n) (split slash p) []) in
    let q := repeat slash n ++ q in
    if text_eqb q [] then dot else q.

Section System.
(** The working directory, the home directory of the user (HOME, or that of the table of users) and those of the other users *)
Variable cwd : text.
Variable home : option text.
Variable home_of : text -> option text.

(** abspath *)
Definition abspath (p : text) : text := normpath (if is_abs p then p else pjoin cwd p).
(** expanduser *)
Fixpoint user_name (p : text) : text := match p with c :: q => if Ascii.eqb c slash then [] else c :: user_name q | [] => [] end.
Definition expanduser (p : text) : text :=
  match p with
  | c :: q =>
      if Ascii.eqb c "~"%char then
        let name := user_name q in
        match (if text_eqb name [] then home else home_of name) with
        | None => p
        | Some h => let r := rstrip_slash h ++ skipn (length name) q in if text_eqb r [] then [slash] else r
        end
      else p
  | [] => p
  end.

(** Path.py 27-29: to_absolute_path *)
Definition to_absolute_path (p : text) : text := abspath (expanduser p).

(** Path.py 33-37: parent_directory_of; range(step) is empty when step is negative *)
Definition parent_directory_of (file_name : text) (step : Z) : text := Nat.iter (Z.to_nat step) dirname file_name.

(** ** The file system *)

Inductive node := File | Dir (entries : list (text * node)).
(** A place is the list of the names of the directories from the root, the last one first. *)
Fixpoint child (n : text) (l : list (text * node)) : option node :=
  match l with [] => None | (m, x) :: l => if text_eqb n m then Some x else child n l end.
Fixpoint at_place (root : node) (place : list text) : option node :=
  match place with
  | [] => Some root
  | n :: place => match at_place root place with Some (Dir l) => child n l | _ => None end
  end.
(** How the system follows a path, from a place: each component needs a directory to start from. *)
Fixpoint follow (root : node) (place : list text) (comps : list text) : option (list text) :=
  match comps with
  | [] => Some place
  | c :: comps =>
      match at_place root place with
      | Some (Dir l) =>
          if text_eqb c [] || text_eqb c dot then follow root place comps
          else if text_eqb c dots then follow root (tl place) comps
          else match child c l with Some _ => follow root (c :: place) comps | None => None end
      | _ => None
      end
  end.
(** The place of the working directory *)
Variable here : list text.
Definition resolve (root : node) (p : text) : option (list text) :=
  if text_eqb p [] then None else follow root (if is_abs p then [] else here) (split slash p).
Definition lookup (root : node) (p : text) : option node :=
  match resolve root p with Some place => at_place root place | None => None end.

(** os.walk from the top: each directory with the names of its files, before its sub-directories *)
Fixpoint file_names (l : list (text * node)) : list text :=
  match l with [] => [] | (n, File) :: l => n :: file_names l | (_, Dir _) :: l => file_names l end.
Fixpoint walk (path : text) (d : node) : list (text * list text) :=
  match d with
  | File => []
  | Dir l => (path, file_names l) ::
      (fix walks (l : list (text * node)) : list (text * list text) :=
         match l with [] => [] | (n, x) :: l => walk (pjoin path n) x ++ walks l end) l
  end.

(** A python str or bytes *)
Record chars := Chars { is_bytes : bool; characters : text }.
(** What is given for the directories: several paths, or one *)
Inductive directories := Several (l : list chars) | One (d : chars).

(** Path.py 41-48: find.  A str is not a list of paths: it is iterated, by characters.  The names which os.walk gives are of the type of
    the directory, and bytes are never equal to a str. *)
Definition paths (ds : directories) : list chars :=
  match ds with
  | Several l => l
  | One d => if is_bytes d then [d] else map (fun c => Chars false [c]) (characters d)
  end.
Fixpoint first_holding (f : text) (w : list (text * list text)) : option text :=
  match w with
  | [] => None
  | (p, names) :: w => if existsb (text_eqb f) names then Some (pjoin p f) else first_holding f w
  end.
Fixpoint find_in (root : node) (f : chars) (ds : list chars) : result text :=
  match ds with
  | [] => Raise NameError
  | d :: ds =>
      match lookup root (characters d) with
      | Some n =>
          if Bool.eqb (is_bytes d) (is_bytes f) then
            match first_holding (characters f) (walk (characters d) n) with Some p => Ok p | None => find_in root f ds end
          else find_in root f ds
      | None => find_in root f ds
      end
  end.
Definition find (root : node) (f : chars) (ds : directories) : result text := find_in root f (paths ds).
End System.
