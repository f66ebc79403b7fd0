(** Model of setup_data.py 29-45 and of tasks/release.py 80-111: the description of the package and its version.  The limit of python on the
    depth of recursion is not modelled; FileNotFoundError is modelled by LookupError; git is what it answers. *)
From Coq Require Import String Ascii List Bool Arith.
From Verif Require Import Base ModelFormula ModelXml.
Import ListNotations.
Local Open Scope result_scope.

(** line.split('::')[-1] *)
Fixpoint last_piece (piece s : text) : text :=
  match s with
  | [] => piece
  | c :: s =>
      match s with
      | d :: s' => if Ascii.eqb c ":" && Ascii.eqb d ":" then last_piece [] s' else last_piece (piece ++ [c]) s
      | [] => piece ++ [c]
      end
  end.
(** 34-35: the lines with an include, and the name of the file *)
Definition is_include (line : text) : bool := starts (lit ".. include::") line.
Definition include_name (line : text) : text := strip (last_piece [] line).
Definition text_eqb (a b : text) : bool := if list_eq_dec ascii_dec a b then true else false.

Section Merge.
(** open(os.path.join(doc_path, name)).readlines() *)
Variable file : text -> option (list text).
(** 29-45: merge_include; the fuel counts the files which are open; the dictionary of the included files is shared by the calls *)
Fixpoint merge_include (fuel : nat) (src_lines : list text) (included : list text) : result (text * list text) :=
  (fix lines (l : list text) (included : list text) : result (text * list text) :=
     match l with
     | [] => Ok ([], included)
     | line :: l =>
         if is_include line then
           let name := include_name line in
           if existsb (text_eqb name) included then lines l included
           else match file name with
                | None => Raise LookupError
                | Some src =>
                    match fuel with
                    | 0 => Raise OutOfFuel
                    | S fuel =>
                        r <- merge_include fuel src (name :: included) ;;
                        q <- lines l (snd r) ;;
                        Ok (fst r ++ fst q, snd q)
                    end
                end
         else q <- lines l included ;; Ok (line ++ fst q, snd q)
     end) src_lines included.
End Merge.

(** release.py 84-92: the version of a tag *)
Definition version_of (tag : text) : text :=
  if starts (lit "v") tag then replace (lit "-branched") [] (skipn 1 tag) else tag.
(** re.match('\d+(\.\d+(\.\d+)?)?', version): it asks for one digit at the start, the rest is optional and nothing is said of the end *)
Definition is_digit (c : ascii) : bool := match digit_value c with Some _ => true | None => false end.
Definition valid_version (version : text) : bool := match version with c :: _ => is_digit c | [] => false end.
Definition newline : ascii := ascii_of_nat 10.
Definition assign (name value : text) : text := name ++ lit " = '" ++ value ++ lit "'" ++ [newline].
(** 104-110: one line *)
Definition update_line (version tag sha line : text) : text :=
  let line := if starts (lit "__version__") line then assign (lit "__version__") version else line in
  let line := if starts (lit "GIT_TAG") line then assign (lit "GIT_TAG") tag else line in
  if starts (lit "GIT_SHA") line then assign (lit "GIT_SHA") sha else line.
(** 80-111: update_git_sha; the lines of the file afterwards *)
Definition update_git_sha (describe rev_parse : text) (lines : list text) : result (list text) :=
  let tag := strip describe in
  let version := version_of tag in
  if valid_version version then Ok (map (update_line version tag (strip rev_parse)) lines) else Raise ValueError.
