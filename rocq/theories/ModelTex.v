(** Model of Patro/GraphicEngine/TeX: Buffer.py, Environment.py, Document.py.  Buffers are mutable
    objects which can be shared: they live in a heap. *)
From Coq Require Import String Ascii List Bool Arith ZArith.
From Verif Require Import Base ModelFormula ModelMeasure ModelXml.
Import ListNotations.
Local Open Scope result_scope.

(** What a buffer holds: a text or a buffer.  Other objects are not modelled. *)
Inductive item := Str (t : text) | Ref (i : nat).
(** A buffer (Buffer.py 31-34) or an environment (Environment.py 31-46): the texts of the begin and end
    buffers of an environment, which nothing changes, are empty for a mere buffer *)
Record buffer := Buffer { b_begin : text; b_content : list item; b_end : text }.
Definition heap := list buffer.

Definition newline : text := [ascii_of_nat 10].
(** Buffer() *)
Definition new_buffer (h : heap) : heap * nat := (h ++ [Buffer [] [] []], length h).
(** Environment(name, options), 31-46 *)
Definition new_environment (h : heap) (name options : text) : heap * nat :=
  let opt := if text_eqb options [] then [] else lit "[" ++ options ++ lit "]" in
  (h ++ [Buffer (lit "\begin{" ++ name ++ lit "}" ++ opt ++ newline) [] (lit "\end{" ++ name ++ lit "}" ++ newline)], length h).

(** Buffer.py 38-43 and Environment.py 50-55: __str__.  [limit] is the recursion limit. *)
Definition join_items (str : nat -> result text) : list item -> result text :=
  fix go l := match l with
    | [] => Ok []
    | Str t :: l => s <- go l ;; Ok (t ++ s)
    | Ref j :: l => t <- str j ;; s <- go l ;; Ok (t ++ s)
    end.
Fixpoint str (limit : nat) (h : heap) (i : nat) : result text :=
  match limit with
  | 0 => Raise RecursionError
  | S limit =>
      match nth_error h i with
      | None => Raise AttributeError
      | Some b => t <- join_items (str limit h) (b_content b) ;; Ok (b_begin b ++ t ++ b_end b)
      end
  end.

Definition set_content (h : heap) (i : nat) (c : list item) : heap :=
  match nth_error h i with Some b => update i (Buffer (b_begin b) c (b_end b)) h | None => h end.
Definition content (h : heap) (i : nat) : list item := match nth_error h i with Some b => b_content b | None => [] end.
(** 47-49: clear *)
Definition clear (h : heap) (i : nat) : heap := set_content h i [].
(** copy.deepcopy of an item: a copy of the whole heap stands for a copy of what the item reaches *)
Definition shift_item (n : nat) (x : item) : item := match x with Str t => Str t | Ref i => Ref (n + i) end.
Definition shift (n : nat) (b : buffer) : buffer := Buffer (b_begin b) (map (shift_item n) (b_content b)) (b_end b).
Definition deep_copy (h : heap) (x : item) : heap * item :=
  match x with Str t => (h, Str t) | Ref i => (h ++ map (shift (length h)) h, Ref (length h + i)) end.
(** 65-70: _append *)
Definition append1 (h : heap) (i : nat) (x : item) (deepcopy : bool) : heap :=
  let (h, x) := if deepcopy then deep_copy h x else (h, x) in
  set_content h i (content h i ++ [x]).
(** 53-61: append of a list or of an item *)
Definition append (h : heap) (i : nat) (data : list item) (deepcopy : bool) : heap :=
  fold_left (fun h x => append1 h i x deepcopy) data h.

(** ** Document.py *)
(** str.rfind *)
Fixpoint rfind_at (p s : text) : option nat :=
  match s with
  | [] => if starts p [] then Some 0 else None
  | _ :: s' => match rfind_at p s' with Some k => Some (S k) | None => if starts p s then Some 0 else None end
  end.
Definition rfind (p s : text) : Z := match rfind_at p s with Some k => Z.of_nat k | None => (-1)%Z end.
(** 41-49: the name of the file; filename[:-4] *)
Definition stem (filename : text) : text :=
  if (Z.of_nat (length filename) - rfind (lit ".tex") filename =? 4)%Z then firstn (length filename - 4) filename else filename.
(** 57-67: tex_filename, pdf_filename, output_directory *)
Definition tex_filename (stem : text) : text := stem ++ lit ".tex".
Definition pdf_filename (stem : text) : text := stem ++ lit ".pdf".
Definition output_directory (stem : text) : result text := Raise AttributeError.

(** str.format, where the fields are given by [field]; conversions, specifications and nested fields
    are not modelled.  [name] is the field being read. *)
Fixpoint format (field : text -> result text) (name : option text) (s : text) : result text :=
  match name with
  | Some n =>
      match s with
      | [] => Raise ValueError
      | c :: s =>
          if Ascii.eqb c "}"%char then v <- field n ;; t <- format field None s ;; Ok (v ++ t)
          else if Ascii.eqb c "{"%char then Raise ValueError
          else format field (Some (n ++ [c])) s
      end
  | None =>
      match s with
      | [] => Ok []
      | c :: s =>
          if Ascii.eqb c "{"%char then
            match s with
            | d :: s' => if Ascii.eqb d "{"%char then t <- format field None s' ;; Ok ("{"%char :: t) else format field (Some []) s
            | [] => Raise ValueError
            end
          else if Ascii.eqb c "}"%char then
            match s with
            | d :: s' => if Ascii.eqb d "}"%char then t <- format field None s' ;; Ok ("}"%char :: t) else Raise ValueError
            | [] => Raise ValueError
            end
          else t <- format field None s ;; Ok (c :: t)
      end
  end.
(** the characters « and » *)
Definition open_quote : ascii := ascii_of_nat 171.
Definition close_quote : ascii := ascii_of_nat 187.
(** 80-86: _format *)
Definition template (field : text -> result text) (pattern : text) : result text :=
  let pattern := replace (lit "{") (lit "{{") pattern in
  let pattern := replace (lit "}") (lit "}}") pattern in
  let pattern := replace [open_quote] (lit "{") pattern in
  let pattern := replace [close_quote] (lit "}") pattern in
  format field None pattern.

(** 41-55: a document; its preambule and its content are buffers *)
Record document := Document { d_stem : text; d_class : text; d_options : text; d_preambule : nat; d_content : nat }.
Definition new_document (h : heap) (filename class_name class_options : text) : heap * document :=
  let (h, p) := new_buffer h in
  let (h, c) := new_environment h (lit "document") [] in
  (h, Document (stem filename) class_name class_options p c).
(** 90-95: __str__ *)
Definition document_field (d : document) (name : text) : result text :=
  if text_eqb name (lit "0._class_options") then Ok (d_options d)
  else if text_eqb name (lit "0._class_name") then Ok (d_class d)
  else Raise AttributeError.
Definition document_str (limit : nat) (h : heap) (d : document) : result text :=
  line <- template (document_field d)
            (lit "\documentclass[" ++ [open_quote] ++ lit "0._class_options" ++ [close_quote] ++ lit "]{" ++
             [open_quote] ++ lit "0._class_name" ++ [close_quote] ++ lit "}") ;;
  p <- str limit h (d_preambule d) ;;
  c <- str limit h (d_content d) ;;
  Ok (line ++ newline ++ p ++ c).
(** 99-101: newpage *)
Definition newpage (h : heap) (d : document) : heap := append h (d_content d) [Str (lit "\newpage" ++ newline)] false.
