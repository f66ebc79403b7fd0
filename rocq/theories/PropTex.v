(** TeX documents. *)
From Coq Require Import String Ascii List Bool Arith ZArith Lia.
From Verif Require Import Base ModelFormula ModelMeasure ModelTex SpecTex ProofTex.
Import ListNotations.

(** C56: the text of a buffer is the flattening of what it holds, whatever the nesting, and a buffer has
    a text only if it holds a tree *)
Theorem C56_text : forall h i t, reads h i t <-> exists tr, holds h (Ref i) tr /\ flatten tr = t.
Proof. exact text_iff. Qed.
Print Assumptions C56_text.
Theorem C56_environment : forall h name options h' i, new_environment h name options = (h', i) ->
  holds h' (Ref i) (Node i (lit "\begin{" ++ name ++ lit "}" ++ (if text_eqb options [] then [] else lit "[" ++ options ++ lit "]") ++ newline) (lit "\end{" ++ name ++ lit "}" ++ newline) []) /\
  (forall x t, holds h x t -> holds h' x t) /\ (forall x t, holds h x t -> ~ In i (buffers t)).
Proof. exact new_env_ok. Qed.
Print Assumptions C56_environment.
Theorem C56_append : forall data h i f l c trees, holds h (Ref i) (Node i f l c) -> Forall2 (holds h) data trees -> (forall t, In t trees -> ~ In i (buffers t)) ->
  holds (append h i data false) (Ref i) (Node i f l (c ++ trees)).
Proof. exact append_ok. Qed.
Print Assumptions C56_append.
Theorem C56_clear : forall h i f l c, holds h (Ref i) (Node i f l c) -> holds (clear h i) (Ref i) (Node i f l []).
Proof. exact clear_ok. Qed.
Print Assumptions C56_clear.
Theorem C56_document : forall h d p c, holds h (Ref (d_preambule d)) p -> holds h (Ref (d_content d)) c ->
  exists n, forall m, n <= m -> document_str m h d = Ok (lit "\documentclass[" ++ d_options d ++ lit "]{" ++ d_class d ++ lit "}" ++ newline ++ flatten p ++ flatten c).
Proof. exact document_ok. Qed.
Print Assumptions C56_document.
(** A new page goes to the end of the content; the preambule is kept *)
Theorem C56_newpage : forall h d f l c, holds h (Ref (d_content d)) (Node (d_content d) f l c) ->
  holds (newpage h d) (Ref (d_content d)) (Node (d_content d) f l (c ++ [Leaf (lit "\newpage" ++ newline)])) /\
  forall p, holds h (Ref (d_preambule d)) p -> ~ In (d_content d) (buffers p) -> holds (newpage h d) (Ref (d_preambule d)) p.
Proof. exact newpage_ok. Qed.
Print Assumptions C56_newpage.
(** Names: with or without suffix, except for the names of three characters *)
Theorem C56_file_partial : forall name, length name <> 3 -> ~ has_suffix name ->
  tex_filename (stem name) = name ++ lit ".tex" /\ tex_filename (stem (name ++ lit ".tex")) = name ++ lit ".tex".
Proof. exact file_name. Qed.
Print Assumptions C56_file_partial.
Theorem C56_file_refuted : forall name, length name = 3 ->
  tex_filename (stem name) = lit ".tex" /\ tex_filename (stem (name ++ lit ".tex")) = name ++ lit ".tex" /\ name ++ lit ".tex" <> lit ".tex".
Proof. exact file_name_three. Qed.
Print Assumptions C56_file_refuted.
Definition newline_text : string := String (ascii_of_nat 10) EmptyString.
Example C56_example :
  let (h, outer) := new_environment [] (lit "center") [] in
  let (h, inner) := new_environment h (lit "tikzpicture") (lit "x=8mm") in
  let h := append h outer [Ref inner] false in
  let h := append h inner [Str (lit "a"); Str (lit "b")] false in
  str 3 h outer = Ok (lit ("\begin{center}" ++ newline_text ++ "\begin{tikzpicture}[x=8mm]" ++ newline_text ++ "ab\end{tikzpicture}" ++ newline_text ++ "\end{center}" ++ newline_text)%string).
Proof. vm_compute. reflexivity. Qed.
Example C56_three : tex_filename (stem (lit "out")) = lit ".tex" /\ tex_filename (stem (lit "figure")) = lit "figure.tex" /\ tex_filename (stem (lit "out.tex")) = lit "out.tex".
Proof. vm_compute. auto. Qed.

(** C89: buffers are shared unless a copy is asked *)
Theorem C89_shared : forall h i j fi li ci fj lj cj x tr,
  holds h (Ref i) (Node i fi li ci) -> holds h (Ref j) (Node j fj lj cj) -> holds h x tr ->
  ~ In i (buffers (Node j fj lj cj)) -> ~ In i (buffers tr) -> ~ In j (buffers tr) -> ~ In j (flat_map buffers ci) ->
  holds (append1 (append1 h i (Ref j) false) j x false) (Ref i) (Node i fi li (ci ++ [Node j fj lj (cj ++ [tr])])).
Proof. exact shared_seen. Qed.
Print Assumptions C89_shared.
Theorem C89_copied : forall h i j fi li ci fj lj cj x, i <> j ->
  holds h (Ref i) (Node i fi li ci) -> holds h (Ref j) (Node j fj lj cj) -> ~ In j (flat_map buffers ci) ->
  exists tr, holds (append1 (append1 h i (Ref j) true) j x false) (Ref i) (Node i fi li (ci ++ [tr])) /\ flatten tr = flatten (Node j fj lj cj).
Proof. exact copy_kept. Qed.
Print Assumptions C89_copied.
(** and a buffer put into itself has no text any more, whatever is appended later *)
Theorem C89_self : forall h i k, i < length h -> forall m, ~ is_ok (str m (append h i (Ref i :: k) false) i).
Proof. exact append_self. Qed.
Print Assumptions C89_self.
Example C89_example :
  let h := [Buffer (lit "(") [] (lit ")"); Buffer (lit "[") [Str (lit "x")] (lit "]")] in
  str 5 (append1 (append1 h 0 (Ref 1) false) 1 (Str (lit "y")) false) 0 = Ok (lit "([xy])") /\
  str 5 (append1 (append1 h 0 (Ref 1) true) 1 (Str (lit "y")) false) 0 = Ok (lit "([x])").
Proof. vm_compute. auto. Qed.

(** C90: a template is filled between the quotes and nowhere else *)
Theorem C90_template : forall field l, Forall plain_piece l -> template field (flat_map quoted l) = filled field l.
Proof. exact template_ok. Qed.
Print Assumptions C90_template.
Example C90_example : template (fun n => Ok (lit "{v}")) (lit "\draw {" ++ [open_quote] ++ lit "0" ++ [close_quote] ++ lit "};") = Ok (lit "\draw {{v}};").
Proof. vm_compute. reflexivity. Qed.

(** C91: the directory of a document *)
Theorem C91_directory_refuted : forall stem, output_directory stem = Raise AttributeError.
Proof. reflexivity. Qed.
Print Assumptions C91_directory_refuted.
Theorem C91_pdf_partial : forall name, length name <> 3 -> ~ has_suffix name -> pdf_filename (stem name) = name ++ lit ".pdf" /\ pdf_filename (stem (name ++ lit ".tex")) = name ++ lit ".pdf".
Proof. exact pdf_name. Qed.
Print Assumptions C91_pdf_partial.
