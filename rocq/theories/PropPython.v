(** The Python code of an operation. *)
From Coq Require Import String Ascii List Bool.
From Verif Require Import Base ModelSketch ModelPython SpecPython ProofPython.
From Verif Require ModelFormula.
Import ModelFormula(text, lit).
Import ListNotations.

(** C125: the code is a call of the constructor with the arguments of the operation, and can be read in one way only *)
Theorem C125_code_partial : forall k attributes values, Forall2 (fun a x => stands_for (attributes a) x) (arguments_of k) values ->
  call (to_python k attributes) (class_name k) (combine (arguments_of k) values) /\
  forall c l, call (to_python k attributes) c l -> c = class_name k /\ l = combine (arguments_of k) values.
Proof. exact (fun k f v H => conj (code_ok k f v H) (fun c l K => call_unique _ _ _ _ _ K (code_ok k f v H))). Qed.
Print Assumptions C125_code_partial.
(** The constructor makes the same attributes of them. *)
Theorem C125_rebuilt_partial : forall number_str k attributes a x, constructed attributes -> In a (arguments_of k) -> stands_for (attributes a) x ->
  alike number_str (attributes a) (initialised a (evaluated number_str x)).
Proof. exact rebuilt_ok. Qed.
Print Assumptions C125_rebuilt_partial.
(** What counts as a number *)
Theorem C125_is_float : forall t, is_float t = true <-> float_text t.
Proof. exact is_float_ok. Qed.
Print Assumptions C125_is_float.
(** A line style or a colour is printed as nothing. *)
Theorem C125_style_refuted : forall k attributes before a after, arguments_of k = before ++ a :: after ->
  (forall b, In b before -> exists x, stands_for (attributes b) x) -> attributes a = VOther ->
  forall c l, ~ call (to_python k attributes) c l.
Proof. exact other_refuted. Qed.
Print Assumptions C125_style_refuted.
(** The quotes of a name are not escaped. *)
Theorem C125_quote_refuted : forall k attributes before a after p d q, arguments_of k = before ++ a :: after ->
  (forall b, In b before -> exists x, stands_for (attributes b) x) ->
  attributes a = VString (p ++ "'"%char :: d :: q) -> Forall plain_char p -> ~ (d = "," \/ d = ")")%char ->
  forall c l, ~ call (to_python k attributes) c l.
Proof. exact quote_refuted. Qed.
Print Assumptions C125_quote_refuted.
(** A text which float accepts is not always a number for Python. *)
Theorem C125_nan_refuted : float_text (lit "nan") /\ forall k attributes before a after, arguments_of k = before ++ a :: after ->
  (forall b, In b before -> exists x, stands_for (attributes b) x) -> attributes a = VExpression (lit "nan") ->
  forall c l, ~ call (to_python k attributes) c l.
Proof. exact (conj (proj1 (is_float_ok (lit "nan")) eq_refl) nan_refuted). Qed.
Print Assumptions C125_nan_refuted.

(** A point, and its code *)
Definition example_attributes (a : text) : attribute :=
  if ModelMeasure.text_eqb a (lit "name") then VString (lit "A") else
  if ModelMeasure.text_eqb a (lit "label_offset") then VVector (lit "1.5") (lit "-2.0") else
  if ModelMeasure.text_eqb a (lit "length") then VExpression (lit "waist_circ/2") else
  if ModelMeasure.text_eqb a (lit "angle") then VExpression (lit "90") else
  if ModelMeasure.text_eqb a (lit "base_point") then VPoint (lit "O") else VNone.
Example C125_example : to_python KEnd example_attributes =
    lit "EndLinePoint(sketch, name='A', base_point='O', angle=90, length='waist_circ/2', label_offset=Vector2D(1.5, -2.0), line_style=None, line_color=None)" /\
  exists values, Forall2 (fun a x => stands_for (example_attributes a) x) (arguments_of KEnd) values.
Proof.
  split; [reflexivity|]. exists [LString (lit "A"); LString (lit "O"); LNumber (lit "90"); LString (lit "waist_circ/2"); LVector (lit "1.5") (lit "-2.0"); LNone; LNone].
  assert (P : forall t, forallb (fun c => negb (existsb (Ascii.eqb c) ["'"; "\"; ascii_of_nat 10; ascii_of_nat 13; ascii_of_nat 0]%char)) t = true -> Forall plain_char t).
  { intros t H. apply Forall_forall. intros c I. rewrite forallb_forall in H. specialize (H c I). repeat split; intros ->; discriminate H. }
  assert (D : forall c, digit c = true -> is_digit c).
  { intros c H. unfold digit in H. apply andb_true_iff in H as (A & B). apply PeanoNat.Nat.leb_le in A, B. split; assumption. }
  assert (N1 : number (lit "90")).
  { exists [], [], (lit "90"), []. split; [reflexivity|]. split; [constructor|]. split; [auto|]. split; [|constructor].
    apply integer; [apply digit_more; [apply D; reflexivity|apply digit_one, D; reflexivity]|discriminate]. }
  assert (N2 : number (lit "1.5")).
  { exists [], [], (lit "1.5"), []. split; [reflexivity|]. split; [constructor|]. split; [auto|]. split; [|constructor].
    apply (with_point (lit "1") (lit "5") []); [apply digit_one, D; reflexivity|right; apply digit_one, D; reflexivity|constructor]. }
  assert (N3 : number (lit "-2.0")).
  { exists [], ["-"%char], (lit "2.0"), []. split; [reflexivity|]. split; [constructor|]. split; [auto|]. split; [|constructor].
    apply (with_point (lit "2") (lit "0") []); [apply digit_one, D; reflexivity|right; apply digit_one, D; reflexivity|constructor]. }
  constructor; [apply for_string, P; reflexivity|]. constructor; [apply for_point, P; reflexivity|]. constructor; [apply for_constant; [apply is_float_ok; reflexivity|exact N1]|].
  constructor; [apply for_expression; [apply not_float; reflexivity|apply P; reflexivity]|]. constructor; [apply for_vector; assumption|]. constructor; [apply for_none|]. constructor; [apply for_none|constructor].
Qed.
