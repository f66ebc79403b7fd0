(** C35: the rewriting of formulas *)
From Coq Require Import String Ascii List Bool Arith.
From Verif Require Import Base ModelFormula SpecFormula ProofFormula ProofFormula2 ProofFormula3.
Import ListNotations.

(** A formula of [plain] is rewritten token by token: every special function by the call of the
    calculator, the custom measurement by its python name, everything else unchanged. *)
Theorem C35_rewriting_partial l measurements py : plain l ->
  (forall w, In (Custom w) l -> measurements (lit "@" ++ w) = Some (py (lit "@" ++ w)) /\ innocent (py (lit "@" ++ w))) ->
  compile measurements (formula_of l) = Ok (concat (map (python_of py) l)).
Proof. exact (compile_plain l measurements py). Qed.
Print Assumptions C35_rewriting_partial.

(** An unknown custom measurement is a KeyError, whatever the formula is. *)
Theorem C35_unknown s measurements names n : all_identifiers s (lit "@") = names -> In n names -> measurements n = None ->
  compile measurements s = Raise KeyError.
Proof. exact (compile_unknown s measurements names n). Qed.
Print Assumptions C35_unknown.

(** A formula in which nothing looks like a special function nor a custom measurement is not changed. *)
Theorem C35_unchanged s measurements : innocent s -> ~ In "@"%char s -> compile measurements s = Ok s.
Proof. exact (compile_innocent s measurements). Qed.
Print Assumptions C35_unchanged.

(** The statement is false when one of the conditions of [plain] is dropped: two custom measurements,
    a pair of points which is the beginning of another one, the current length written twice. *)
Theorem C35_customs_refuted : exists l py, Forall good_token l /\ separated l /\
  (forall w, In (Custom w) l -> innocent (py (lit "@" ++ w))) /\ (forall f args, ~ In (Call f args) l) /\ ~ In Current l /\
  compile (fun n => Some (py n)) (formula_of l) <> Ok (concat (map (python_of py) l)).
Proof. exact customs_refuted. Qed.
Print Assumptions C35_customs_refuted.
Theorem C35_pairs_refuted : exists l, Forall good_token l /\ separated l /\ ~ In Current l /\ (forall w, ~ In (Custom w) l) /\
  compile (fun n => None) (formula_of l) <> Ok (concat (map (python_of (fun n => n)) l)).
Proof. exact pairs_refuted. Qed.
Print Assumptions C35_pairs_refuted.
Theorem C35_current_refuted : exists l, Forall good_token l /\ separated l /\ (forall f args, ~ In (Call f args) l) /\ (forall w, ~ In (Custom w) l) /\
  compile (fun n => None) (formula_of l) <> Ok (concat (map (python_of (fun n => n)) l)).
Proof. exact current_refuted. Qed.
Print Assumptions C35_current_refuted.
(** ... and when the name of a measurement contains the name of a special function. *)
Theorem C35_word_refuted : exists w, word_only w /\ compile (fun n => None) w <> Ok w.
Proof. exact word_refuted. Qed.
Print Assumptions C35_word_refuted.

(** A formula of [plain] with everything in it *)
Example C35_example : plain demo /\
  formula_of demo = lit "2*(Line_A_B + @seam) - AngleLine_A_C/CurrentLength" /\
  compile (fun n => if list_eq_dec ascii_dec n (lit "@seam") then Some (lit "__custom__seam") else None) (formula_of demo) =
    Ok (lit "2*(__calculator__._function_Line('A', 'B') + __custom__seam) - __calculator__._function_AngleLine('A', 'C')/__calculator__._function_CurrentLength()").
Proof. exact demo_ok. Qed.
Example C35_two_customs : compile (fun n => Some (lit "py_" ++ tl n)) (lit "@a+@b") = Ok (lit "@a+py_b").
Proof. vm_compute. reflexivity. Qed.
Example C35_two_pairs : compile (fun n => None) (lit "Line_A_B+Line_A_B1") =
  Ok (lit "__calculator__._function_Line('A', 'B')+__calculator__._function_Line('A', 'B')1").
Proof. vm_compute. reflexivity. Qed.
