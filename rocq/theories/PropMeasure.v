(** C37 and C80: the sets of measurements.  The numbers and the sympy expressions are arbitrary. *)
From Coq Require Import String Ascii List Bool Arith.
From Verif Require Import Base ModelFormula ModelMeasure SpecMeasure ProofMeasure ProofMeasure2.
Import ListNotations.

Section Any.
Context {number expression : Type} (sympify : text -> result expression) (of_number : number -> expression)
  (float : number -> number) (subs : expression -> list (text * expression) -> expression) (evalf : expression -> result number).
Notation run := (measure_run number expression sympify of_number float subs evalf).
Notation add := (add number expression sympify of_number float).
Notation read := (read_value number expression subs evalf).
Notation get := (get_item number expression).
Notation all := (iter number expression).

(** After any history the names are distinct, made of permitted characters, and found. *)
Theorem C37_names h : NoDup (map (m_name _ _) (all (run h))) /\
  Forall (fun m => Forall permitted (m_name _ _ m) /\ get (run h) (m_name _ _ m) = Ok m) (all (run h)).
Proof. exact (names_ok _ _ sympify of_number float subs evalf h). Qed.

(** A rejected addition leaves the set unchanged, and is one of three faults. *)
Theorem C37_rejected h n v f d e : snd (add (run h) n v f d) = Raise e ->
  fst (add (run h) n v f d) = run h /\
  (~ Forall permitted (scored n) /\ e = ValueError \/
   (exists t, v = Text _ t /\ sympify t = Raise e) \/
   In (scored n) (map (m_name _ _) (all (run h))) /\ e = NameError).
Proof. exact (rejected_ok _ _ sympify of_number float subs evalf h n v f d e). Qed.

(** An accepted one is found under its name and does not disturb the others. *)
Theorem C37_added h n v f d m : snd (add (run h) n v f d) = Ok m ->
  m_name _ _ m = scored n /\ expression_of number expression sympify of_number v = Some (m_expression _ _ m) /\ m_full_name _ _ m = f /\ m_description _ _ m = d /\
  get (fst (add (run h) n v f d)) (scored n) = Ok m /\ get (run h) (scored n) = Raise KeyError /\
  (forall k, k <> scored n -> get (fst (add (run h) n v f d)) k = get (run h) k) /\
  all (fst (add (run h) n v f d)) = all (run h) ++ [m].
Proof. exact (added_ok _ _ sympify of_number float subs evalf h n v f d m). Qed.

(** Whatever happens next, it keeps its name, its expression and its texts. *)
Theorem C37_kept h h' n m : get (run h) n = Ok m ->
  exists m', get (run (h ++ h')) n = Ok m' /\ m_name _ _ m' = n /\ m_expression _ _ m' = m_expression _ _ m /\
    m_full_name _ _ m' = m_full_name _ _ m /\ m_description _ _ m' = m_description _ _ m.
Proof. exact (kept_ok _ _ sympify of_number float subs evalf h h' n m). Qed.

(** The set holds exactly the accepted additions, in order. *)
Theorem C37_history h : exists out, accepted number expression sympify of_number [] h out /\
  map (fun m => (m_name _ _ m, m_expression _ _ m)) (all (run h)) = out.
Proof. exact (history_ok _ _ sympify of_number float subs evalf h). Qed.

(** The value of an expression is the one of the expressions of the set when it is first read. *)
Theorem C80_value_partial h n m : only_adds h -> get (run h) n = Ok m -> m_value _ _ m = None ->
  snd (read (run h) n) = evalf (subs (m_expression _ _ m) (map (fun m => (m_name _ _ m, m_expression _ _ m)) (all (run h)))).
Proof. exact (value_fresh _ _ sympify of_number float subs evalf h n m). Qed.

(** A value which was read never changes. *)
Theorem C80_stable h n x : snd (read (run h) n) = Ok x -> forall h', snd (read (run (h ++ OpValue _ n :: h')) n) = Ok x.
Proof. exact (value_stable _ _ sympify of_number float subs evalf h n x). Qed.
End Any.
Print Assumptions C37_names.
Print Assumptions C37_rejected.
Print Assumptions C37_added.
Print Assumptions C37_kept.
Print Assumptions C37_history.
Print Assumptions C80_value_partial.
Print Assumptions C80_stable.

(** A name of ASCII characters which starts by a letter or a score is stored as an identifier. *)
Theorem C37_identifier_partial n r : validate_name n = Ok r ->
  match n with [] => False | c :: _ => ~ (48 <= nat_of_ascii c <= 57) end -> Forall (fun c => nat_of_ascii c < 128) n -> identifier r.
Proof. exact (identifier_ok n r). Qed.
Print Assumptions C37_identifier_partial.
(** Otherwise not: the empty name, a name which starts by a digit, a fraction. *)
Theorem C37_identifier_refuted : exists a b c, validate_name a = Ok a /\ validate_name b = Ok b /\ validate_name c = Ok c /\
  a = [] /\ b = lit "1a" /\ c = ["a"; ascii_of_nat 189]%char /\ ~ identifier a /\ ~ identifier b /\ ~ identifier c.
Proof. exact identifier_refuted. Qed.
Print Assumptions C37_identifier_refuted.

(** The value depends on when it is read: read too early, it is lost. *)
Theorem C80_order_refuted : exists h h' n, incl h' h /\ incl h h' /\
  snd (sums_read (sums_run h) n) <> snd (sums_read (sums_run h') n).
Proof. exact order_refuted. Qed.
Print Assumptions C80_order_refuted.

Example C37_example :
  map (fun m => (m_name _ _ m, m_expression _ _ m))
    (iter _ _ (sums_run [OpAdd _ (lit "hip height") (Number _ 3) [] []; OpAdd _ (lit "a+b") (Number _ 1) [] []; OpAdd _ (lit "hip_height") (Number _ 4) [] []; OpAdd _ (lit "x") (Text _ (lit "hip_height")) [] []]))
  = [(lit "hip_height", [Left 3]); (lit "x", [Right (lit "hip_height")])].
Proof. vm_compute. reflexivity. Qed.
Example C80_example : let h := [OpAdd _ (lit "hip") (Number _ 3) [] []; OpAdd _ (lit "x") (Text _ (lit "hip")) [] []] in
  only_adds h /\ snd (sums_read (sums_run h) (lit "x")) = Ok 3.
Proof. split; [repeat constructor|]. vm_compute. reflexivity. Qed.
