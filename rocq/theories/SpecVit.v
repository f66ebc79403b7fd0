(** What a set of Valentina measurements and a file of measurements are. *)
From Coq Require Import String Ascii List Bool Arith ZArith.
From Verif Require Import Base ModelFormula ModelMeasure ModelDate ModelVit SpecMeasure SpecDate.
From Verif Require ModelValFile.
Import ModelValFile(xml, Node, children, body).
Import ListNotations.
Local Open Scope result_scope.

(** The sign @ of the custom measurements is written C_. *)
Definition translated (s : text) : text := flat_map (fun c => if Ascii.eqb c "@"%char then lit "C_" else [c]) s.
Definition spelled (name : text) : text := scored (translated name).
Definition custom (name : text) : Prop := exists n, name = "@"%char :: n.
Record entry := Entry { e_name : text; e_value : text; e_full_name : text; e_description : text }.

Section Set_.
Variable number expression : Type.
Variable sympify : text -> result expression.
Variable of_number : number -> expression.
Variable float : number -> number.

(** The object of an entry, before its value is read *)
Record holds_entry (e : entry) (m : measurement number expression) : Prop := {
  he_name : m_name _ _ m = spelled (e_name e);
  he_expression : sympify (translated (e_value e)) = Ok (m_expression _ _ m);
  he_fresh : m_evaluated _ _ m = None /\ m_value _ _ m = None;
  he_texts : m_full_name _ _ m = e_full_name e /\ m_description _ _ m = e_description e }.
(** The names of the i-th entry *)
Definition called (es : list entry) (i : nat) (n : text) : Prop :=
  exists e, nth_error es i = Some e /\ (n = spelled (e_name e) \/ custom (e_name e) /\ n = e_name e).
(** The set made of entries *)
Record made_of (es : list entry) (s : vset number expression) : Prop := {
  mo_names : Forall (fun e => Forall permitted (spelled (e_name e))) es;
  mo_distinct : NoDup (map (fun e => spelled (e_name e)) es);
  mo_objects : Forall2 holds_entry es (v_objects _ _ s);
  mo_called : forall n i, In (n, i) (v_names _ _ s) <-> called es i n;
  mo_once : NoDup (map fst (v_names _ _ s));
  mo_order : map snd (v_names _ _ s) = concat (map (fun p => fst p :: match e_name (snd p) with "@"%char :: _ => [fst p] | _ => [] end) (combine (seq 0 (length es)) es));
  mo_expressions : v_expressions _ _ s = map (fun m => (m_name _ _ m, m_expression _ _ m)) (v_objects _ _ s) }.
Definition add_entry (s : vset number expression) (e : entry) : result (vset number expression) :=
  v_add number expression sympify of_number float s (Some (e_name e)) (Some (e_value e)) (e_full_name e) (e_description e).
Fixpoint add_entries (s : vset number expression) (es : list entry) : result (vset number expression) :=
  match es with
  | [] => Ok s
  | e :: es => s <- add_entry s e ;; add_entries s es
  end.

(** ** Files *)
(** The first element of a tag *)
Definition first (root : xml) (tag : string) (e : xml) : Prop :=
  (exists a b l, e = Node (lit tag) a b l) /\
  exists before after, children root = before ++ e :: after /\ forall a b l, ~ In (Node (lit tag) a b l) before.
Definition says (root : xml) (tag : string) (t : option text) : Prop := exists e, first root tag e /\ body e = t.
Definition attribute_or (a : list (text * text)) (name : string) (default v : text) : Prop :=
  lookup a (lit name) = Some v \/ lookup a (lit name) = None /\ v = default.
(** The element of a measurement *)
Definition entry_of (x : xml) (e : entry) : Prop :=
  exists a b l, x = Node (lit "m") a b l /\ attribute_or a "name" (lit "None") (e_name e) /\ lookup a (lit "value") = Some (e_value e) /\
    attribute_or a "full_name" [] (e_full_name e) /\ attribute_or a "description" [] (e_description e).
Record file_of (root : xml) (r : vitfile number expression) : Prop := {
  fo_version : exists t, says root "version" t;
  fo_unit : says root "unit" (vit_unit _ _ r);
  fo_system : says root "pm_system" (vit_system _ _ r);
  fo_personal : exists p, first root "personal" p /\ says p "customer" (vit_customer _ _ r) /\
    (exists t, says p "birth-date" t /\ a_date (match t with Some t => GText t | None => GNone end) (birth_date (vit_personal _ _ r))) /\
    (exists t, says p "gender" (Some t) /\ names_gender t (p_gender (vit_personal _ _ r))) /\
    (exists t, says p "email" t /\ email (vit_personal _ _ r) = match t with Some t => t | None => lit "None" end);
  fo_others : first_name (vit_personal _ _ r) = [] /\ last_name (vit_personal _ _ r) = [] /\ measurement_date (vit_personal _ _ r) = GNone /\
    comment (vit_personal _ _ r) = [] /\ set_unit _ _ r = None /\ set_system _ _ r = None;
  fo_measurements : exists b es, first root "body-measurements" b /\ Forall2 entry_of (children b) es /\ add_entries (empty_vset _ _) es = Ok (vit_set _ _ r) }.
End Set_.
