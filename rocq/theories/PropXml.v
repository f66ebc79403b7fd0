(** C38, C81, C82, C83: the XML attributes *)
From Coq Require Import String Ascii List Bool Arith ZArith.
From Verif Require Import Base ModelFormula ModelMeasure ModelXml SpecXml ProofXml ProofXml2 ProofXml3.
Import ListNotations.

(** Writing an object and reading the element gives an object with the same attributes; an attribute
    is absent of the element exactly when it is None.  For every float type whose text is read back. *)
Theorem C38_round_trip_partial {float : Type} (float_str : float -> text) float_parse float_of_int int_of_float float_truth :
  faithful float_str float_parse ->
  forall table i, consistent table -> (forall a, In a table -> fine i a) ->
  exists e i', object_to_xml float float_str float_truth table i = Ok e /\
    read_object float float_str float_parse float_of_int int_of_float table e = Ok i' /\
    forall a, In a table -> get_attribute float i' a = get_attribute float i a /\ (lookup e (a_xml _ a) = None <-> get_attribute float i a = Ok (VNone _)).
Proof. exact (round_trip_ok float_str float_parse float_of_int int_of_float float_truth). Qed.
Print Assumptions C38_round_trip_partial.
(** The text of an integer is read as this integer. *)
Theorem C38_integers z : int_parse (int_str z) = Ok z.
Proof. exact (int_back z). Qed.
Print Assumptions C38_integers.
(** Without the conditions it is false: an empty list cannot be read back, None is read back as the
    default value when there is one. *)
Theorem C38_lists_refuted : exists table i e, zwrite table i = Ok e /\ get_attribute Z i (attr "points" KFloatList (VNone _)) = Ok (VList _ []) /\
  In (attr "points" KFloatList (VNone _)) table /\ zread table e = Raise ValueError.
Proof. exact lists_refuted. Qed.
Print Assumptions C38_lists_refuted.
Theorem C38_absent_refuted : exists a i e i', get_attribute Z i a = Ok (VNone _) /\ zwrite [a] i = Ok e /\ zread [a] e = Ok i' /\ get_attribute Z i' a <> Ok (VNone _).
Proof. exact absent_refuted. Qed.
Print Assumptions C38_absent_refuted.
Theorem C38_comma_refuted : exists s, s = lit "1, 2" /\ from_xml Z int_str int_parse (fun z => Ok z) (fun z => Ok z) KFloatList (VStr _ s) = Raise ValueError.
Proof. exact comma_refuted. Qed.
Print Assumptions C38_comma_refuted.

(** An element which is written holds the text of every attribute which is not None, and these are
    texts that XML accepts. *)
Theorem C38_exact {float : Type} (float_str : float -> text) float_truth table i e : consistent table ->
  object_to_xml float float_str float_truth table i = Ok e -> forall a, In a table ->
  exists v, get_attribute float i a = Ok v /\
    (v <> VNone _ -> exists s, to_xml float float_str float_truth (a_kind _ a) v = Ok s /\ lookup e (a_xml _ a) = Some s /\ xml_text s).
Proof. exact (write_exact float_str float_truth table i e). Qed.
Print Assumptions C38_exact.
(** The texts of the booleans; any other one is refused. *)
Theorem C38_booleans {float : Type} (float_str : float -> text) float_parse float_of_int int_of_float t b :
  from_xml float float_str float_parse float_of_int int_of_float KBool (VStr _ t) = Ok (VBool _ b) <->
  In t (if b then [lit "true"; lit "1"] else [lit "false"; lit "0"]).
Proof. exact (boolean_texts float_str float_parse float_of_int int_of_float t b). Qed.
Print Assumptions C38_booleans.
Theorem C38_not_boolean {float : Type} (float_str : float -> text) float_parse float_of_int int_of_float t :
  ~ In t [lit "true"; lit "1"; lit "false"; lit "0"] ->
  from_xml float float_str float_parse float_of_int int_of_float KBool (VStr _ t) = Raise ValueError.
Proof. exact (boolean_other float_str float_parse float_of_int int_of_float t). Qed.
Print Assumptions C38_not_boolean.

(** An object made with keywords has these values, but for the booleans. *)
Theorem C81_keywords_partial {float : Type} (float_str : float -> text) float_parse float_of_int int_of_float table kwargs :
  (forall a b, In a table -> In b table -> a_py float a = a_py _ b -> a = b) ->
  (forall a v, In a table -> lookup kwargs (a_py _ a) = Some v -> keyword_suits (a_kind _ a) v) ->
  exists i, init_from_kwargs float float_str float_parse float_of_int int_of_float table kwargs [] = Ok i /\
    forall a, In a table -> get_attribute float i a = Ok (keyword kwargs a).
Proof. exact (keywords_ok float_str float_parse float_of_int int_of_float table kwargs). Qed.
Print Assumptions C81_keywords_partial.
(** A boolean given as a python bool is refused, whatever the other keywords are. *)
Theorem C81_bool_refuted {float : Type} (float_str : float -> text) float_parse float_of_int int_of_float table kwargs a b :
  In a table -> a_kind float a = KBool -> lookup kwargs (a_py _ a) = Some (VBool _ b) ->
  forall i, exists e, init_from_kwargs float float_str float_parse float_of_int int_of_float table kwargs i = Raise e.
Proof. exact (keywords_bool float_str float_parse float_of_int int_of_float table kwargs a b). Qed.
Print Assumptions C81_bool_refuted.

(** A class has its own attributes and the ones of all the classes it inherits from. *)
Theorem C82_inherited {float : Type} own bases mro (a : attribute float) : In a (table_of _ (Class _ false own bases mro)) <->
  In a own \/ exists b d, In b bases /\ reach b d /\ In a (own_of d).
Proof. exact (table_ok own bases mro a). Qed.
Print Assumptions C82_inherited.
(** Its own attributes win. *)
Theorem C82_own {float : Type} (float_str : float -> text) float_parse float_of_int int_of_float own bases mro e i :
  (forall a b, In a own -> In b own -> a_py float a = a_py _ b -> a = b) ->
  read_object float float_str float_parse float_of_int int_of_float (table_of _ (Class _ false own bases mro)) e = Ok i -> forall a, In a own ->
  get_attribute _ i a = match lookup e (a_xml _ a) with
                        | Some s => from_xml float float_str float_parse float_of_int int_of_float (a_kind _ a) (VStr _ s)
                        | None => Ok (a_default _ a)
                        end.
Proof. exact (own_ok float_str float_parse float_of_int int_of_float own bases mro e i). Qed.
Print Assumptions C82_own.

(** The text of an element is lost when it is read, whatever it is. *)
Theorem C83_text_refuted : exists table i t e t', text_object_to_xml Z int_str (fun x => negb (x =? 0)%Z) table i t = Ok (e, t) /\
  read_text_object Z int_str int_parse (fun z => Ok z) (fun z => Ok z) table e t = Ok (i, t') /\ t' <> t.
Proof. exact text_refuted. Qed.
Print Assumptions C83_text_refuted.

Example C38_example : faithful int_str int_parse /\ consistent demo_table /\ (forall a, In a demo_table -> fine demo_object a) /\
  zwrite demo_table demo_object = Ok [(lit "id", lit "-12"); (lit "points", lit "1 -2 30"); (lit "label", lit "A b")] /\
  zread demo_table [(lit "id", lit "-12"); (lit "points", lit "1 -2 30"); (lit "label", lit "A b")] = Ok demo_object.
Proof. split; [exact integers_faithful|]. split; [apply demo_fine|]. split; [apply demo_fine|]. split; vm_compute; reflexivity. Qed.
Example C81_example : zkeywords demo_table [(lit "id", VInt _ 3%Z); (lit "label", VStr _ (lit "x"))] [] =
  Ok [(lit "id", VInt _ 3%Z); (lit "points", VNone _); (lit "label", VStr _ (lit "x")); (lit "shown", VNone _)].
Proof. vm_compute. reflexivity. Qed.
Example C82_example : let a := attr "a" KInt (VNone _) in let b := attr "b" KInt (VNone _) in let c := attr "c" KInt (VNone _) in
  let A := Class _ false [a] [] [] in let M := Class _ true [b] [] [] in
  table_of _ (Class _ false [c] [A; M] [A; M]) = [a; b; c].
Proof. reflexivity. Qed.
