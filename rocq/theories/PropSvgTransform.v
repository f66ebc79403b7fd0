(** C41: transform attributes of SVG. *)
From Coq Require Import String Ascii List Bool Arith Reals ZArith Lia Lra.
From Verif Require Import Base ModelFormula ModelMeasure ModelXml ModelVector ModelTransformation ModelSvgPath ModelSvgTransform.
From Verif Require Import SpecVector SpecTransformation SpecSvgPath SpecSvgTransform ProofSvgTransform.
Import ListNotations.
Local Open Scope R_scope.

(** One transform, written without spaces, is read as what SVG means by it: for matrix, translate,
    rotate and scale with two values.  Missing: lists, spaces, scale with one value, skewX, skewY. *)
Theorem C41_single_partial : forall float_parse name ws values tf,
  ~ In "("%char name -> ~ In ")"%char name -> ~ In " "%char name ->
  ws <> [] -> Forall (fun w => ~ In ")"%char w /\ ~ In ","%char w /\ ~ In " "%char w) ws -> Forall2 (fun w x => float_parse w = Ok x) ws values ->
  means name values tf -> readable name values ->
  exists t, transform_from_xml float_parse (transform_text name ws) = Ok t /\ forall p, apply t p = image tf p.
Proof. exact single_ok. Qed.
Print Assumptions C41_single_partial.

(** With spaces, it is applied as many times as there are words. *)
Theorem C41_repeated : forall float_parse name ws values tf,
  ~ In "("%char name -> ~ In ")"%char name ->
  ws <> [] -> Forall (fun w => ~ In ")"%char w /\ ~ In ","%char w) ws -> Forall2 (fun w x => float_parse w = Ok x) ws values ->
  means name values tf -> readable name values ->
  exists t, transform_from_xml float_parse (transform_text name ws) = Ok t /\
    forall p, apply t p = iterate (length (split_space_list (transform_text name ws))) (image tf) p.
Proof. exact repeated_ok. Qed.
Print Assumptions C41_repeated.
Theorem C41_spaces_refuted : exists t, transform_from_xml zparse (lit "translate(1, 2)") = Ok t /\ forall p, apply t p = V (vx p + 2) (vy p + 4).
Proof. exact spaces_refuted. Qed.
Print Assumptions C41_spaces_refuted.

(** Anything after the first closing parenthesis is refused: so is every list of two transforms. *)
Theorem C41_list_refuted : forall float_parse a b, In ")"%char a -> b <> [] -> transform_from_xml float_parse (a ++ b) = Raise ValueError.
Proof. exact several_raise. Qed.
Print Assumptions C41_list_refuted.
Example C41_list_example : transform_from_xml zparse (lit "translate(1,2) scale(2,2)") = Raise ValueError.
Proof. exact (C41_list_refuted zparse (lit "translate(1,2)") (lit " scale(2,2)") ltac:(cbn; tauto) ltac:(discriminate)). Qed.

(** The conversion of a list of transforms applies the first one first; SVG applies the last one first. *)
Theorem C41_order : forall l tfs, Forall2 read_as l tfs -> forall g, affine g ->
  exists t, to_python l g = Ok t /\ affine t /\ forall p, apply t p = images (rev tfs) (apply g p).
Proof. exact to_python_ok. Qed.
Print Assumptions C41_order.
Theorem C41_order_refuted : exists t, to_python [(lit "translate", [1; 0]); (lit "scale", [2; 2])] identity = Ok t /\
  apply t (V 0 0) <> images [Translate 1 0; Scale 2 2] (V 0 0).
Proof. exact order_refuted. Qed.
Print Assumptions C41_order_refuted.

Theorem C41_scale_refuted : forall x t, one_transform (lit "scale") [x] = Raise TypeError /\ to_python [(lit "scale", [x])] t = Raise TypeError.
Proof. exact scale_raises. Qed.
Print Assumptions C41_scale_refuted.
Theorem C41_skew_refuted : forall name x, name = lit "skewX" \/ name = lit "skewY" -> one_transform name [x] = Raise NotImplementedError.
Proof. exact skew_raises. Qed.
Print Assumptions C41_skew_refuted.

(** What is written is never read back: nine numbers with spaces are read as one number. *)
Theorem C41_round_trip_refuted : forall float_str float_parse t, refuses_spaces float_parse -> (forall x, float_str x <> []) ->
  (forall x c, In c (float_str x) -> is_space c = false /\ c <> "("%char /\ c <> ")"%char /\ c <> ","%char) ->
  transform_from_xml float_parse (transform_to_xml float_str t) = Raise ValueError.
Proof. exact round_trip_raises. Qed.
Print Assumptions C41_round_trip_refuted.
(** Integers refuse spaces as the hypothesis says. *)
Example C41_integers : refuses_spaces zparse.
Proof. exact int_refuses_spaces. Qed.
Example C41_example : exists t, transform_from_xml zparse (lit "matrix(1,2,3,4,5,6)") = Ok t /\ forall p, apply t p = image (Matrix 1 2 3 4 5 6) p.
Proof.
  apply (C41_single_partial zparse (lit "matrix") [lit "1"; lit "2"; lit "3"; lit "4"; lit "5"; lit "6"] [1; 2; 3; 4; 5; 6] (Matrix 1 2 3 4 5 6)).
  1-3: cbn; intuition discriminate.
  - discriminate.
  - repeat constructor; cbn; intuition discriminate.
  - repeat constructor.
  - constructor.
  - left. split; reflexivity.
Qed.
