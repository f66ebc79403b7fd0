(** C54, C84, C85: colours. *)
From Coq Require Import String Ascii List Bool Arith ZArith NArith.
From Flocq Require Import Core BinarySingleNaN.
From Verif Require Import Base ModelFormula ModelMeasure ModelXml ModelColor ModelColorData SpecColor ProofColor ProofColor2.
Import ListNotations.

(** A colour read from a text, or made of three integers, has these components and this text. *)
Theorem C54_text : forall s r g b name, byte r -> byte g -> byte b -> spells s r g b ->
  exists c, new_color [AText s] name = Ok c /\ components c r g b /\ color_str c = Ok (rgb_text r g b) /\ c_name c = name.
Proof. exact text_ok. Qed.
Print Assumptions C54_text.
Theorem C54_integers : forall r g b name, byte r -> byte g -> byte b ->
  exists c, new_color [AInt r; AInt g; AInt b] name = Ok c /\ components c r g b /\ color_str c = Ok (rgb_text r g b) /\ c_name c = name.
Proof. exact ints_ok. Qed.
Print Assumptions C54_integers.
(** Every colour made of three values, floats or integers, and what is made of it by setters, is
    valid; its components are bytes. *)
Theorem C54_valid : forall a1 a2 a3 name c, new_color [a1; a2; a3] name = Ok c -> valid c /\ c_name c = name.
Proof. exact three_ok. Qed.
Print Assumptions C54_valid.
Theorem C54_setters : forall c a, valid c ->
  (forall d, set_red c a = Ok d -> valid d /\ c_green d = c_green c /\ c_blue d = c_blue c /\ c_name d = c_name c /\ check_value a = Ok (c_red d)) /\
  (forall d, set_green c a = Ok d -> valid d /\ c_red d = c_red c /\ c_blue d = c_blue c /\ c_name d = c_name c /\ check_value a = Ok (c_green d)) /\
  (forall d, set_blue c a = Ok d -> valid d /\ c_red d = c_red c /\ c_green d = c_green c /\ c_name d = c_name c /\ check_value a = Ok (c_blue d)).
Proof. exact setters_ok. Qed.
Print Assumptions C54_setters.
Theorem C54_components : forall c, valid c ->
  exists r g b, byte r /\ byte g /\ byte b /\ components c r g b /\ color_str c = Ok (rgb_text r g b).
Proof. exact valid_components. Qed.
Print Assumptions C54_components.
(** Two colours are equal exactly when their three components are. *)
Theorem C54_equal : forall c d, valid c -> valid d ->
  exists b, color_eq c d = Ok b /\ (b = true <-> red c = red d /\ green c = green d /\ blue c = blue d).
Proof. exact equal_ok. Qed.
Print Assumptions C54_equal.
(** The text of a colour is read as an equal colour; so is a copy; a clone is the same colour. *)
Theorem C54_round_trip : forall c name, valid c ->
  exists t d, color_str c = Ok t /\ new_color [AText t] name = Ok d /\ color_str d = Ok t /\ color_eq c d = Ok true.
Proof. exact text_round_trip. Qed.
Print Assumptions C54_round_trip.
Theorem C54_copy : forall c name, valid c ->
  exists d, new_color [AColor c] name = Ok d /\ red d = red c /\ green d = green c /\ blue d = blue c /\ color_str d = color_str c /\ valid d.
Proof. exact copy_ok. Qed.
Print Assumptions C54_copy.
Theorem C54_clone : forall c, valid c -> clone c = Ok c.
Proof. exact clone_ok. Qed.
Print Assumptions C54_clone.
Definition text_result (r : result color) : result text := bind r color_str.
Example C54_example : text_result (new_color [AText (lit "#1F77b4")] None) = Ok (lit "#1f77b4") /\
  text_result (new_color [AFloat (of_int 1); AInt 128; AFloat (fdiv (of_int 1) (of_int 2))] None) = Ok (lit "#ff807f").
Proof. split; vm_compute; reflexivity. Qed.
Example C54_example_spelled : spells (lit "#1F77b4") 31 119 180 /\ byte 31 /\ byte 119 /\ byte 180.
Proof. split; [constructor; (left; reflexivity) || (right; reflexivity)|unfold byte; repeat split; discriminate]. Qed.

(** C84: what is not #rrggbb is not always refused, nor read as in CSS: three digits, eight digits,
    signs. *)
Theorem C84_short_refuted : text_result (new_color [AText (lit "#abc")] None) = Ok (lit "#ab0cbc").
Proof. vm_compute. reflexivity. Qed.
Print Assumptions C84_short_refuted.
Theorem C84_long_refuted : text_result (new_color [AText (lit "#11223344")] None) = Ok (lit "#112244").
Proof. vm_compute. reflexivity. Qed.
Print Assumptions C84_long_refuted.
Theorem C84_sign_refuted : text_result (new_color [AText (lit "#-1+2 3")] None) = Ok (lit "#-10203").
Proof. vm_compute. reflexivity. Qed.
Print Assumptions C84_sign_refuted.
(** What is accepted starts with # and has two hexadecimal readings in its first four characters and
    one in its last two. *)
Theorem C84_accepted_partial : forall s name c, new_color [AText s] name = Ok c ->
  exists rgb r g b, s = "#"%char :: rgb /\ int16 (firstn 2 rgb) = Ok r /\ int16 (firstn 2 (skipn 2 rgb)) = Ok g /\
    int16 (skipn (length rgb - 2) rgb) = Ok b /\ c = Color (to_float r) (to_float g) (to_float b) name.
Proof. exact accepted_text. Qed.
Print Assumptions C84_accepted_partial.

(** C85: the data base gives to a name the first value it was given. *)
Theorem C85_first : forall l db, fill [] l = Ok db -> forall name,
  match first_given l name with
  | Some v => exists d, getitem db name = Ok d /\ color_str d = text_of v
  | None => getitem db name = Raise KeyError
  end.
Proof. exact database_ok. Qed.
Print Assumptions C85_first.
Theorem C85_ensure_twice : forall db a c, ensure_color db a = Ok c -> ensure_color db (option_map AColor c) = Ok c.
Proof. exact ensure_ok. Qed.
Print Assumptions C85_ensure_twice.
Theorem C85_ensure_text : forall db s r g b, byte r -> byte g -> byte b -> spells s r g b ->
  exists c, ensure_color db (Some (AText s)) = Ok (Some c) /\ components c r g b.
Proof. exact ensure_text_ok. Qed.
Print Assumptions C85_ensure_text.
(** The colour sets of the package are all accepted. *)
Theorem C85_loaded : is_ok (fill [] color_sets).
Proof. exact sets_loaded. Qed.
Print Assumptions C85_loaded.
(** Every name of a Valentina colour is known, but exactly five of them have the colour of another set. *)
Theorem C85_valentina_refuted : forall db, fill [] color_sets = Ok db -> forall name v, In (name, v) valentina_colors ->
  exists d t, getitem db name = Ok d /\ color_str d = Ok t /\ (t = v <-> ~ In name [lit "goldenrod"; lit "green"; lit "lime"; lit "orange"; lit "violet"]).
Proof. exact valentina_names_ok. Qed.
Print Assumptions C85_valentina_refuted.
Example C85_green : first_given color_sets (lit "green") = Some (lit "#00ff00") /\ In (lit "green", lit "#008000") valentina_colors.
Proof. split; [vm_compute; reflexivity|]. vm_compute. tauto. Qed.
