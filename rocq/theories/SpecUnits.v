(** Lengths, sheets and yarns. *)
From Coq Require Import String Ascii List Reals ZArith.
From Verif Require Import Base ModelFormula ModelXml ModelUnits.
Import ListNotations.
Local Open Scope R_scope.

(** The length of a quantity in millimetres *)
Definition millimetres (u : unit) : R := match u with Mm x => x | Inch x => x * 25.4 | Point x => x * (25.4 / 72) end.

(** The sheets of ISO 216 and ISO 269, in millimetres: from the longest side of level 0, the sides of
    each level *)
Definition iso_a : list R := [1189; 841; 594; 420; 297; 210; 148; 105; 74; 52; 37; 26].
Definition iso_b : list R := [1414; 1000; 707; 500; 353; 250; 176; 125; 88; 62; 44; 31].
Definition iso_c : list R := [1297; 917; 648; 458; 324; 229; 162; 114; 81; 57; 40; 28].
Definition iso (letter : ascii) : list R :=
  if Ascii.eqb letter "A" then iso_a else if Ascii.eqb letter "B" then iso_b else iso_c.

(** A yarn of linear density [tex] grams per kilometre: the weight of a length in metres *)
Definition weight (tex : R) (length : R) : R := tex * length / 1000.
