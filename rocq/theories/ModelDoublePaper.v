(** Model of Patro/GraphicEngine/Painter/Paper.py and of the lengths of
    Patro/GraphicEngine/Painter/PdfPainter.py in double precision.  ModelUnits.v models the same sheets
    over the real numbers. *)
From Coq Require Import String Ascii List Bool ZArith.
From Flocq Require Import BinarySingleNaN.
From Verif Require Import Base ModelFormula ModelMeasure ModelXml ModelUnits ModelColor ModelDouble.
Import ListNotations.
Local Open Scope result_scope.

(** Paper.py 57: SQRT_2 = sqrt(2) *)
Definition root_two : float := dbl_sqrt two.
(** Paper.py 88, 92, PdfPainter.py 59: the literal 25.4 *)
Definition inch : float := fdiv (of_int 254) (of_int 10).

Record dpaper := DPaper { dp_name : text; dp_orientation : orientation; dp_margin : float; dp_height : float; dp_width : float }.
(** Paper.py 33-37: LETTER_TO_DIMENSION, ints *)
Definition d_dimension (letter : ascii) : option Z :=
  if Ascii.eqb letter "A" then Some 1189%Z else if Ascii.eqb letter "B" then Some 1414%Z else if Ascii.eqb letter "C" then Some 1297%Z else None.
(** Paper.py 41-68: the constructor.  `power` is the function pow of the C library which computes
    SQRT_2**level; the margin is already a float *)
Definition d_new_paper (power : float -> nat -> float) (name orient : text) (margin : float) : result dpaper :=
  let name := upper name in
  match name with
  | [] => Raise IndexError
  | letter :: level =>
      level <- int_parse level ;;
      match d_dimension letter with
      | None => Raise ValueError
      | Some d =>
          if (level <? 0)%Z || (10 <? level)%Z then Raise ValueError
          else
            let scale := power root_two (Z.to_nat level) in
            let height := fdiv (of_int d) scale in
            let width := fdiv height root_two in
            if text_eqb orient (lit "portrait") then Ok (DPaper name Portrait margin height width)
            else if text_eqb orient (lit "landscape") then Ok (DPaper name Landscape margin width height)
            else Raise ValueError
      end
  end.
(** Paper.py 86-92: height_in, width_in *)
Definition d_height_in (p : dpaper) : float := fdiv (dp_height p) inch.
Definition d_width_in (p : dpaper) : float := fdiv (dp_width p) inch.
(** PdfPainter.py 57-59: mm_to_pt *)
Definition d_mm_to_pt (x : float) : float := fdiv (fmul x (of_int 72)) inch.
(** PdfPainter.py 63-65: page_size *)
Definition d_page_size (p : dpaper) : list float := map d_mm_to_pt [dp_width p; dp_height p].
