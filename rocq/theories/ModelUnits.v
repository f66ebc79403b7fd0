(** Model of Patro/GraphicEngine/Painter/Paper.py, of
    Patro/GraphicEngine/GraphicScene/TypographyUnit.py and of Patro/TextileTechnology/Yarn.py, over the
    real numbers. *)
From Coq Require Import String Ascii List Bool Reals ZArith.
From Verif Require Import Base ModelFormula ModelMeasure ModelXml ModelVector.
Import ListNotations.
Local Open Scope R_scope.
Local Open Scope result_scope.

(** ** Paper.py *)
(** upper, on the ASCII letters; no other letter becomes A, B or C *)
Definition upper (s : text) : text :=
  map (fun c => let n := nat_of_ascii c in if (Nat.leb 97 n && Nat.leb n 122)%bool then ascii_of_nat (n - 32) else c) s.
Inductive orientation := Portrait | Landscape.
Record paper := Paper { p_name : text; p_orientation : orientation; p_margin : R; p_height : R; p_width : R }.
(** 33-37: LETTER_TO_DIMENSION *)
Definition dimension (letter : ascii) : option R :=
  if Ascii.eqb letter "A" then Some 1189 else if Ascii.eqb letter "B" then Some 1414 else if Ascii.eqb letter "C" then Some 1297 else None.
(** 41-68: the constructor *)
Definition new_paper (name : text) (orient : text) (margin : R) : result paper :=
  let name := upper name in
  match name with
  | [] => Raise IndexError
  | letter :: level =>
      level <- int_parse level ;;
      match dimension letter with
      | None => Raise ValueError
      | Some d =>
          if (level <? 0)%Z || (10 <? level)%Z then Raise ValueError
          else
            let scale := sqrt 2 ^ Z.to_nat level in
            let height := d / scale in
            let width := height / sqrt 2 in
            if text_eqb orient (lit "portrait") then Ok (Paper name Portrait margin height width)
            else if text_eqb orient (lit "landscape") then Ok (Paper name Landscape margin width height)
            else Raise ValueError
      end
  end.
(** 88-94: the sides in inches *)
Definition height_in (p : paper) : R := p_height p / 25.4.
Definition width_in (p : paper) : R := p_width p / 25.4.

(** ** TypographyUnit.py *)
(** 39-49: the constants *)
Definition INCH_2_MM : R := 25.4.
Definition POINT_2_INCH : R := 72.
Definition POINT_2_MM : R := INCH_2_MM / POINT_2_INCH.
Definition INCH_2_POINT : R := 1 / POINT_2_INCH.
Definition MM_2_POINT : R := 1 / POINT_2_MM.
(** 62-97: the classes *)
Inductive unit := Mm (x : R) | Inch (x : R) | Point (x : R).
Definition to_mm (u : unit) : unit :=
  match u with Mm _ => u | Inch x => Mm (x * INCH_2_MM) | Point x => Mm (x * POINT_2_MM) end.
Definition to_inch (u : unit) : unit :=
  match u with Mm x => Inch (x * MM_2_POINT) | Inch _ => u | Point x => Inch (x * POINT_2_INCH) end.
Definition to_point (u : unit) : unit :=
  match u with Mm x => Point (x * MM_2_POINT) | Inch x => Point (x * INCH_2_POINT) | Point _ => u end.

(** ** Yarn.py *)
(** 29-39 *)
Definition tex2den (x : R) : R := x * 9.
Definition den2tex (x : R) : R := x * 10 / 9.
Definition tex2nm (x : R) : result R := fdiv 1000 x.
Definition nm2tex (x : R) : R := 1000 * x.
(** 43-51: TwistType and the call of the class on a value: a member, 1, 2; anything else, None
    included, is a ValueError *)
Inductive twist := TwistS | TwistZ.
Inductive twist_value := TMember (t : twist) | TInt (z : Z) | TNone.
Definition twist_type (v : twist_value) : result twist :=
  match v with
  | TMember t => Ok t
  | TInt z => if (z =? 1)%Z then Ok TwistS else if (z =? 2)%Z then Ok TwistZ else Raise ValueError
  | TNone => Raise ValueError
  end.
(** 61-69: the constructor; 82-96: the properties *)
Record yarn := Yarn { y_tex : R; y_twist : twist }.
Definition new_yarn (tex : R) (t : twist_value) : result yarn := t <- twist_type t ;; Ok (Yarn tex t).
Definition denier (y : yarn) : R := tex2den (y_tex y).
Definition nm (y : yarn) : result R := tex2nm (y_tex y).
