(** Model of TransformAttribute of Patro/FileFormat/Svg/SvgFormat.py, 425-508. *)
From Coq Require Import String Ascii List Bool Arith Reals.
From Verif Require Import Base ModelFormula ModelMeasure ModelVector ModelTransformation ModelSvgPath.
Import ListNotations.
Local Open Scope result_scope.
Local Open Scope R_scope.

(** 473-474: complete *)
Definition complete (values : list R) (size : nat) : list R := values ++ repeat 0 (size - length values).
(** 478-502: one transform.  The index of a list out of range raises IndexError; the matrix takes the
    six first values; Scale takes two arguments exactly. *)
Definition one_transform (name : text) (values : list R) : result transformation :=
  if text_eqb name (lit "matrix") then
    match values with
    | a :: b :: c :: d :: e :: f :: _ => of_list [a; c; e; b; d; f; 0; 0; 1]
    | _ => Raise IndexError
    end
  else if text_eqb name (lit "translate") then v <- vector_of (complete values 2) ;; Ok (translation v)
  else if text_eqb name (lit "scale") then
    match values with
    | [x; y] => Ok (scale x y)
    | _ => Raise TypeError
    end
  else if text_eqb name (lit "rotate") then
    match complete values 3 with
    | angle :: vector => v <- vector_of vector ;; Ok (rotation_at v angle)
    | [] => Raise ValueError
    end
  else if text_eqb name (lit "skewX") || text_eqb name (lit "skewY") then
    match values with [] => Raise IndexError | _ => Raise NotImplementedError end
  else Raise NotImplementedError.
(** 476-508: to_python with concat *)
Fixpoint to_python (transforms : list (text * list R)) (global : transformation) : result transformation :=
  match transforms with
  | [] => Ok global
  | (name, values) :: transforms => t <- one_transform name values ;; to_python transforms (mul t global)
  end.

Section Text.
Variable float_str : R -> text.
Variable float_parse : text -> result R.
(** 447-453: what the loop does for each word, on the whole value *)
Definition read_transform (value : text) : result (text * list R) :=
  match find (lit "(") value, find (lit ")") value with
  | Some pos0, Some pos1 =>
      if Nat.eqb pos1 (length value - 1) then
        values <- traverse float_parse (split ","%char (firstn (length value - 1 - (pos0 + 1)) (skipn (pos0 + 1) value))) ;;
        Ok (firstn pos0 value, values)
      else Raise ValueError
  | _, _ => Raise ValueError
  end.
(** 440-458: from_xml of a text *)
Definition transform_from_xml (value : text) : result transformation :=
  transforms <- traverse (fun _ => read_transform value) (split_space_list value) ;;
  to_python transforms identity.
(** 463-466: to_xml; Transformation.py 142-143: to_list *)
Definition to_list (t : transformation) : list R :=
  let m := t_m t in [m00 m; m01 m; m02 m; m10 m; m11 m; m12 m; m20 m; m21 m; m22 m].
Definition transform_to_xml (t : transformation) : text :=
  lit "matrix(" ++ join (lit " ") (map float_str (to_list t)) ++ lit ")".
End Text.
