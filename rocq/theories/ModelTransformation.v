(** Model of Patro/GeometryEngine/Transformation.py over the real numbers. *)
From Coq Require Import Reals List.
From Verif Require Import Base ModelVector.
Import ListNotations.
Local Open Scope R_scope.
Local Open Scope result_scope.

(** Transformation.py 48-63: TransformationType *)
Inductive ttype :=
| TIdentity | TScale | TShear | TParity | TXParity | TYParity | TRotation | TTranslation | TGeneric.

Definition ttype_eqb (a b : ttype) : bool :=
  match a, b with
  | TIdentity, TIdentity | TScale, TScale | TShear, TShear | TParity, TParity
  | TXParity, TXParity | TYParity, TYParity | TRotation, TRotation
  | TTranslation, TTranslation | TGeneric, TGeneric => true
  | _, _ => false
  end.

(** The attribute [_type]: a TransformationType, or the python None which
    AffineTransformation2D._check_type returns (371-373: no return statement). *)
Definition tag := option ttype.
Definition tag_eqb (a b : tag) : bool :=
  match a, b with
  | Some x, Some y => ttype_eqb x y
  | None, None => true
  | _, _ => false
  end.

(** 157-177: _mul_type *)
Definition mul_type (a b : tag) : ttype :=
  if tag_eqb a b then
    match a with
    | Some TParity | Some TXParity | Some TYParity => TIdentity
    | Some TRotation => TRotation
    | Some TScale => TScale
    | _ => TGeneric
    end
  else TGeneric.

(** 234-252: Transformation2D.type_for_scale *)
Definition type_for_scale (x y : R) : ttype :=
  if Reqb x y then
    if Reqb x 1 then TIdentity else if Reqb x (-1) then TParity else TScale
  else
    if andb (Reqb x (-1)) (Reqb y 1) then TXParity
    else if andb (Reqb x 1) (Reqb y (-1)) then TYParity
    else TShear.

(** ** The class Transformation2D *)

(** A 2x2 numpy array, by rows. *)
Record mat2 := M2 { a00 : R; a01 : R; a10 : R; a11 : R }.

(** np.matmul *)
Definition matmul2 (a b : mat2) : mat2 :=
  M2 (a00 a * a00 b + a01 a * a10 b) (a00 a * a01 b + a01 a * a11 b)
     (a10 a * a00 b + a11 a * a10 b) (a10 a * a01 b + a11 a * a11 b).

Record transformation2 := T2 { t2_m : mat2; t2_type : tag }.

(** 85-111: the constructor from an array; 280-281: _check_type calls the missing attribute
    [_check_matrix_type]. *)
Definition new2 (m : mat2) (t : ttype) : result transformation2 :=
  match t with
  | TGeneric => Raise AttributeError
  | _ => Ok (T2 m (Some t))
  end.

(** 286-324: Rotation, Scale, Parity, XReflection, YReflection *)
Definition rotation2 (angle : R) : result transformation2 :=
  let a := radians angle in
  new2 (M2 (cos a) (- sin a) (sin a) (cos a)) TRotation.
Definition scale2 (x : R) (y : option R) : result transformation2 :=
  let y := match y with None => x | Some y => y end in
  new2 (M2 x 0 0 y) (type_for_scale x y).
Definition parity2 : result transformation2 := scale2 (-1) (Some (-1)).
Definition xreflection2 : result transformation2 := scale2 (-1) (Some 1).
Definition yreflection2 : result transformation2 := scale2 1 (Some (-1)).

(** 181-201: __mul__ for a transformation, a vector *)
Definition mul2 (a b : transformation2) : result transformation2 :=
  new2 (matmul2 (t2_m a) (t2_m b)) (mul_type (t2_type a) (t2_type b)).
Definition apply2 (a : transformation2) (v : vec) : vec :=
  let m := t2_m a in
  V (a00 m * vx v + a01 m * vy v) (a10 m * vx v + a11 m * vy v).

(** ** The class AffineTransformation2D *)

(** A 3x3 numpy array, by rows. *)
Record mat3 := M3 { m00 : R; m01 : R; m02 : R; m10 : R; m11 : R; m12 : R;
                    m20 : R; m21 : R; m22 : R }.

(** np.matmul *)
Definition matmul (a b : mat3) : mat3 :=
  M3 (m00 a * m00 b + m01 a * m10 b + m02 a * m20 b)
     (m00 a * m01 b + m01 a * m11 b + m02 a * m21 b)
     (m00 a * m02 b + m01 a * m12 b + m02 a * m22 b)
     (m10 a * m00 b + m11 a * m10 b + m12 a * m20 b)
     (m10 a * m01 b + m11 a * m11 b + m12 a * m21 b)
     (m10 a * m02 b + m11 a * m12 b + m12 a * m22 b)
     (m20 a * m00 b + m21 a * m10 b + m22 a * m20 b)
     (m20 a * m01 b + m21 a * m11 b + m22 a * m21 b)
     (m20 a * m02 b + m21 a * m12 b + m22 a * m22 b).

Record transformation := T { t_m : mat3; t_type : tag }.

(** 371-373: AffineTransformation2D._check_type computes the type and returns None. *)
Definition check_type : tag := None.

(** 109-110 and 218-219: a generic type is replaced by the one of _check_type. *)
Definition checked (t : ttype) : tag := match t with TGeneric => check_type | _ => Some t end.

(** 85-111: the constructor from an array with a given type. *)
Definition new (m : mat3) (t : ttype) : transformation := T m (checked t).

(** 79-81: Identity *)
Definition identity : transformation := new (M3 1 0 0  0 1 0  0 0 1) TIdentity.

(** 332-338: Translation (the array of Identity with the last column replaced) *)
Definition translation (v : vec) : transformation :=
  T (M3 1 0 (vx v)  0 1 (vy v)  0 0 1) (Some TTranslation).

(** 377-383: Rotation *)
Definition rotation (angle : R) : transformation :=
  let a := radians angle in
  T (M3 (cos a) (- sin a) 0  (sin a) (cos a) 0  0 0 1) (Some TRotation).

(** 387-395: Scale *)
Definition scale (x y : R) : transformation :=
  T (M3 x 0 0  0 y 0  0 0 1) (Some (type_for_scale x y)).

(** 399-407: Screen *)
Definition screen (y_height : R) : transformation :=
  T (M3 1 0 0  0 (-1) y_height  0 0 1) (Some TGeneric).

(** 97-102: the constructor from a list of nine numbers *)
Definition of_list (l : list R) : result transformation :=
  match l with
  | [a; b; c; d; e; f; g; h; i] => Ok (new (M3 a b c d e f g h i) TGeneric)
  | _ => Raise ValueError
  end.

(** 181-188: __mul__ by a transformation *)
Definition mul (a b : transformation) : transformation :=
  new (matmul (t_m a) (t_m b)) (mul_type (t_type a) (t_type b)).

(** 205-223: __imul__ by a transformation, the value of self after the call *)
Definition imul (self obj : transformation) : transformation :=
  match t_type obj with
  | Some TIdentity => self
  | _ =>
      T (matmul (t_m obj) (t_m self))
        (checked (mul_type (t_type self) (t_type obj)))
  end.

(** 342-350: RotationAt *)
Definition rotation_at (center : vec) (angle : R) : transformation :=
  imul (imul (translation (vneg center)) (rotation angle)) (translation center).

(** 411-421: __mul__ by a Vector2D (homogeneous coordinates, w = 1; the third coordinate of the
    product is dropped) *)
Definition apply (a : transformation) (v : vec) : vec :=
  let m := t_m a in
  V (m00 m * vx v + m01 m * vy v + m02 m * 1) (m10 m * vx v + m11 m * vy v + m12 m * 1).

(** 192-199: __mul__ by a scalar *)
Definition scalar (a : transformation) (x : R) : result R :=
  match t_type a with
  | Some TIdentity | Some TRotation => Ok x
  | Some TShear | Some TGeneric => Raise ValueError
  | _ => Ok (Rabs (m00 (t_m a)) * x)
  end.

(** Every way to build an affine transformation with the public API. *)
Inductive texpr :=
| EIdentity
| ETranslation (v : vec)
| ERotation (angle : R)
| EScale (x y : R)
| EScreen (h : R)
| ERotationAt (c : vec) (angle : R)
| EMatrix (a b c d e f : R)     (** of_list with the last row 0 0 1 *)
| EMul (e1 e2 : texpr)          (** e1 * e2 *)
| EIMul (e1 e2 : texpr).        (** e1 *= e2 *)

Fixpoint build (e : texpr) : transformation :=
  match e with
  | EIdentity => identity
  | ETranslation v => translation v
  | ERotation a => rotation a
  | EScale x y => scale x y
  | EScreen h => screen h
  | ERotationAt c a => rotation_at c a
  | EMatrix a b c d e f => new (M3 a b c d e f 0 0 1) TGeneric
  | EMul e1 e2 => mul (build e1) (build e2)
  | EIMul e1 e2 => imul (build e1) (build e2)
  end.
