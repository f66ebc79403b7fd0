(** Model of the classes of vectors, Patro/GeometryEngine/Vector.py 474-650 (lists of vectors, NormalisedVector2D, HomogeneousVector2D), of
    their transformation, Patro/GeometryEngine/Transformation.py 411-421, and of the copies of transformations, 85-111. *)
From Coq Require Import Reals List.
From Verif Require Import Base ModelVector ModelTransformation.
Import ListNotations.
Local Open Scope R_scope.
Local Open Scope result_scope.

(** The class of a vector; a HomogeneousVector2D has the attribute _w (619-624). *)
Inductive vclass := CVector | CNormalised | CHomogeneous (w : R).
Record vobj := VO { v_class : vclass; v_xy : vec }.

(** 113-114, 627-629: the property v *)
Definition array (o : vobj) : list R :=
  match v_class o with
  | CHomogeneous w => [vx (v_xy o); vy (v_xy o); w]
  | _ => [vx (v_xy o); vy (v_xy o)]
  end.

(** [self.__class__(array)]: 82-85, 587-588, 619-624 (_w is 1) *)
Definition remake (c : vclass) (xy : vec) : vobj :=
  VO (match c with CHomogeneous _ => CHomogeneous 1 | c => c end) xy.

(** 619-624: HomogeneousVector2D(vector) *)
Definition homogeneous (xy : vec) : vobj := VO (CHomogeneous 1) xy.
(** 639-641: the setter of w *)
Definition set_w (o : vobj) (w : R) : vobj :=
  match v_class o with CHomogeneous _ => VO (CHomogeneous w) (v_xy o) | _ => o end.
(** 645-646: to_vector *)
Definition to_vector (o : vobj) : vobj := VO CVector (v_xy o).
(** 138-140: clone *)
Definition vclone (o : vobj) : vobj := remake (v_class o) (v_xy o).

(** 180-182, 192-194: __add__, __sub__; arrays of two and three numbers cannot be added (numpy) *)
Definition oadd (a b : vobj) : result vobj :=
  match array b with
  | [x; y] => Ok (remake (v_class a) (vadd (v_xy a) (V x y)))
  | _ => Raise ValueError
  end.
Definition osub (a b : vobj) : result vobj :=
  match array b with
  | [x; y] => Ok (remake (v_class a) (vsub (v_xy a) (V x y)))
  | _ => Raise ValueError
  end.
(** 186-189: __iadd__, the value of self after the call *)
Definition oiadd (a b : vobj) : result vobj :=
  match array b with
  | [x; y] => Ok (VO (v_class a) (vadd (v_xy a) (V x y)))
  | _ => Raise ValueError
  end.
(** 174-176: __eq__; np.array_equal is false for two shapes *)
Fixpoint array_equal (a b : list R) : bool :=
  match a, b with
  | [], [] => true
  | x :: a, y :: b => andb (Reqb x y) (array_equal a b)
  | _, _ => false
  end.
Definition oeqb (a b : vobj) : bool := array_equal (array a) (array b).
(** 392-400: dot, cross; the cross product of numpy with an array of three is an array, which float refuses *)
Definition odot (a b : vobj) : result R :=
  match array b with [x; y] => Ok (dot (v_xy a) (V x y)) | _ => Raise ValueError end.
Definition ocross (a b : vobj) : result R :=
  match array b with [x; y] => Ok (cross (v_xy a) (V x y)) | _ => Raise TypeError end.
(** 517-525, 601-609: __mul__, __rmul__ by a float *)
Definition oscale (a : vobj) (k : R) : vobj := remake (v_class a) (vscale (v_xy a) k).
(** 536-538: __truediv__ by a float, which NormalisedVector2D does not have *)
Definition odiv (a : vobj) (k : R) : result vobj :=
  match v_class a with
  | CNormalised => Raise TypeError
  | c => v <- vdiv (v_xy a) k ;; Ok (remake c v)
  end.
(** 571-573: to_normalised, which NormalisedVector2D does not have *)
Definition to_normalised (a : vobj) : result vobj :=
  match v_class a with
  | CNormalised => Raise AttributeError
  | _ => v <- vdiv (v_xy a) (magnitude (v_xy a)) ;; Ok (VO CNormalised v)
  end.
(** 587-588: NormalisedVector2D(x, y); the check of the magnitude is commented out *)
Definition normalised (x y : R) : vobj := VO CNormalised (V x y).

(** 473-481: from_list, from_coordinates, the elements being sequences of floats, called on the class [c]; the constructor of
    HomogeneousVector2D takes one argument *)
Definition from_list (c : vclass) (l : list (list R)) : result (list vobj) :=
  traverse (fun xy =>
    match c with
    | CHomogeneous _ => Raise TypeError
    | _ => match xy with [x; y] => Ok (VO c (V x y)) | _ => Raise ValueError end
    end) l.

(** Transformation.py 411-421 and 181-201: an affine transformation times a vector; NormalisedVector2D is no Vector2D *)
Definition otransform (t : transformation) (o : vobj) : result vobj :=
  match v_class o with
  | CHomogeneous w =>
      let m := t_m t in
      Ok (homogeneous (V (m00 m * vx (v_xy o) + m01 m * vy (v_xy o) + m02 m * w)
                         (m10 m * vx (v_xy o) + m11 m * vy (v_xy o) + m12 m * w)))
  | CVector => Ok (VO CVector (apply t (v_xy o)))
  | CNormalised => Raise ValueError
  end.

(** ** Copies of transformations *)
(** What is given to a constructor *)
Inductive source := FromAffine (t : transformation) | FromPlane (t : transformation2) | FromList (l : list R) | FromNumber (x : R).
(** The array _m: square, or of two numbers *)
Inductive shaped := Square2 (m : mat2) | Square3 (m : mat3) | Flat (x y : R).
(** 85-111 for AffineTransformation2D.  same_dimension compares the size (3) with the dimension (2); for a number [np.array((3, 3))]
    is an array of two numbers, of which matrix_part cannot be taken; _check_type computes and returns None (370-372). *)
Definition new_affine (s : source) (t : ttype) : result (shaped * tag) :=
  a <- match s with
       | FromAffine _ | FromPlane _ => Raise ValueError
       | FromList [a; b; c; d; e; f; g; h; i] => Ok (Square3 (M3 a b c d e f g h i))
       | FromList _ => Raise ValueError
       | FromNumber x => Ok (Flat x x)
       end ;;
  match t with
  | TGeneric => match a with Flat _ _ => Raise IndexError | _ => Ok (a, None) end
  | t => Ok (a, Some t)
  end.
(** 85-111 for Transformation2D: size and dimension are 2, so that both kinds of transformations are taken; _check_type (280-281) calls
    the missing attribute _check_matrix_type. *)
Definition new_plane (s : source) (t : ttype) : result (shaped * tag) :=
  a <- match s with
       | FromAffine t => Ok (Square3 (t_m t))
       | FromPlane t => Ok (Square2 (t2_m t))
       | FromList [a; b; c; d] => Ok (Square2 (M2 a b c d))
       | FromList _ => Raise ValueError
       | FromNumber x => Ok (Flat x x)
       end ;;
  match t with TGeneric => Raise AttributeError | t => Ok (a, Some t) end.
(** 186-188: a Transformation2D times a Vector2D, np.matmul refuses the shapes which do not match; [Flat] is the scalar product, and a
    number is not a vector (93-98 of Vector.py) *)
Definition shaped_apply (a : shaped) (v : vec) : result vec :=
  match a with
  | Square2 m => Ok (V (a00 m * vx v + a01 m * vy v) (a10 m * vx v + a11 m * vy v))
  | Square3 _ => Raise ValueError
  | Flat _ _ => Raise ValueError
  end.
