(** Model of the mean of the points and of the area of a polygon with double precision numbers. *)
From Coq Require Import List Bool ZArith Permutation.
From Flocq Require Import Core BinarySingleNaN.
From Verif Require Import Base ModelColor ModelDouble.
Import ListNotations.

(** Patro/GeometryEngine/Polygon.py 226-231: point_barycenter *)
Definition d_point_barycenter (points : list dvec) : result dvec :=
  match points with
  | [] => Raise IndexError
  | p :: l => Ok (d_divide (fold_left d_add l p) (of_int (Z.of_nat (length points))))
  end.

(** Polygon.py 245-258: the products of _compute_area_barycenter; Primitive.py 339-355: closed_point_array *)
Fixpoint d_crosses_to (first : dvec) (points : list dvec) : list float :=
  match points with
  | [] => []
  | [p] => [dbl_sub (fmul (d_x p) (d_y first)) (fmul (d_x first) (d_y p))]
  | p :: ((q :: _) as l) => dbl_sub (fmul (d_x p) (d_y q)) (fmul (d_x q) (d_y p)) :: d_crosses_to first l
  end.
Definition d_crosses (points : list dvec) : list float :=
  match points with [] => [] | first :: _ => d_crosses_to first points end.

(** np.sum: the order of the additions depends on the number of elements and on the machine; any order, any grouping and any number of
    added zeros are allowed. *)
Inductive np_sum : list float -> float -> Prop :=
| sum_zero : np_sum [] zero
| sum_minus_zero : np_sum [] (dbl_neg zero)
| sum_one x : np_sum [x] x
| sum_two l m x y : np_sum l x -> np_sum m y -> np_sum (l ++ m) (dbl_add x y)
| sum_order l m x : Permutation l m -> np_sum l x -> np_sum m x.
(** Polygon.py 260: the signed area, from the sum *)
Definition d_signed_area (sum : float) : float := fmul half sum.
