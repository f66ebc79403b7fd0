(** Model of the arithmetic of vectors, lines and curves with IEEE 754 double precision numbers: the operations of numpy on
    arrays of float64 and of python floats, rounded to nearest, ties to even.  The other models of the geometry engine use real
    numbers. *)
From Coq Require Import List Bool ZArith.
From Flocq Require Import Core BinarySingleNaN.
From Verif Require Import Base ModelColor.
Import ListNotations.

Definition dbl_add (x y : float) : float := @Bplus 53 1024 prec_ok emax_ok mode_NE x y.
Definition dbl_sub (x y : float) : float := @Bminus 53 1024 prec_ok emax_ok mode_NE x y.
Definition dbl_neg (x : float) : float := Bopp x.
Definition dbl_sqrt (x : float) : float := @Bsqrt 53 1024 prec_ok emax_ok mode_NE x.
Definition dbl_fma (x y z : float) : float := @Bfma 53 1024 prec_ok emax_ok mode_NE x y z.
Definition dbl_eq (x y : float) : bool := Beqb x y.
Definition zero : float := B754_zero false.
Definition one : float := of_int 1.
Definition two : float := of_int 2.
Definition three : float := of_int 3.
(** the literal .5 *)
Definition half : float := fdiv one two.

Record dvec := D { d_x : float; d_y : float }.

(** Patro/GeometryEngine/Vector.py 178-180: __eq__ *)
Definition d_eq (a b : dvec) : bool := dbl_eq (d_x a) (d_x b) && dbl_eq (d_y a) (d_y b).
(** Vector.py 184-213: __add__, __sub__, __neg__ *)
Definition d_add (a b : dvec) : dvec := D (dbl_add (d_x a) (d_x b)) (dbl_add (d_y a) (d_y b)).
Definition d_sub (a b : dvec) : dvec := D (dbl_sub (d_x a) (d_x b)) (dbl_sub (d_y a) (d_y b)).
Definition d_neg (a : dvec) : dvec := D (dbl_neg (d_x a)) (dbl_neg (d_y a)).
(** Vector.py 511-513, 529-531: __mul__, __truediv__ *)
Definition d_scale (a : dvec) (k : float) : dvec := D (fmul k (d_x a)) (fmul k (d_y a)).
Definition d_divide (a : dvec) (k : float) : dvec := D (fdiv (d_x a) k) (fdiv (d_y a) k).
(** Vector.py 332-371: normal, anti_normal, permute, parity *)
Definition d_normal (a : dvec) : dvec := D (dbl_neg (d_y a)) (d_x a).
Definition d_anti_normal (a : dvec) : dvec := D (d_y a) (dbl_neg (d_x a)).
Definition d_permute (a : dvec) : dvec := D (d_y a) (d_x a).
Definition d_parity (a : dvec) : dvec := D (dbl_neg (d_x a)) (dbl_neg (d_y a)).
(** Vector.py 396-398: cross; np.cross multiplies, multiplies and subtracts *)
Definition d_cross (a b : dvec) : float := dbl_sub (fmul (d_x a) (d_y b)) (fmul (d_y a) (d_x b)).
(** Vector.py 257-269: magnitude_square, magnitude; the dot product of the linear algebra library of numpy may round once
    ([fused]) or twice the sum of a product. *)
Definition d_magnitude (fused : bool) (a : dvec) : float :=
  dbl_sqrt (if fused then dbl_fma (d_y a) (d_y a) (fmul (d_x a) (d_x a))
            else dbl_add (fmul (d_x a) (d_x a)) (fmul (d_y a) (d_y a))).
(** Vector.py 504-507: middle; Segment.py 76-79: center *)
Definition d_middle (a b : dvec) : dvec := d_scale (d_add a b) half.
Definition d_center (a b : dvec) : dvec := d_divide (d_add a b) two.

(** Interpolation.py 31-33: interpolate_two_points; Segment.py 100: point_at_t *)
Definition d_interpolate (a b : dvec) (t : float) : dvec := d_add (d_scale a (dbl_sub one t)) (d_scale b t).
(** Line.py 48-51, 88-93: interpolate on the line from_two_points *)
Definition d_line_point (a b : dvec) (s : float) : dvec := d_add a (d_scale (d_sub b a) s).

(** Powers of python floats; they are used where the power is a double itself (the parameters 0, 1 and k / 64), where the
    function pow of the C library is taken to be exact. *)
Definition dbl_square (x : float) : float := fmul x x.
Definition dbl_cube (x : float) : float := fmul (fmul x x) x.
(** Bezier.py 263-267: QuadraticBezier2D.point_at_t *)
Definition d_quadratic (a b c : dvec) (t : float) : dvec :=
  let u := dbl_sub one t in
  d_add (d_add (d_scale a (dbl_square u)) (d_scale (d_scale (d_scale b two) t) u)) (d_scale c (dbl_square t)).
(** Bezier.py 462-468: CubicBezier2D.point_at_t, by its coefficients *)
Definition d_cubic1 (a b c d : dvec) : dvec := d_scale (d_sub b a) three.
Definition d_cubic2 (a b c d : dvec) : dvec := d_scale (d_add (d_sub c (d_scale b two)) a) three.
Definition d_cubic3 (a b c d : dvec) : dvec := d_sub (d_add (d_sub d (d_scale c three)) (d_scale b three)) a.
Definition d_cubic (a b c d : dvec) (t : float) : dvec :=
  d_add (d_add (d_add a (d_scale (d_cubic1 a b c d) t)) (d_scale (d_cubic2 a b c d) (dbl_square t)))
        (d_scale (d_cubic3 a b c d) (dbl_cube t)).

(** Bezier.py 271-284, 487-496: split_at_t for a parameter between 0 and 1: the control points of both parts *)
Definition d_quadratic_split (a b c : dvec) (t : float) : list dvec * list dvec :=
  let p01 := d_interpolate a b t in
  let p12 := d_interpolate b c t in
  let p := d_interpolate p01 p12 t in
  ([a; p01; p], [p; p12; c]).
Definition d_cubic_split (a b c d : dvec) (t : float) : list dvec * list dvec :=
  let p01 := d_interpolate a b t in
  let p12 := d_interpolate b c t in
  let p23 := d_interpolate c d t in
  let p012 := d_interpolate p01 p12 t in
  let p123 := d_interpolate p12 p23 t in
  let p := d_interpolate p012 p123 t in
  ([a; p01; p012; p], [p; p123; p23; d]).

(** Transformation.py 411-419: __mul__ by a vector with w = 1, by the first two rows of the matrix; 79-81, 332-338, 387-407:
    the matrices of Identity, Translation, Scale, Screen *)
Definition d_row (m0 m1 m2 : float) (p : dvec) : float :=
  dbl_add (dbl_add (fmul m0 (d_x p)) (fmul m1 (d_y p))) (fmul m2 one).
Record dmat := DM { dm00 : float; dm01 : float; dm02 : float; dm10 : float; dm11 : float; dm12 : float }.
Definition d_apply (m : dmat) (p : dvec) : dvec := D (d_row (dm00 m) (dm01 m) (dm02 m) p) (d_row (dm10 m) (dm11 m) (dm12 m) p).
Definition d_identity : dmat := DM one zero zero zero one zero.
Definition d_translation (v : dvec) : dmat := DM one zero (d_x v) zero one (d_y v).
Definition d_scaling (x y : float) : dmat := DM x zero zero zero y zero.
Definition d_screen (h : float) : dmat := DM one zero zero zero (dbl_neg one) h.
