(** Model of the rest of Patro/GeometryEngine/Triangle.py and Line.py, of the rounding and of the comparison of vectors
    (Vector.py) and of Patro/Common/Math/Functions.py, over the real numbers. *)
From Coq Require Import Reals List ZArith Bool.
From Verif Require Import Base ModelVector ModelRoot ModelLine.
Import ListNotations.
Local Open Scope R_scope.
Local Open Scope result_scope.

(** ** Triangle.py *)

(** Triangle.py 128-134: bisector_vector1, bisector_vector2; the first one is in ModelLine *)
Definition bisector_vector1 (t : triangle) : vec :=
  vadd (vsub (tri0 t) (tri1 t)) (vsub (tri2 t) (tri1 t)).
Definition bisector_vector2 (t : triangle) : vec :=
  vadd (vsub (tri1 t) (tri2 t)) (vsub (tri0 t) (tri2 t)).
(** 138-148: bisector_line0, bisector_line1, bisector_line2 *)
Definition bisector_line0 (t : triangle) : line := Ln (tri0 t) (bisector_vector0 t).
Definition bisector_line1 (t : triangle) : line := Ln (tri1 t) (bisector_vector1 t).
Definition bisector_line2 (t : triangle) : line := Ln (tri2 t) (bisector_vector2 t).

(** The attributes _p10, _p21, _p02 and _a10, _a21, _a02 *)
Record three := Three { p10 : R; p21 : R; p02 : R }.

Section Caches.
(** 152-166: _cache_length and _cache_angle, which give the attributes their values *)
Variable cache_length cache_angle : triangle -> result three.
(** 170-174: perimeter *)
Definition perimeter (t : triangle) : result R := c <- cache_length t ;; Ok (p10 c + p21 c + p02 c).
(** 195-223: is_equilateral, is_scalene, is_isosceles *)
Definition is_equilateral (t : triangle) : result bool :=
  c <- cache_length t ;; Ok (Reqb (p10 c) (p21 c) && Reqb (p21 c) (p02 c)).
Definition is_scalene (t : triangle) : result bool :=
  c <- cache_length t ;; Ok (negb (Reqb (p10 c) (p21 c)) && negb (Reqb (p21 c) (p02 c)) && negb (Reqb (p02 c) (p10 c))).
Definition is_isosceles (t : triangle) : result bool :=
  _ <- cache_length t ;;
  e <- is_equilateral t ;;
  if e : bool then Ok false else s <- is_scalene t ;; Ok (negb s).
(** 227-248: is_right, is_obtuse, is_acute, is_oblique *)
Definition is_right (t : triangle) : result bool := _ <- cache_angle t ;; Raise NotImplementedError.
Definition is_obtuse (t : triangle) : result bool :=
  c <- cache_angle t ;; Ok (Rltb 90 (Rmax (Rmax (p10 c) (p21 c)) (p02 c))).
Definition is_acute (t : triangle) : result bool :=
  c <- cache_angle t ;; Ok (Rltb (Rmax (Rmax (p10 c) (p21 c)) (p02 c)) 90).
Definition is_oblique (t : triangle) : result bool := e <- is_equilateral t ;; Ok (negb e).
End Caches.

(** 154, 163: the attributes are read, to be given to [hasattr], before they exist. *)
Definition cache_length (t : triangle) : result three := Raise AttributeError.
Definition cache_angle (t : triangle) : result three := Raise AttributeError.
(** The same functions with the tests of lines 154 and 163 repaired *)
Definition repaired_length (t : triangle) : result three :=
  Ok (Three (magnitude (vsub (tri1 t) (tri0 t))) (magnitude (vsub (tri2 t) (tri1 t))) (magnitude (vsub (tri0 t) (tri2 t)))).
Definition repaired_angle (t : triangle) : result three :=
  a <- orientation (vsub (tri1 t) (tri0 t)) ;;
  b <- orientation (vsub (tri2 t) (tri1 t)) ;;
  c <- orientation (vsub (tri0 t) (tri2 t)) ;;
  Ok (Three a b c).
(** 252-278: orthocenter, centroid, circumcenter, in_circle *)
Definition orthocenter (t : triangle) : result vec := Raise NotImplementedError.
Definition centroid (t : triangle) : result vec := Raise NotImplementedError.
Definition circumcenter (t : triangle) : result vec := Raise NotImplementedError.

(** ** Line.py *)

(** 108-113: compute_distance; [pairwise] gives the successive pairs *)
Definition compute_distance (l : line) (s_list : list R) : result (list R) :=
  traverse (fun s => compute_distance_between_abscissae l (fst s) (snd s)) (combine s_list (tl s_list)).
(** 129-139: is_parallel, is_orthogonal of lines *)
Definition line_is_orthogonal (a b : line) : bool := is_orthogonal (l_v a) (l_v b).
(** 262-274: get_x_y_from_bounding_box; the size of a box is the pair of the lengths of its sides *)
Definition get_x_y_from_bounding_box (l : line) (b : box) : result (vec * vec) :=
  let left := inf (bx b) in let bottom := inf (by_ b) in
  let right := sup (bx b) in let top := sup (by_ b) in
  t <- vtan (l_v l) ;;
  u <- vtan (V (right - left) (top - bottom)) ;;
  if Rltb u (Rabs t) then
    x_min <- get_x_from_y l bottom ;;
    x_max <- get_x_from_y l top ;;
    Ok (V x_min bottom, V x_max top)
  else
    y_min <- get_y_from_x l left ;;
    y_max <- get_y_from_x l right ;;
    Ok (V left y_min, V right y_max).

(** ** Numbers *)

(** The rounding to the nearest integer, to the even one at equal distances: [round] of Python and [numpy.rint] *)
Definition round_even (x : R) : Z :=
  let n := Int_part x in
  if Rltb (x - IZR n) (/ 2) then n
  else if Rltb (/ 2) (x - IZR n) then (n + 1)%Z
  else if Z.even n then n else (n + 1)%Z.
(** Functions.py 26-27, 31-32, 36-37, 41-42: rint, ceil_int, middle, cmp *)
Definition rint (f : R) : Z := round_even f.
Definition ceil_int (f : R) : Z := (- Int_part (- f))%Z.
Definition middle (a b : R) : R := / 2 * (a + b).
Definition cmp (a b : R) : Z := ((if Rltb b a then 1 else 0) - (if Rltb a b then 1 else 0))%Z.
(** 53-54: epsilon_float; 69-70: is_in_trignometric_range; sign and trignometric_clamp are in ModelVector *)
Definition epsilon_float (a b epsilon : R) : bool := Rleb (Rabs (a - b)) epsilon.
Definition is_in_trignometric_range (x : R) : bool := Rleb (-1) x && Rleb x 1.
(** Vector.py 577-579: rint *)
Definition vrint (v : vec) : Z * Z := (round_even (vx v), round_even (vy v)).
(** Vector.py 255-257: almost_equal; [numpy.allclose] *)
Definition isclose (rtol atol a b : R) : bool := Rleb (Rabs (a - b)) (atol + rtol * Rabs b).
Definition almost_equal (v1 v2 : vec) (rtol atol : R) : bool :=
  isclose rtol atol (vx v1) (vx v2) && isclose rtol atol (vy v1) (vy v2).
