(** Model of Patro/GeometryEngine/Spline.py over the real numbers, and of Bezier.py 447-452
    (to_spline).  The degree is a natural number ([int(degree)] of a negative number is not
    modelled); [closed] is stored and only changes number_of_spans. *)
From Coq Require Import Reals List ZArith.
From Verif Require Import Base ModelVector ModelBezier.
Import ListNotations.
Local Open Scope R_scope.
Local Open Scope result_scope.

(** python [l[i]], where a negative index counts from the end. *)
Definition py_get {A} (l : list A) (i : Z) : result A :=
  let n := Z.of_nat (length l) in
  if (0 <=? i)%Z then
    match nth_error l (Z.to_nat i) with Some x => Ok x | None => Raise IndexError end
  else if (0 <=? n + i)%Z then
    match nth_error l (Z.to_nat (n + i)) with Some x => Ok x | None => Raise IndexError end
  else Raise IndexError.

(** A [for] loop over a list that updates one variable and may raise. *)
Fixpoint for_loop {A B} (body : A -> B -> result B) (l : list A) (acc : B) : result B :=
  match l with
  | [] => Ok acc
  | x :: l => acc <- body x acc ;; for_loop body l acc
  end.

(** ** BSpline2D *)

(** 175-181: uniform_knots; [knots[-1]] is [number_of_points - degree]. *)
Definition uniform_knots (degree number_of_points : nat) : result (list R) :=
  let order := (degree + 1)%nat in
  if Nat.ltb number_of_points order then Raise ValueError
  else
    let knots := map INR (seq 0 (number_of_points - degree + 1)) in
    Ok (repeat 0 degree ++ knots ++ repeat (INR (number_of_points - degree)) degree).

(** The attributes of an instance. *)
Record bspline := BS {
  bs_points : list vec; bs_degree : nat; bs_closed : bool; bs_knots : list R; bs_uniform : bool }.

(** 201: np.all(np.diff(knots) >= 0) *)
Fixpoint non_decreasing (l : list R) : bool :=
  match l with
  | a :: ((b :: _) as rest) => andb (Rleb 0 (b - a)) (non_decreasing rest)
  | _ => true
  end.

(** 191-207: the constructor *)
Definition new_bspline (points : list vec) (degree : nat) (closed : bool)
    (knots : option (list R)) : result bspline :=
  match knots with
  | Some knots =>
      if negb (non_decreasing knots) then Raise ValueError
      else Ok (BS points degree closed knots false)
  | None =>
      knots <- uniform_knots degree (length points) ;;
      Ok (BS points degree closed knots true)
  end.

(** 220-221: order *)
Definition order (s : bspline) : nat := bs_degree s + 1.

(** 235-247: start_knot, end_knot *)
Definition start_knot (s : bspline) : result R :=
  if bs_uniform s then Ok 0 else py_get (bs_knots s) 0.
Definition end_knot (s : bspline) : result R :=
  if bs_uniform s then Ok (IZR (Z.of_nat (length (bs_points s)) - Z.of_nat (bs_degree s)))
  else py_get (bs_knots s) (-1).

(** 256-265: number_of_spans *)
Definition number_of_spans (s : bspline) : result nat :=
  if bs_uniform s then
    let count := (length (bs_points s) - bs_degree s)%nat in
    Ok (if bs_closed s then (count + 1)%nat else count)
  else Raise NotImplementedError.

(** 275-277: the loop of span, [None] when it ends without a return *)
Fixpoint span_loop (i : Z) (knots : list R) (t : R) : option Z :=
  match knots with
  | [] => None
  | t_span :: knots => if Rltb t t_span then Some (i - 1)%Z else span_loop (i + 1) knots t
  end.

(** 269-277: span; [int(t)] of a non-negative float is its integer part. *)
Definition span (s : bspline) (t : R) : result (option Z) :=
  a <- start_knot s ;;
  if negb (Rleb a t) then Raise ValueError
  else
    b <- end_knot s ;;
    if negb (Rleb t b) then Raise ValueError
    else if bs_uniform s then Ok (Some (Int_part t + Z.of_nat (bs_degree s))%Z)
    else Ok (span_loop 0 (bs_knots s) t).

(** 281-288: knot_multiplicity *)
Fixpoint multiplicity_loop (knots : list R) (knot : R) (count : nat) : nat :=
  match knots with
  | [] => count
  | t :: knots =>
      if Reqb t knot then multiplicity_loop knots knot (count + 1)
      else if Rltb knot t then count
      else multiplicity_loop knots knot count
  end.
Definition knot_multiplicity (s : bspline) (knot : R) : nat :=
  multiplicity_loop (bs_knots s) knot 0.

(** 292-313: basis_function.  The recursion is on [k]; python compares the knots only when the
    first comparison holds, and reads [knots[i+1]] then only. *)
Fixpoint basis_function (s : bspline) (k : nat) (i : nat) (t : R) : result R :=
  let knots := bs_knots s in
  match k with
  | O =>
      a <- py_get knots (Z.of_nat i) ;;
      if Rleb a t then
        b <- py_get knots (Z.of_nat (i + 1)) ;;
        Ok (if Rltb t b then 1 else 0)
      else Ok 0
  | S k' =>
      ki <- py_get knots (Z.of_nat i) ;;
      kik <- py_get knots (Z.of_nat (i + k)) ;;
      c1 <- (if Reqb kik ki then Ok 0
             else (b <- basis_function s k' i t ;; Ok ((t - ki) / (kik - ki) * b))) ;;
      ki <- py_get knots (Z.of_nat (i + 1)) ;;
      kik <- py_get knots (Z.of_nat (i + k + 1)) ;;
      c2 <- (if Reqb kik ki then Ok 0
             else (b <- basis_function s k' (i + 1) t ;; Ok ((kik - t) / (kik - ki) * b))) ;;
      Ok (c1 + c2)
  end.

(** 331-343: the body of the inner loop of _deboor *)
Definition deboor_body (knots : list R) (l : Z) (degree : nat) (t : R) (r : nat) (j : nat)
    (points : list vec) : result (list vec) :=
  let k := (Z.of_nat j + (l - Z.of_nat degree))%Z in
  a <- py_get knots (Z.of_nat j + 1 + l - Z.of_nat r) ;;
  b <- py_get knots k ;;
  let d := a - b in
  let alpha := if Reqb d 0 then 0 else (t - b) / d in
  point <- (if Reqb alpha 0 then py_get points (Z.of_nat j - 1)
            else if Reqb alpha 1 then py_get points (Z.of_nat j)
            else (p <- py_get points (Z.of_nat j - 1) ;;
                  q <- py_get points (Z.of_nat j) ;;
                  Ok (vadd (vscale p (1 - alpha)) (vscale q alpha)))) ;;
  Ok (update j point points).

(** 317-345: _deboor; [None - degree] is a TypeError.
    [range(degree, r-1, -1)] is [degree, ..., r]. *)
Definition deboor (s : bspline) (t : R) : result vec :=
  l <- span s t ;;
  match l with
  | None => Raise TypeError
  | Some l =>
      let degree := bs_degree s in
      let l_minus_degree := (l - Z.of_nat degree)%Z in
      points <- traverse (fun j => py_get (bs_points s) (Z.of_nat j + l_minus_degree))
                         (seq 0 (order s)) ;;
      points <- for_loop (fun r points =>
                  for_loop (fun j points => deboor_body (bs_knots s) l degree t r j points)
                           (rev (seq r (degree + 1 - r))) points)
                (seq 1 degree) points ;;
      py_get points (Z.of_nat degree)
  end.

(** 349-356 and Primitive.py 199-215: _naive_point_at_t.  [np.array(self.points)] of the list
    iterator is an array of one object, which cannot be multiplied by a float. *)
Definition naive_point_at_t (s : bspline) (t : R) : result vec :=
  _ <- traverse (fun i => basis_function s (bs_degree s) i t) (seq 0 (length (bs_points s))) ;;
  Raise TypeError.

(** 360-373: point_at_t *)
Definition point_at_t (s : bspline) (t : R) (naive : bool) : result vec :=
  let rest := if naive then naive_point_at_t s t else deboor s t in
  if bs_uniform s then
    if Reqb t 0 then py_get (bs_points s) 0
    else
      e <- end_knot s ;;
      if Reqb t e then py_get (bs_points s) (-1) else rest
  else rest.

(** 393-410: the body of the loop of insert_knot *)
Definition insert_weight (knots : list R) (degree : nat) (l : Z) (t : R) (i : nat) : result R :=
  if (Z.of_nat i <=? l - Z.of_nat degree)%Z then Ok 1
  else if (l <? Z.of_nat i)%Z then Ok 0
  else
    ti <- py_get knots (Z.of_nat i) ;;
    a <- py_get knots (Z.of_nat (i + degree)) ;;
    let d := a - ti in
    Ok (if Rltb 0 d then (t - ti) / d else 0).
Definition insert_point (points : list vec) (i : nat) (w : R) : result vec :=
  if Reqb w 0 then py_get points (Z.of_nat i - 1)
  else if Reqb w 1 then py_get points (Z.of_nat i)
  else
    p <- py_get points (Z.of_nat i - 1) ;;
    q <- py_get points (Z.of_nat i) ;;
    Ok (vadd (vscale p (1 - w)) (vscale q w)).

(** 377-416: insert_knot; the new spline is neither closed nor uniform. *)
Definition insert_knot (s : bspline) (t : R) : result bspline :=
  l <- span s t ;;
  match l with
  | None => Raise TypeError
  | Some l =>
      new_points <- traverse (fun i =>
          w <- insert_weight (bs_knots s) (bs_degree s) l t i ;; insert_point (bs_points s) i w)
        (seq 0 (length (bs_points s) + 1)) ;;
      let n := Z.to_nat (l + 1) in
      new_bspline new_points (bs_degree s) false
                  (Some (firstn n (bs_knots s) ++ [t] ++ skipn n (bs_knots s)))
  end.

(** 431-432: the inner loop of to_bezier_form *)
Fixpoint insert_times (k : nat) (t : R) (s : bspline) : result bspline :=
  match k with
  | O => Ok s
  | S k => s' <- insert_knot s t ;; insert_times k t s'
  end.

(** 420-434: to_bezier_form with the default degree.  [range(1, end_knot)] on a uniform spline. *)
Definition to_bezier_form (s : bspline) : result bspline :=
  if negb (bs_uniform s) then Raise ValueError
  else
    for_loop (fun t new_spline =>
        insert_times (bs_degree s + 1 - knot_multiplicity s (INR t)) (INR t) new_spline)
      (seq 1 (length (bs_points s) - bs_degree s - 1)) s.

(** The Bezier curve classes used by to_bezier. *)
Inductive curve := CQuadratic (c : quadratic) | CCubic (c : cubic).

(** The point_at_t method of either class (ModelBezier). *)
Definition curve_point (c : curve) (t : R) : vec :=
  match c with CQuadratic q => quad_point_at_t q t | CCubic q => cubic_point_at_t q t end.

(** 442-447 and 458: cls( *points ); [cls] is unbound for a degree below two. *)
Definition make_curve (degree : nat) (points : list vec) : result curve :=
  match degree with
  | 0%nat | 1%nat => Raise UnboundLocalError
  | 2%nat => match points with
             | [a; b; c] => Ok (CQuadratic (Quad a b c))
             | _ => Raise TypeError
             end
  | _ => match points with
         | [a; b; c; d] => Ok (CCubic (Cub a b c d))
         | _ => Raise TypeError
         end
  end.

(** 438-461: to_bezier *)
Definition to_bezier (s : bspline) : result (list curve) :=
  spline <- to_bezier_form s ;;
  spans <- number_of_spans s ;;
  let o := order spline in
  traverse (fun i => make_curve (bs_degree s) (firstn o (skipn (i * o) (bs_points spline))))
           (seq 0 spans).

(** ** The uniform splines of one span *)

(** np.dot(self.point_array, basis) with the points as columns: the combination of the points by
    the columns of a matrix given by rows. *)
Definition combine_points (points : list vec) (column : list R) : vec :=
  fold_left vadd (map (fun pk => vscale (fst pk) (snd pk)) (combine points column)) (V 0 0).
Definition dot_rows (points : list vec) (columns : list (list R)) : list vec :=
  map (combine_points points) columns.

(** np.dot of two matrices, by columns. *)
Definition dot_list (a b : list R) : R :=
  fold_left Rplus (map (fun xy => fst xy * snd xy) (combine a b)) 0.
Definition column (m : list (list R)) (j : nat) : list R := map (fun row => nth j row 0) m.
Definition matrix_columns (a b : list (list R)) (size : nat) : list (list R) :=
  map (fun j => map (fun row => dot_list row (column b j)) a) (seq 0 size).

(** Bezier.py 210-220, 420-432; Spline.py 52-62, 110-122 *)
Definition quad_bezier_inverse_basis : list (list R) := [[-2; 1; -2]; [-1; -3; 1]; [-1; -1; -2]].
Definition cubic_bezier_basis : list (list R) :=
  [[1; -3; 3; -1]; [0; 3; -6; 3]; [0; 0; 3; -3]; [0; 0; 0; 1]].
Definition cubic_bezier_inverse_basis : list (list R) :=
  [[1; 1; 1; 1]; [0; 1/3; 2/3; 1]; [0; 0; 1/3; 1]; [0; 0; 0; 1]].
Definition quad_spline_basis : list (list R) := [[1; -2; 1]; [1; 2; -2]; [0; 0; 1]].
Definition cubic_spline_basis : list (list R) :=
  map (map (fun x => x / 6)) [[1; -3; 3; -1]; [4; 0; -6; 3]; [1; 3; 3; -3]; [0; 0; 0; 1]].
Definition cubic_spline_inverse_basis : list (list R) :=
  [[1; 1; 1; 1]; [-1; 0; 1; 2]; [2/3; -1/3; 2/3; 11/3]; [0; 0; 0; 6]].

(** Bezier.py 447-452: CubicBezier2D.to_spline, the points of the CubicUniformSpline2D *)
Definition to_spline (c : cubic) : list vec :=
  dot_rows [c0 c; c1 c; c2 c; c3p c]
           (matrix_columns cubic_bezier_basis cubic_spline_inverse_basis 4).

(** Spline.py 76-79: QuadraticUniformSpline2D.to_bezier *)
Definition quad_spline_to_bezier (p0 p1 p2 : vec) : list vec :=
  dot_rows [p0; p1; p2] (matrix_columns quad_spline_basis quad_bezier_inverse_basis 3).

(** Spline.py 136-145: CubicUniformSpline2D.to_bezier: the attribute [_start] does not exist.  The
    points computed before. *)
Definition cubic_spline_to_bezier (p0 p1 p2 p3 : vec) : result (list vec) := Raise AttributeError.
Definition cubic_spline_bezier_points (p0 p1 p2 p3 : vec) : list vec :=
  dot_rows [p0; p1; p2; p3] (matrix_columns cubic_spline_basis cubic_bezier_inverse_basis 4).

(** Spline.py 149-163: CubicUniformSpline2D.point_at_t *)
Definition cubic_spline_point_at_t (p0 p1 p2 p3 : vec) (t : R) : vec :=
  let div p k := vscale p (1 / k) in
  vadd (vadd (vadd
    (vadd (vadd (div p0 6) (div (vscale p1 2) 3)) (div p2 6))
    (vscale (vadd (div (vneg p0) 2) (div p2 2)) t))
    (vscale (vadd (vsub (div p0 2) p1) (div p2 2)) (t ^ 2)))
    (vscale (vadd (vsub (vadd (div (vneg p0) 6) (div p1 2)) (div p2 2)) (div p3 6)) (t ^ 3)).

(** Spline.py 83-97: QuadraticUniformSpline2D.point_at_t uses the missing [_p3]. *)
Definition quad_spline_point_at_t (p0 p1 p2 : vec) (t : R) : result vec := Raise AttributeError.
