(** Model of Patro/GeometryEngine/Bezier.py over the real numbers.
    Not modelled: the clipping code (620-813, calls undefined names) and to_spline (451). *)
From Coq Require Import Reals List.
From Verif Require Import Base ModelVector ModelRoot ModelLine.
Import ListNotations.
Local Open Scope R_scope.
Local Open Scope result_scope.

(** ** Helpers of python *)

(** math.log *)
Definition flog (x : R) : result R := if Rleb x 0 then Raise ValueError else Ok (ln x).

(** [x ** y] for a positive float [x] *)
Definition fpow (x y : R) : R := Rpower x y.

(** ** QuadraticBezier2D *)

(** Bezier.py 225-226 and Primitive.py 503-540: three control points *)
Record quadratic := Quad { q0 : vec; q1 : vec; q2 : vec }.

(** 263-267: point_at_t *)
Definition quad_point_at_t (c : quadratic) (t : R) : vec :=
  let u := 1 - t in
  vadd (vadd (vscale (q0 c) (u ^ 2)) (vscale (vscale (vscale (q1 c) 2) t) u))
       (vscale (q2 c) (t ^ 2)).

(** 271-284: split_at_t *)
Definition quad_split_at_t (c : quadratic) (t : R) : option quadratic * option quadratic :=
  if Rleb t 0 then (None, Some c)
  else if Rleb 1 t then (Some c, None)
  else
    let p01 := interpolate_two_points (q0 c) (q1 c) t in
    let p12 := interpolate_two_points (q1 c) (q2 c) t in
    let p := interpolate_two_points p01 p12 t in
    (Some (Quad (q0 c) p01 p), Some (Quad p p12 (q2 c))).

(** 288-308: tangent0, normal0; tangent1 is defined a second time as its own normal and never
    returns. *)
Definition quad_tangent0 (c : quadratic) : result vec := normalise (vsub (q1 c) (q0 c)).
Definition quad_normal0 (c : quadratic) : result vec := t <- quad_tangent0 c ;; Ok (normal t).
Definition quad_tangent1 (c : quadratic) : result vec := Raise RecursionError.

(** 312-314: tangent_at *)
Definition quad_tangent_at (c : quadratic) (t : R) : vec :=
  let u := 1 - t in
  vadd (vscale (vsub (q1 c) (q0 c)) u) (vscale (vsub (q2 c) (q1 c)) t).

(** 235-259: length *)
Definition quad_length (curve : quadratic) : result R :=
  let A0 := vsub (q1 curve) (q0 curve) in
  let A1 := vadd (vsub (q0 curve) (vscale (q1 curve) 2)) (q2 curve) in
  if negb (Reqb (magnitude_square A1) 0) then
    let c := 4 * dot A1 A1 in
    let b := 8 * dot A0 A1 in
    let a := 4 * dot A0 A0 in
    let q := 4 * a * c - b * b in
    let two_cb := 2 * c + b in
    let sum_cba := c + b + a in
    m0 <- fdiv (1 / 4) c ;;
    m1 <- fdiv q (8 * fpow c (3 / 2)) ;;
    s_sum <- fsqrt sum_cba ;;
    s_a <- fsqrt a ;;
    s_csum <- fsqrt (c * sum_cba) ;;
    log1 <- flog (2 * s_csum + two_cb) ;;
    s_ca <- fsqrt (c * a) ;;
    log0 <- flog (2 * s_ca + b) ;;
    Ok (m0 * (two_cb * s_sum - b * s_a) + m1 * (log1 - log0))
  else Ok (2 * magnitude A0).

(** 176-181 and 318-334: _map_to_line looks up [AffineTransformation.Rotation], which only the
    subclass AffineTransformation2D has; intersect_line always raises. *)
Definition quad_intersect_line (c : quadratic) (l : line) : result roots := Raise AttributeError.

(** 326-334: the rest of intersect_line, once the curve is mapped so that the line is the axis. *)
Definition quad_intersect_axis (c : quadratic) : result roots :=
  let p0 := vy (q0 c) in
  let p1 := vy (q1 c) in
  let p2 := vy (q2 c) in
  quadratic_root (p2 - 2 * p1 + p0) (2 * (p1 - p0)) p0.

(** 358-364: fat_line uses the missing _p3 *)
Definition quad_fat_line (c : quadratic) : result (line * R * R) := Raise AttributeError.

(** 368-393: closest_point.  Iterating over a None or a number raises, and so does the last
    [self.point_at_t(t)], where [t] is a list. *)
Definition quad_closest_point (sympy_real_roots : R -> R -> R -> R -> list R)
    (c : quadratic) (point : vec) : result (option vec) :=
  let A := vsub (q1 c) (q0 c) in
  let B := vsub (vsub (q2 c) (q1 c)) A in
  let M := vsub (q0 c) point in
  roots <- cubic_root sympy_real_roots (magnitude_square B) (3 * dot A B)
             (2 * magnitude_square A + dot M B) (dot M A) ;;
  l <- match roots with
       | RNone | ROne _ => Raise TypeError
       | RTwo a b => Ok [a; b]
       | RList l => Ok l
       end ;;
  match filter (fun r => andb (Rleb 0 r) (Rleb r 1)) l with
  | [] => Ok None
  | [_] => Raise TypeError
  | _ => Ok None
  end.

(** ** CubicBezier2D *)

Record cubic := Cub { c0 : vec; c1 : vec; c2 : vec; c3p : vec }.

(** 397-405: QuadraticBezier2D.to_cubic *)
Definition to_cubic (c : quadratic) : result cubic :=
  p1 <- vdiv (vadd (q0 c) (vscale (q1 c) 2)) 3 ;;
  p2 <- vdiv (vadd (q2 c) (vscale (q1 c) 2)) 3 ;;
  Ok (Cub (q0 c) p1 p2 (q2 c)).

(** 462-468: point_at_t *)
Definition cubic_point_at_t (c : cubic) (t : R) : vec :=
  vadd (vadd (vadd (c0 c)
    (vscale (vscale (vsub (c1 c) (c0 c)) 3) t))
    (vscale (vscale (vadd (vsub (c2 c) (vscale (c1 c) 2)) (c0 c)) 3) (t ^ 2)))
    (vscale (vsub (vadd (vsub (c3p c) (vscale (c2 c) 3)) (vscale (c1 c) 3)) (c0 c)) (t ^ 3)).

(** 474-483: _q_point, mid_point_quadratic_approximation *)
Definition q_point (c : cubic) : result vec :=
  vdiv (vsub (vadd (vsub (vscale (c2 c) 3) (c3p c)) (vscale (c1 c) 3)) (c0 c)) 4.
Definition mid_point_quadratic_approximation (c : cubic) : result quadratic :=
  p1 <- q_point c ;; Ok (Quad (c0 c) p1 (c3p c)).

(** 487-496: split_at_t *)
Definition cubic_split_at_t (c : cubic) (t : R) : cubic * cubic :=
  let p01 := interpolate_two_points (c0 c) (c1 c) t in
  let p12 := interpolate_two_points (c1 c) (c2 c) t in
  let p23 := interpolate_two_points (c2 c) (c3p c) t in
  let p012 := interpolate_two_points p01 p12 t in
  let p123 := interpolate_two_points p12 p23 t in
  let p := interpolate_two_points p012 p123 t in
  (Cub (c0 c) p01 p012 p, Cub p p123 p23 (c3p c)).

(** 500-502: _d01 *)
Definition d01 (c : cubic) : R :=
  magnitude (vsub (vadd (vsub (c3p c) (vscale (c2 c) 3)) (vscale (c1 c) 3)) (c0 c)) / 2.

(** 409-412, 418 and 506-508: _t_max *)
Definition interpolation_precision : R := 1 / 1000.
Definition t_max (c : cubic) : result R :=
  x <- fdiv (18 / sqrt 3 * interpolation_precision) (d01 c) ;; Ok (fpow x (1 / 3)).

(** 518-530: adaptive_length_approximation, the loop that cuts the curve *)
Fixpoint adaptive_segments (fuel : nat) (segment : cubic) (segments : list cubic)
  : result (list cubic) :=
  match fuel with
  | O => Raise OutOfFuel
  | S fuel =>
      t <- t_max segment ;;
      if Rltb t 1 then
        let '(c_left, c_right) := cubic_split_at_t segment t in
        adaptive_segments fuel c_right (segments ++ [c_left])
      else Ok (segments ++ [segment])
  end.

(** 512-514: q_length; 530: the sum; 455-458: length *)
Definition q_length (c : cubic) : result R :=
  q <- mid_point_quadratic_approximation c ;; quad_length q.
Definition cubic_length (fuel : nat) (c : cubic) : result R :=
  segments <- adaptive_segments fuel c [] ;;
  lengths <- traverse q_length segments ;;
  Ok (fold_left Rplus lengths 0).

(** 534-542: tangent1, tangent_at *)
Definition cubic_tangent1 (c : cubic) : result vec := normalise (vsub (c3p c) (c2 c)).
Definition cubic_tangent_at (c : cubic) (t : R) : vec :=
  let u := 1 - t in
  vadd (vadd (vscale (vsub (c1 c) (c0 c)) (u ^ 2))
             (vscale (vscale (vscale (vsub (c2 c) (c1 c)) 2) t) u))
       (vscale (vsub (c3p c) (c2 c)) (t ^ 2)).

(** 546-574: intersect_line, as for the quadratic curve *)
Definition cubic_intersect_line (c : cubic) (l : line) : result roots := Raise AttributeError.
Definition cubic_intersect_axis (sympy_real_roots : R -> R -> R -> R -> list R) (c : cubic)
  : result roots :=
  let p0 := vy (c0 c) in
  let p1 := vy (c1 c) in
  let p2 := vy (c2 c) in
  let p3 := vy (c3p c) in
  cubic_root sympy_real_roots
    (p3 - 3 * p2 + 3 * p1 - p0) (3 * (p2 - p1 * 2 + p0)) (3 * (p1 - p0)) p0.

(** 578-588: fat_line *)
Definition cubic_fat_line (c : cubic) : result (line * R * R) :=
  let l := line_from_two_points (c0 c) (c3p c) in
  d1 <- distance_to_line l (c1 c) ;;
  d2 <- distance_to_line l (c2 c) ;;
  let factor := if Rltb 0 (d1 * d2) then 3 / 4 else 4 / 9 in
  Ok (l, factor * Rmin 0 (Rmin d1 d2), factor * Rmax 0 (Rmax d1 d2)).

(** 818-834: is_flat_enough *)
Definition is_flat_enough (c : cubic) (flatness : R) : bool :=
  let u := vsub (vsub (vscale (c1 c) 3) (vscale (c0 c) 2)) (c3p c) in
  let v := vsub (vsub (vscale (c2 c) 3) (vscale (c3p c) 2)) (c0 c) in
  let criterion := Rmax (vx u ^ 2) (vx v ^ 2) + Rmax (vy u ^ 2) (vy v ^ 2) in
  let threshold := 16 * flatness ^ 2 in
  Rleb criterion threshold.

(** 839-851: area *)
Definition cubic_area (c : cubic) : R :=
  let x0 := vx (c0 c) in let y0 := vy (c0 c) in
  let x1 := vx (c1 c) in let y1 := vy (c1 c) in
  let x2 := vx (c2 c) in let y2 := vy (c2 c) in
  let x3 := vx (c3p c) in let y3 := vy (c3p c) in
  3 * ((y3 - y0) * (x1 + x2) - (x3 - x0) * (y1 + y2)
       + y1 * (x0 - x2) - x1 * (y0 - y2)
       + y3 * (x2 + x0 / 3) - x3 * (y2 + y0 / 3)) / 20.

(** Root.py 124-130: fifth_root; sympy.real_roots is a parameter, on the list of the six
    coefficients, highest degree first. *)
Definition fifth_root (sympy_real_roots : list R -> list R) (a b c d e f : R) : list R :=
  if Reqb a 0 then sympy_real_roots [a; b; c; d; e; f]
  else sympy_real_roots [1; b / a; c / a; d / a; e / a; f / a].

(** 855-895: closest_point *)
Definition cubic_closest_point (sympy_real_roots : list R -> list R) (c : cubic) (point : vec)
  : option vec :=
  let n := vsub (vadd (vsub (c3p c) (vscale (c2 c) 3)) (vscale (c1 c) 3)) (c0 c) in
  let r := vscale (vadd (vsub (c2 c) (vscale (c1 c) 2)) (c0 c)) 3 in
  let s := vscale (vsub (c1 c) (c0 c)) 3 in
  let v := c0 c in
  let roots := fifth_root sympy_real_roots
    (-3 * magnitude_square n)
    (-5 * dot n r)
    (-2 * (2 * dot n s + magnitude_square r))
    (3 * (dot point n - dot n v - dot r s))
    (2 * dot point r - 2 * dot r v - magnitude_square s)
    (dot point s - dot s v) in
  match filter (fun r => andb (Rleb 0 r) (Rleb r 1)) roots with
  | [] => None
  | [t] => Some (cubic_point_at_t c t)
  | [t0; t1] => if Reqb t0 0 then Some (cubic_point_at_t c t1) else None
  | _ => None
  end.

(** ** BezierMixin2D *)

(** 155-172: split_at_two_t, on both kinds of curves: a point when both parameters are equal. *)
Inductive part (A : Type) := PPoint (p : vec) | PCurve (c : A) | PNone.
Arguments PPoint {A} p. Arguments PCurve {A} c. Arguments PNone {A}.

Definition cubic_split_at_two_t (c : cubic) (t1 t2 : R) : result (part cubic) :=
  if Reqb t1 t2 then Ok (PPoint (cubic_point_at_t c t1))
  else
    let '(t1, t2) := if Rltb t2 t1 then (t2, t1) else (t1, t2) in
    let curve := snd (cubic_split_at_t c t1) in
    if Rltb t2 1 then
      t <- fdiv (t2 - t1) (1 - t1) ;; Ok (PCurve (fst (cubic_split_at_t curve t)))
    else Ok (PCurve curve).

Definition quad_split_at_two_t (c : quadratic) (t1 t2 : R) : result (part quadratic) :=
  if Reqb t1 t2 then Ok (PPoint (quad_point_at_t c t1))
  else
    let '(t1, t2) := if Rltb t2 t1 then (t2, t1) else (t1, t2) in
    let curve := snd (quad_split_at_t c t1) in
    if Rltb t2 1 then
      t <- fdiv (t2 - t1) (1 - t1) ;;
      match curve with
      | None => Raise AttributeError
      | Some curve =>
          match fst (quad_split_at_t curve t) with
          | None => Ok PNone
          | Some c => Ok (PCurve c)
          end
      end
    else
      match curve with None => Ok PNone | Some c => Ok (PCurve c) end.

(** 83-97: interpolated_length with a given step *)
Fixpoint interpolated_length_loop (fuel : nat) (point_at_t : R -> vec) (dt length t : R)
  : result R :=
  match fuel with
  | O => Raise OutOfFuel
  | S fuel =>
      if Rltb t 1 then
        let t' := Rmin (t + dt) 1 in
        interpolated_length_loop fuel point_at_t dt
          (length + magnitude (vsub (point_at_t t') (point_at_t t))) t'
      else Ok length
  end.
Definition interpolated_length (fuel : nat) (point_at_t : R -> vec) (dt : R) : result R :=
  interpolated_length_loop fuel point_at_t dt 0 0.
(** 87-88: the default step *)
Definition default_dt (start stop : vec) : result R :=
  fdiv (5 / 100) (magnitude (vsub stop start)).

(** 101-117: length_at_t: [self.split_at_t(t)] is a tuple, which has no length attribute. *)
Definition length_at_t (t : R) : result R := Raise AttributeError.

(** 121-151: t_at_length with the length of the curve and a precision.  The first step of the
    dichotomy calls length_at_t, which raises. *)
Definition t_at_length (curve_length : result R) (length precision : R) : result R :=
  if Rltb length 0 then Raise ValueError
  else if Reqb length 0 then Ok 0
  else
    curve_length <- curve_length ;;
    if Rleb (curve_length - length) precision then Ok 1
    else if Rltb curve_length length then Raise ValueError
    else length_at_t (1 / 2).
