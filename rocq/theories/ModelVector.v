(** Model of the 2D vectors, Patro/GeometryEngine/Vector.py, over the real numbers.

    A vector is a value: [self._v], the numpy array of two floats.  Rounding is not modelled.  The
    classes Vector2D and NormalisedVector2D carry the same data (Vector.py 583-597: the check of the
    magnitude is commented out) and are not distinguished. *)
From Coq Require Import Reals.
From Verif Require Import Base.
Local Open Scope R_scope.
Local Open Scope result_scope.

Record vec := V { vx : R; vy : R }.

(** Float comparisons. *)
Definition Rltb (a b : R) : bool := if Rlt_dec a b then true else false.
Definition Rleb (a b : R) : bool := if Rle_dec a b then true else false.
Definition Reqb (a b : R) : bool := if Req_EM_T a b then true else false.

(** python [a / b] on two python floats. *)
Definition fdiv (a b : R) : result R := if Reqb b 0 then Raise ZeroDivisionError else Ok (a / b).

(** math.radians, math.degrees *)
Definition radians (a : R) : R := a * PI / 180.
Definition degrees (a : R) : R := a * 180 / PI.

(** Patro/Common/Math/Functions.py 47-50: sign.  math.copysign(1.0, x); the model has no -0.0. *)
Definition sign (x : R) : R := if Rltb x 0 then -1 else 1.

(** Functions.py 59-66: trignometric_clamp *)
Definition trignometric_clamp (x : R) : R :=
  if Rltb 1 x then 1 else if Rltb x (-1) then -1 else x.

(** Vector.py 174-176: __eq__ *)
Definition veqb (a b : vec) : bool := andb (Reqb (vx a) (vx b)) (Reqb (vy a) (vy b)).

(** Vector.py 180-214: __add__, __sub__, __neg__ *)
Definition vadd (a b : vec) : vec := V (vx a + vx b) (vy a + vy b).
Definition vsub (a b : vec) : vec := V (vx a - vx b) (vy a - vy b).
Definition vneg (a : vec) : vec := V (- vx a) (- vy a).

(** Vector.py 218-220: __abs__ *)
Definition vabs (a : vec) : vec := V (Rabs (vx a)) (Rabs (vy a)).

(** Vector.py 517-525: __mul__, __rmul__ by a float *)
Definition vscale (a : vec) (k : R) : vec := V (k * vx a) (k * vy a).

(** Vector.py 536-538: __truediv__ by a float; numpy does not raise on a division by zero. *)
Definition vdiv (a : vec) (k : R) : result vec :=
  if Reqb k 0 then Raise NotANumber else Ok (V (vx a / k) (vy a / k)).

(** Vector.py 549-553: scale *)
Definition vscale2 (a : vec) (sx sy : R) : vec := V (vx a * sx) (vy a * sy).

(** Vector.py 557-561: divide *)
Definition vdivide (a : vec) (sx sy : R) : result vec :=
  if orb (Reqb sx 0) (Reqb sy 0) then Raise NotANumber else Ok (V (vx a / sx) (vy a / sy)).

(** Vector.py 392-400: dot, cross *)
Definition dot (a b : vec) : R := vx a * vx b + vy a * vy b.
Definition cross (a b : vec) : R := vx a * vy b - vy a * vx b.

(** Vector.py 262-273: magnitude_square, magnitude *)
Definition magnitude_square (a : vec) : R := dot a a.
Definition magnitude (a : vec) : R := sqrt (magnitude_square a).

(** Vector.py 378-388: tan, inverse_tan *)
Definition vtan (a : vec) : result R := fdiv (vy a) (vx a).
Definition vinverse_tan (a : vec) : result R := fdiv (vx a) (vy a).

(** Vector.py 149-155 and 295: [bool(self)].  The method is named __nonzero__, which python 3 does
    not use, so that the truth value is the one of __len__, always 2. *)
Definition vbool (a : vec) : bool := negb (Nat.eqb 2 0).

(** Vector.py 278-308: orientation.  [math.copysign(90, y)] as in [sign]. *)
Definition orientation (a : vec) : result R :=
  if negb (vbool a) then Raise NameError
  else if Reqb (vx a) 0 then Ok (if Rltb (vy a) 0 then -90 else 90)
  else if Reqb (vy a) 0 then Ok (if Rleb 0 (vx a) then 0 else 180)
  else
    t <- vtan a ;;
    let o := degrees (atan t) in
    if Rltb (vx a) 0 then
      if Rltb 0 (vy a) then Ok (o + 180) else Ok (o - 180)
    else Ok o.

(** Vector.py 312-328: rotate *)
Definition rotate (a : vec) (angle : R) (counter_clockwise : bool) : vec :=
  let r := radians angle in
  let r := if negb counter_clockwise then - r else r in
  let c := cos r in
  let s := sin r in
  V (c * vx a - s * vy a) (s * vx a + c * vy a).

(** Vector.py 333-373: normal, anti_normal, permute, parity *)
Definition normal (a : vec) : vec := V (- vy a) (vx a).
Definition anti_normal (a : vec) : vec := V (vy a) (- vx a).
Definition permute (a : vec) : vec := V (vy a) (vx a).
Definition parity (a : vec) : vec := V (- vx a) (- vy a).

(** [round(x, 7) == 0]: the nearest multiple of 1e-7 is zero; a tie at 0.5e-7 goes to the even
    multiple, zero. *)
Definition round7_is_zero (x : R) : bool := Rleb (Rabs x) (5 / 10 ^ 8).

(** Vector.py 412-426: is_parallel (the test only, and the test with the cross product),
    is_orthogonal *)
Definition is_parallel (a b : vec) : bool := round7_is_zero (cross a b).
Definition is_parallel_cross (a b : vec) : bool * R := (is_parallel a b, cross a b).
Definition is_orthogonal (a b : vec) : bool := round7_is_zero (dot a b).

(** Vector.py 430-461: cos_with, projection_on, sin_with, deviation_with, angle_with.  The dot
    product and the magnitude are python floats, the division by zero raises. *)
Definition cos_with (self direction : vec) : result R :=
  q <- fdiv (dot direction self) (magnitude direction * magnitude self) ;;
  Ok (trignometric_clamp q).
Definition projection_on (self direction : vec) : result R :=
  fdiv (dot direction self) (magnitude direction).
Definition sin_with (self direction : vec) : result R :=
  q <- fdiv (cross direction self) (magnitude direction * magnitude self) ;;
  Ok (trignometric_clamp q).
Definition deviation_with (self direction : vec) : result R :=
  fdiv (cross direction self) (magnitude direction).
Definition angle_with (self direction : vec) : result R :=
  c <- cos_with self direction ;;
  s <- sin_with self direction ;;
  Ok (sign s * degrees (acos c)).

(** Vector.py 486-513: from_angle, from_polar, from_ellipse, middle *)
Definition from_angle (angle : R) : vec :=
  let rad := radians angle in V (cos rad) (sin rad).
Definition from_polar (radius angle : R) : vec := vscale (from_angle angle) radius.
Definition from_ellipse (rx ry angle : R) : vec :=
  let a := radians angle in V (rx * cos a) (ry * sin a).
Definition vmiddle (a b : vec) : vec := vscale (vadd a b) (1 / 2).

(** Vector.py 565-574: normalise (the value of self after the call), to_normalised *)
Definition normalise (a : vec) : result vec := vdiv a (magnitude a).
Definition to_normalised (a : vec) : result vec := vdiv a (magnitude a).

(** Patro/GeometryEngine/Interpolation.py 31-33: interpolate_two_points *)
Definition interpolate_two_points (p0 p1 : vec) (t : R) : vec :=
  vadd (vscale p0 (1 - t)) (vscale p1 t).
