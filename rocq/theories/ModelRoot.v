(** Model of Patro/Common/Math/Root.py over the real numbers. *)
From Coq Require Import Reals List.
From Verif Require Import Base ModelVector.
Import ListNotations.
Local Open Scope R_scope.
Local Open Scope result_scope.

(** The python return value: None, a float, a tuple of two floats or a list. *)
Inductive roots :=
| RNone
| ROne (r : R)
| RTwo (r1 r2 : R)
| RList (l : list R).

(** Root.py 46-68: quadratic_root *)
Definition quadratic_root (a b c : R) : result roots :=
  if andb (Reqb a 0) (Reqb b 0) then Ok RNone
  else if Reqb a 0 then (x <- fdiv (- c) b ;; Ok (ROne x))
  else
    let D := b ^ 2 - 4 * a * c in
    if Rltb D 0 then Ok RNone
    else
      let b := - b in
      s <- fdiv 1 (2 * a) ;;
      if Rltb 0 D then Ok (RTwo ((b - sqrt D) * s) ((b + sqrt D) * s))
      else Ok (ROne (b * s)).

(** math.sqrt *)
Definition fsqrt (x : R) : result R := if Rltb x 0 then Raise ValueError else Ok (sqrt x).

(** math.acos *)
Definition facos (x : R) : result R :=
  if orb (Rltb x (-1)) (Rltb 1 x) then Raise ValueError else Ok (acos x).

(** Root.py 134-159: cubic_root_normalised (the second definition of the name, which replaces the
    one of line 96).  [( ... )**1/3] is [(( ... )**1)/3]. *)
Definition cubic_root_normalised (a b c : R) : result roots :=
  let q := (a ^ 2 - 3 * b) / 9 in
  let q3 := q ^ 3 in
  sq <- fsqrt q ;;
  let m2sqrtQ := -2 * sq in
  let r := (2 * a ^ 3 - 9 * a * b + 27 * c) / 54 in
  let r2 := r ^ 2 in
  sd <- fsqrt (r2 - q3) ;;
  let d := - sign r * ((Rabs r + sd) ^ 1 / 3) in
  e <- (if Reqb d 0 then Ok 0 else fdiv q d) ;;
  if Rltb r2 q3 then
    sq3 <- fsqrt q3 ;;
    u <- fdiv r sq3 ;;
    t <- facos u ;;
    Ok (RList [m2sqrtQ * cos (t / 3) - a / 3; m2sqrtQ * cos ((t + 2 * PI) / 3) - a / 3;
               m2sqrtQ * cos ((t - 2 * PI) / 3) - a / 3])
  else Ok (RList [d + e - a / 3]).

(** Root.py 163-201: _cubic_root *)
Definition _cubic_root (a b c d : R) : result roots :=
  let D := 18 * a * b * c * d - 4 * b ^ 3 * d + b ^ 2 * c ^ 2 - 4 * a * c ^ 3
           - 27 * a ^ 2 * d ^ 2 in
  let D0 := b ^ 2 - 3 * a * c in
  if Reqb D 0 then
    if Reqb D0 0 then (r <- fdiv (- b) (3 * a) ;; Ok (ROne r))
    else
      r1 <- fdiv (9 * a * d - b * c) (2 * D0) ;;
      r2 <- fdiv (4 * a * b * c - 9 * a ^ 2 * d - b ^ 3) (a * D0) ;;
      Ok (RTwo r1 r2)
  else Raise NotImplementedError.

(** Root.py 72-77: cubic_root.  [sympy.real_roots] (84-92) is a parameter. *)
Definition cubic_root (sympy_real_roots : R -> R -> R -> R -> list R) (a b c d : R) : result roots :=
  if Reqb a 0 then quadratic_root b c d else Ok (RList (sympy_real_roots a b c d)).
