(** Model of Patro/GeometryEngine/Path.py (Path2D and its parts) over the real numbers, with the
    caches of the rounded corners. *)
From Coq Require Import Reals List ZArith Bool.
From Verif Require Import Base ModelVector ModelTransformation ModelLine ModelBezier ModelConic.
Import ListNotations.
Local Open Scope R_scope.
Local Open Scope result_scope.

(** 235-257: the attributes of a LinearSegment: radius, start_bulge, closing and the caches *)
Record corner := Corner {
  radius : option R;
  start_bulge : bool;
  closing : bool;
  k_direction : option vec;
  k_bissector : option vec;
  k_angle : option R;
  k_center : option vec;
  k_start : option vec;
  k_stop : option vec }.

(** The kinds of LinearSegment: PathSegment 409-450, DirectionalSegment 572-662 (with its class
    attribute __angle__), AbsoluteHorizontalSegment 496-530, AbsoluteVerticalSegment 534-568 *)
Inductive shape :=
| PLine (point : vec) (absolute : bool)
| PDir (angle length : R)
| PAbsX (x : R)
| PAbsY (y : R).

(** 666-867: the other parts.  A StringedCubicBezierSegment (784-806) keeps its flag only. *)
Inductive part :=
| Linear (s : shape) (c : corner)
| PQuad (point1 point2 : vec) (absolute : bool)
| PCubic (point1 point2 point3 : vec) (absolute : bool)
| PStringed (absolute : bool)
| PArc (point : vec) (rx ry angle : R) (large_arc sweep absolute : bool).

Record path := Path { p0 : vec; parts : list part; closed : bool }.

(** 885-890: the constructor *)
Definition new_path (p : vec) : path := Path p [] false.

(** 308-314: the setter of radius: a null radius is kept *)
Definition to_radius (value : option R) : option R := option_map Rabs value.

Definition plain (r : option R) (cl : bool) : corner := Corner r false cl None None None None None None.
(** 252-257: _reset_cache keeps the direction and the bissector *)
Definition reset_cache (c : corner) : corner :=
  Corner (radius c) (start_bulge c) (closing c) (k_direction c) (k_bissector c) None None None None.

Definition is_linear (p : option part) : bool := match p with Some (Linear _ _) => true | _ => false end.

(** ** Reading points *)

(** stop_point of a part, given the value of its start_point: 142-158, 528-530, 566-568, 609-612,
    693-695, 738-740; 115-117: not implemented for the stringed parts *)
Definition part_stop (p : part) (start : result vec) : result vec :=
  match p with
  | Linear (PLine point absolute) _ | PArc point _ _ _ _ _ absolute
  | PQuad _ point absolute | PCubic _ _ point absolute =>
      if absolute then Ok point else (s <- start ;; Ok (vadd point s))
  | Linear (PDir angle length) _ => s <- start ;; Ok (vadd s (from_polar length angle))
  | Linear (PAbsX x) _ => s <- start ;; Ok (V x (vy s))
  | Linear (PAbsY y) _ => s <- start ;; Ok (V (vx s) y)
  | PStringed _ => Raise NotImplementedError
  end.

(** 94-111, 269-275, 913-927: start_point of the part at an index.  With start_bulge (the first part
    of a closed path) it is the stop point of the last part; the parts are then such that this one
    is absolute, otherwise the model says RecursionError. *)
Fixpoint start_point (p : path) (i : nat) : result vec :=
  match i with
  | O =>
      match nth_error (parts p) 0 with
      | Some (Linear _ c) =>
          if start_bulge c then
            match last (parts p) (PStringed true) with
            | Linear (PLine point true) _ => Ok point
            | _ => Raise RecursionError
            end
          else Ok (p0 p)
      | _ => Ok (p0 p)
      end
  | S j =>
      match nth_error (parts p) j with
      | Some q => part_stop q (start_point p j)
      | None => Ok (p0 p)
      end
  end.
Definition stop_point (p : path) (i : nat) : result vec :=
  match nth_error (parts p) i with
  | Some q => part_stop q (start_point p i)
  | None => Raise AttributeError
  end.

(** 121-126: to_absolute_point *)
Definition to_absolute_point (p : path) (i : nat) (absolute : bool) (point : vec) : result vec :=
  if absolute then Ok point else (s <- start_point p i ;; Ok (vadd point s)).

(** ** The rounded corners: reading may fill the caches *)

Definition reader (A : Type) := path -> result A * path.
Definition ret {A} (r : result A) : reader A := fun p => (r, p).
Definition andthen {A B} (m : reader A) (k : A -> reader B) : reader B := fun p =>
  match m p with
  | (Ok a, p) => k a p
  | (Raise e, p) => (Raise e, p)
  end.
Delimit Scope result_scope with result.
Declare Scope reader_scope.
Delimit Scope reader_scope with reader.
Notation "x <~ m ;; k" := (andthen m (fun x => k)) (at level 61, m at next level, right associativity) : reader_scope.
Definition here : reader path := fun p => (Ok p, p).
Local Open Scope reader_scope.

Definition set_parts (p : path) (l : list part) : path := Path (p0 p) l (closed p).
Definition corner_at (i : nat) : reader corner := fun p =>
  match nth_error (parts p) i with
  | Some (Linear _ c) => (Ok c, p)
  | _ => (Raise AttributeError, p)
  end.
(** Assigning an attribute of the part at an index. *)
Definition assign (i : nat) (f : corner -> corner) : reader unit := fun p =>
  (Ok tt, match nth_error (parts p) i with
          | Some (Linear s c) => set_parts p (update i (Linear s (f c)) (parts p))
          | _ => p
          end).
Definition store {A} (i : nat) (f : option A -> corner -> corner) (m : reader A) : reader A :=
  v <~ m ;; _ <~ assign i (f (Some v)) ;; ret (Ok v).

Definition set_direction v c := Corner (radius c) (start_bulge c) (closing c) v (k_bissector c) (k_angle c) (k_center c) (k_start c) (k_stop c).
Definition set_bissector v c := Corner (radius c) (start_bulge c) (closing c) (k_direction c) v (k_angle c) (k_center c) (k_start c) (k_stop c).
Definition set_angle v c := Corner (radius c) (start_bulge c) (closing c) (k_direction c) (k_bissector c) v (k_center c) (k_start c) (k_stop c).
Definition set_center v c := Corner (radius c) (start_bulge c) (closing c) (k_direction c) (k_bissector c) (k_angle c) v (k_start c) (k_stop c).
Definition set_start v c := Corner (radius c) (start_bulge c) (closing c) (k_direction c) (k_bissector c) (k_angle c) (k_center c) v (k_stop c).
Definition set_stop v c := Corner (radius c) (start_bulge c) (closing c) (k_direction c) (k_bissector c) (k_angle c) (k_center c) (k_start c) v.

(** 269-275: the index of prev_part *)
Definition prev_index (i : nat) : reader nat :=
  c <~ corner_at i ;; p <~ here ;;
  if start_bulge c then ret (Ok (length (parts p) - 1)%nat)
  else ret (match i with O => Raise AttributeError | S j => Ok j end).

(** 318-322: direction *)
Definition direction (i : nat) : reader vec :=
  c <~ corner_at i ;;
  match k_direction c with
  | Some v => ret (Ok v)
  | None =>
      store i set_direction (
        p <~ here ;; ret (b <- stop_point p i ;; a <- start_point p i ;; normalise (vsub b a))%result)
  end.

(** The radius of a part which has one; the attributes of the caches are missing otherwise. *)
Definition radius_of (i : nat) : reader R :=
  c <~ corner_at i ;; ret (match radius c with Some r => Ok r | None => Raise AttributeError end).

(** 324-332: bissector, for a part with a radius (None otherwise) *)
Definition bissector (i : nat) : reader vec :=
  _ <~ radius_of i ;; c <~ corner_at i ;;
  match k_bissector c with
  | Some v => ret (Ok v)
  | None =>
      store i set_bissector (d <~ direction i ;; j <~ prev_index i ;; e <~ direction j ;; ret (normalise (vsub d e)))
  end.

(** 336-354: bulge_angle_rad, half_bulge_angle.  Without radius the attribute is missing, except
    after a transformation (simplified). *)
Definition bulge_angle_rad (i : nat) : reader R :=
  _ <~ radius_of i ;; c <~ corner_at i ;;
  match k_angle c with
  | Some v => ret (Ok v)
  | None =>
      store i set_angle (
        d <~ direction i ;; j <~ prev_index i ;; e <~ direction j ;; angle <~ ret (angle_with d e) ;;
        ret (Ok (radians (if Rleb 0 angle then 180 - angle else - (180 + angle)))))
  end.
Definition half_bulge_angle (i : nat) : reader R := a <~ bulge_angle_rad i ;; ret (Ok (a / 2)).

(** 358-364: bulge_center; dividing a vector by a null float gives NaN or infinite coordinates *)
Definition bulge_center (i : nat) : reader vec :=
  r <~ radius_of i ;; c <~ corner_at i ;;
  match k_center c with
  | Some v => ret (Ok v)
  | None =>
      store i set_center (
        b <~ bissector i ;; h <~ half_bulge_angle i ;; p <~ here ;;
        ret (o <- vdiv (vscale b r) (sin (Rabs h)) ;; s <- start_point p i ;; Ok (vadd s o))%result)
  end.

(** 368-383: bulge_start_point, bulge_stop_point *)
Definition bulge_start_point (i : nat) : reader vec :=
  r <~ radius_of i ;; c <~ corner_at i ;;
  match k_start c with
  | Some v => ret (Ok v)
  | None =>
      store i set_start (
        h <~ half_bulge_angle i ;; j <~ prev_index i ;; d <~ direction j ;; p <~ here ;;
        ret (o <- vdiv (vscale d r) (tan h) ;; s <- start_point p i ;; Ok (vsub s (vscale o (sign h))))%result)
  end.
Definition bulge_stop_point (i : nat) : reader vec :=
  r <~ radius_of i ;; c <~ corner_at i ;;
  match k_stop c with
  | Some v => ret (Ok v)
  | None =>
      store i set_stop (
        h <~ half_bulge_angle i ;; d <~ direction i ;; p <~ here ;;
        ret (o <- vdiv (vscale d r) (tan h) ;; s <- start_point p i ;; Ok (vadd s (vscale o (sign h))))%result)
  end.

(** 387-397: bulge_geometry *)
Definition bulge_geometry (i : nat) : reader circle :=
  o <~ bulge_center i ;; r <~ radius_of i ;;
  s <~ bulge_start_point i ;; a <~ ret (angle_for_point (Circ o r None) s) ;;
  e <~ bulge_stop_point i ;; b <~ ret (angle_for_point (Circ o r None) e) ;;
  h <~ bulge_angle_rad i ;;
  ret (Ok (Circ o r (Some (if Rltb (degrees h) 0 then Dom b a else Dom a b)))).

(** 277-300: next_part, points *)
Definition next_index (i : nat) (c : corner) : nat := if closing c then 0%nat else (i + 1)%nat.
Definition linear_points (i : nat) : reader (vec * vec) :=
  c <~ corner_at i ;; p <~ here ;;
  a <~ (match radius c with Some _ => bulge_stop_point i | None => ret (start_point p i) end) ;;
  b <~ (match nth_error (parts p) (next_index i c) with
        | Some (Linear _ c') =>
            match radius c' with Some _ => bulge_start_point (next_index i c) | None => ret (stop_point p i) end
        | _ => ret (stop_point p i)
        end) ;;
  ret (Ok (a, b)).

(** The geometry of a part: 448-451, 466-469, 697-707, 742-752, 774-778, 801-805, 860-867 *)
Inductive piece :=
| GSegment (s : segment)
| GQuad (c : quadratic)
| GCubic (c : cubic)
| GArc (a : arc_geometry).
Definition geometry (i : nat) : reader piece :=
  p <~ here ;;
  match nth_error (parts p) i with
  | Some (Linear (PLine _ _) _) => ab <~ linear_points i ;; ret (Ok (GSegment (Seg (fst ab) (snd ab))))
  | Some (Linear _ _) =>
      ret (a <- start_point p i ;; b <- stop_point p i ;; Ok (GSegment (Seg a b)))%result
  | Some (PQuad q1 q2 absolute) =>
      ret (a <- start_point p i ;; b <- to_absolute_point p i absolute q1 ;;
           c <- to_absolute_point p i absolute q2 ;; Ok (GQuad (ModelBezier.Quad a b c)))%result
  | Some (PCubic q1 q2 q3 absolute) =>
      ret (a <- start_point p i ;; b <- to_absolute_point p i absolute q1 ;;
           c <- to_absolute_point p i absolute q2 ;; d <- to_absolute_point p i absolute q3 ;;
           Ok (GCubic (Cub a b c d)))%result
  | Some (PArc q rx ry angle large sweep absolute) =>
      ret (a <- start_point p i ;; b <- stop_point p i ;;
           g <- svg_arc a b rx ry angle large sweep ;; Ok (GArc g))%result
  | Some (PStringed _) => ret (Raise AttributeError)
  | None => ret (Raise AttributeError)
  end.

(** ** Drawing commands *)

(** 235-248, 304-314: the check of the constructor of a LinearSegment *)
Definition linear_part (p : path) (s : shape) (r : option R) (cl : bool) : result part :=
  let r := to_radius r in
  match r with
  | Some _ =>
      match length (parts p) with
      | O => Raise ValueError
      | S j => if is_linear (nth_error (parts p) j) then Ok (Linear s (plain r cl)) else Raise ValueError
      end
  | None => Ok (Linear s (plain r cl))
  end.

(** 948-952: _add_part *)
Definition add_part (p : path) (q : result part) : result path :=
  if closed p then Ok p
  else (q <- q ;; Ok (set_parts p (parts p ++ [q])))%result.

(** 1000-1098: the methods *)
Inductive compass := North | South | West | East | NorthEast | SouthEast | NorthWest | SouthWest.
Definition compass_angle (c : compass) : R :=
  match c with
  | North => 90 | South => -90 | East => 0 | West => 180
  | NorthEast => 45 | NorthWest => 180 - 45 | SouthEast => -45 | SouthWest => -180 + 45
  end.
Inductive command :=
| HorizontalTo (length : R) (r : option R) (absolute : bool)
| VerticalTo (length : R) (r : option R) (absolute : bool)
| AbsoluteHorizontalTo (x : R) (r : option R)
| AbsoluteVerticalTo (y : R) (r : option R)
| CompassTo (c : compass) (length : R) (r : option R)
| LineTo (point : vec) (r : option R) (absolute : bool)
| Close (r close_radius : option R)
| QuadraticTo (point1 point2 : vec) (absolute : bool)
| CubicTo (point1 point2 point3 : vec) (absolute : bool)
| StringedQuadraticTo (point : vec) (absolute : bool)
| StringedCubicTo (point1 point2 : vec) (absolute : bool)
| ArcTo (point : vec) (rx ry angle : R) (large_arc sweep absolute : bool).

(** 261-265: LinearSegment.close *)
Definition close_corner (r : option R) (c : corner) : corner :=
  let c := reset_cache c in
  Corner (to_radius r) true (closing c) (k_direction c) (k_bissector c) None None None None.

(** 1061-1071: close; the parts are changed before an exception *)
Definition close (p : path) (r close_radius : option R) : result path :=
  let cl := match close_radius with Some _ => true | None => false end in
  p <- add_part p (linear_part p (PLine (p0 p) true) r cl) ;;
  match close_radius with
  | Some _ =>
      match parts p with
      | Linear s c :: rest => Ok (Path (p0 p) (Linear s (close_corner close_radius c) :: rest) true)
      | _ :: _ => Raise AttributeError
      | [] => Raise IndexError
      end
  | None => Ok (Path (p0 p) (parts p) true)
  end.

Definition do_command (p : path) (c : command) : result path :=
  match c with
  | HorizontalTo l r true => add_part p (linear_part p (PLine (V l 0) true) r false)
  | HorizontalTo l r false => add_part p (linear_part p (PDir 0 l) r false)
  | VerticalTo l r true => add_part p (linear_part p (PLine (V 0 l) true) r false)
  | VerticalTo l r false => add_part p (linear_part p (PDir 90 l) r false)
  | AbsoluteHorizontalTo x r => add_part p (linear_part p (PAbsX x) r false)
  | AbsoluteVerticalTo y r => add_part p (linear_part p (PAbsY y) r false)
  | CompassTo c l r => add_part p (linear_part p (PDir (compass_angle c) l) r false)
  | LineTo q r absolute => add_part p (linear_part p (PLine q absolute) r false)
  | Close r cr => close p r cr
  | QuadraticTo a b absolute => add_part p (Ok (PQuad a b absolute))
  | CubicTo a b c absolute => add_part p (Ok (PCubic a b c absolute))
  | StringedQuadraticTo a absolute => Raise NameError
  | StringedCubicTo a b absolute => add_part p (Ok (PStringed absolute))
  | ArcTo q rx ry angle large sweep absolute => add_part p (Ok (PArc q rx ry angle large sweep absolute))
  end.
Fixpoint draw (p : path) (l : list command) : result path :=
  match l with
  | [] => Ok p
  | c :: l => p <- do_command p c ;; draw p l
  end.

(** 999-1000: move_to *)
Definition move_to (p : path) (q : vec) : path := Path q (parts p) (closed p).

(** 1102-1124: rounded_rectangle, circle *)
Definition rounded_rectangle (q : vec) (width height : R) (r : option R) : result path :=
  draw (new_path q) [HorizontalTo width None false; VerticalTo height r false;
                     HorizontalTo (- width) r false; Close r r].
Definition circle_path (q : vec) (r : R) : result path :=
  rounded_rectangle q (2 * r) (2 * r) (Some r).

(** ** Transformation, 956-980 *)

(** The first loop, on the part at an index: 477-492 and 616-630 to_path_segment (a new
    PathSegment, checked when it has a radius), 435-437, 687-690, 731-735, 848-850 to_absolute *)
Definition path_segment (p : path) (i : nat) (point : vec) (absolute : bool) (c : corner) : result part :=
  match i, radius c with
  | O, Some _ => Ok (Linear (PLine point absolute) (close_corner (radius c) (plain None false)))
  | O, None => Ok (Linear (PLine point absolute) (plain None false))
  | S j, Some r =>
      if is_linear (nth_error (parts p) j)
      then Ok (Linear (PLine point absolute) (plain (Some (Rabs r)) false)) else Raise ValueError
  | S j, None => Ok (Linear (PLine point absolute) (plain None false))
  end.
Definition absolute_part (p : path) (i : nat) : result part :=
  match nth_error (parts p) i with
  | Some (Linear (PLine q true) c) => Ok (Linear (PLine q true) (reset_cache c))
  | Some (Linear (PLine q false) c) =>
      s <- stop_point p i ;; Ok (Linear (PLine s true) (reset_cache c))
  | Some (Linear (PDir angle length) c) =>
      q <- path_segment p i (from_polar length angle) false c ;;
      let p := set_parts p (update i q (parts p)) in
      s <- stop_point p i ;;
      match q with Linear _ c => Ok (Linear (PLine s true) c) | _ => Ok q end
  | Some (Linear _ c) => s <- stop_point p i ;; path_segment p i s true c
  | Some (PQuad q1 q2 absolute) =>
      a <- to_absolute_point p i absolute q1 ;; b <- to_absolute_point p i absolute q2 ;;
      Ok (PQuad a b true)
  | Some (PCubic q1 q2 q3 absolute) =>
      a <- to_absolute_point p i absolute q1 ;; b <- to_absolute_point p i absolute q2 ;;
      c <- to_absolute_point p i absolute q3 ;; Ok (PCubic a b c true)
  | Some (PArc q rx ry angle large sweep absolute) =>
      a <- to_absolute_point p i absolute q ;; Ok (PArc a rx ry angle large sweep true)
  | Some (PStringed true) => Ok (PStringed true)
  | Some (PStringed false) => Raise AttributeError
  | None => Raise IndexError
  end.
Fixpoint absolute_parts (p : path) (l : list nat) : result path :=
  match l with
  | [] => Ok p
  | i :: l =>
      q <- absolute_part p i ;;
      absolute_parts (set_parts p (update i q (parts p))) l
  end.

(** 162-164, 192-195, 213-216, 441-444, 459-462: apply_transformation of a part *)
Definition set_radius (r : option R) (c : corner) : corner :=
  Corner r (start_bulge c) (closing c) (k_direction c) (k_bissector c) (k_angle c) (k_center c) (k_start c) (k_stop c).
Definition transform_part (t : transformation) (q : part) : result part :=
  match q with
  | Linear (PLine a absolute) c =>
      match radius c with
      | Some r => r <- scalar t r ;; Ok (Linear (PLine (apply t a) absolute) (set_radius (Some r) c))
      | None => Ok (Linear (PLine (apply t a) absolute) c)
      end
  | Linear _ c => Raise NotImplementedError
  | PQuad a b absolute => Ok (PQuad (apply t a) (apply t b) absolute)
  | PCubic a b c absolute => Ok (PCubic (apply t a) (apply t b) (apply t c) absolute)
  | PArc a rx ry angle large sweep absolute => Ok (PArc (apply t a) rx ry angle large sweep absolute)
  | PStringed _ => Raise AttributeError
  end.
Definition transform_path (t : transformation) (p : path) : result path :=
  p <- absolute_parts p (seq 0 (length (parts p))) ;;
  l <- traverse (transform_part t) (parts p) ;;
  Ok (Path (apply t (p0 p)) l (closed p)).

(** ** Cloning, 894-903 and the clone methods of the parts.  420-431: PathSegment.clone reads [obj]
    before its assignment; 727, 770, 797: [absolute] is not defined. *)
Definition clone_part (p : path) (q : part) : result part :=
  match q with
  | Linear (PLine _ _) _ => Raise UnboundLocalError
  | Linear s c => linear_part p s (radius c) false
  | PQuad a b absolute => Ok (PQuad a b absolute)
  | PCubic _ _ _ _ | PStringed _ => Raise NameError
  | PArc a rx ry angle large sweep absolute => Ok q
  end.
Definition clone_path (p : path) : result path :=
  fold_left (fun acc q => c <- acc ;; q <- clone_part c q ;; Ok (set_parts c (parts c ++ [q])))
    (parts p) (Ok (new_path (p0 p))).

(** Polyline.py 81-87: to_path; the points are given as offsets *)
Definition polyline_to_path (points : list vec) : result path :=
  match points with
  | [] => Raise IndexError
  | a :: points => draw (new_path a) (map (fun q => LineTo q None false) points)
  end.

(** Primitive.py 696-707: to_path of a polygon (closed) *)
Definition polygon_to_path (points : list vec) : result path :=
  match points with
  | [] => Raise IndexError
  | a :: points => draw (new_path a) (map (fun q => LineTo q None true) points ++ [Close None None])
  end.
