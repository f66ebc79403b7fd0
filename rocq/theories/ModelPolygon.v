(** Model of Patro/GeometryEngine/Polygon.py over the real numbers: Polygon2D with its caches,
    RegularPolygon and the convex hull.  [sum] and [np.sum] are exact. *)
From Coq Require Import Reals List ZArith Bool.
From Verif Require Import Base ModelIter ModelVector ModelTransformation ModelLine.
Import ListNotations.
Local Open Scope R_scope.
Local Open Scope result_scope.

Definition sum_list (l : list R) : R := fold_left Rplus l 0.

(** ** Polygon2D: computations on the points *)

(** 129-134: the edges; Primitive.py 333-336, closed_pairwise_points *)
Definition polygon_edges (points : list vec) : result (list segment) :=
  map_result (map (fun pair => Seg (fst pair) (snd pair))) (closed_pairwise points).

(** 150-164: the body of the double loop of _test_is_simple; [false] means [return False]. *)
Definition simple_pair (edge1 edge2 : segment) : result bool :=
  r <- segment_intersection edge1 edge2 ;;
  match r with
  | Some (intersection, true) =>
      match share_vertex_with edge1 edge2 with
      | Some common_vertex => Ok (veqb common_vertex intersection)
      | None => Ok false
      end
  | _ => Ok true
  end.

(** A loop left by [return False]. *)
Fixpoint forall_loop {A} (f : A -> result bool) (l : list A) : result bool :=
  match l with
  | [] => Ok true
  | x :: l => b <- f x ;; if b then forall_loop f l else Ok false
  end.

Definition enumerate {A} (l : list A) : list (nat * A) := combine (seq 0 (length l)) l.

(** 143-165: _test_is_simple; [edge1 is not edge2] compares the objects, here the indices. *)
Definition test_is_simple (edges : list segment) : result bool :=
  forall_loop (fun e1 =>
    forall_loop (fun e2 =>
      if Nat.eqb (fst e1) (fst e2) then Ok true else simple_pair (snd e1) (snd e2))
      (enumerate edges)) (enumerate edges).

(** Segment.py 88-90: cross *)
Definition edges_cross (e1 e2 : segment) : R := cross (s_vector e1) (s_vector e2).

(** 174-187: _test_is_convex of a simple polygon; [edges[-1]] of a non-empty list. *)
Definition test_is_convex (edges : list segment) : result bool :=
  let n := length edges in
  e0 <- py_index edges 0 ;;
  el <- py_index edges (n - 1) ;;
  let sign0 := sign (edges_cross el e0) in
  forall_loop (fun i =>
      k <- py_mod (i + 1) n ;;
      a <- py_index edges i ;;
      b <- py_index edges k ;;
      Ok (Reqb (sign (edges_cross a b)) sign0)) (seq 0 n).

(** 221-222: perimeter *)
Definition edges_perimeter (edges : list segment) : R := sum_list (map s_length edges).

(** 227-231: point_barycenter *)
Definition point_barycenter (points : list vec) : result vec :=
  start <- py_index points 0 ;;
  vdiv (fold_left vadd (skipn 1 points) start) (INR (length points)).

(** 246-254: the columns of closed_point_array without the last and without the first. *)
Definition closed_columns (points : list vec) : result (list (vec * vec)) :=
  ps <- closed_iterator points ;;
  Ok (combine (removelast ps) (skipn 1 ps)).

(** 257: cross *)
Definition column_cross (e : vec * vec) : R := vx (fst e) * vy (snd e) - vx (snd e) * vy (fst e).

(** 260-275: area, and the attributes _area, _area_sign (not set when the area is null) and
    _barycenter *)
Record measures := Measures { m_area : R; m_sign : option R; m_barycenter : vec }.
Definition compute_area_barycenter (points : list vec) : result measures :=
  columns <- closed_columns points ;;
  let cr := map column_cross columns in
  let area := / 2 * sum_list cr in
  if Reqb area 0 then
    start <- py_index points 0 ;; Ok (Measures 0 None start)
  else
    let factor := 1 / (6 * area) in
    let x := factor * sum_list (map (fun e => (vx (fst e) + vx (snd e)) * column_cross e) columns) in
    let y := factor * sum_list (map (fun e => (vy (fst e) + vy (snd e)) * column_cross e) columns) in
    Ok (Measures (Rabs area) (Some (sign area)) (V x y)).

(** 279-359: _compute_inertia_moment; the attributes _major_axis_angle, _major_axis, _minor_axis
    and _axis_ratio.  np.float64 divisions; the sums are over the points. *)
Record inertia := Inertia { i_angle : R; i_major : R; i_minor : R; i_ratio : R }.
Definition compute_inertia (points : list vec) : inertia :=
  let n := INR (length points) in
  let Ix := sum_list (map (fun p => vy p ^ 2) points) / n in
  let Iy := sum_list (map (fun p => vx p ^ 2) points) / n in
  let Ixy := - sum_list (map (fun p => vx p * vy p) points) / n in
  let '(angle, lambda1, lambda2) :=
    if Reqb Ixy 0 then
      if Rleb Ix Iy then (0, Iy, Ix) else (90, Ix, Iy)
    else
      let Is := Iy + Ix in
      let Id := Ix - Iy in
      let sqrt0 := sqrt (Id * Id + 4 * Ixy * Ixy) in
      let lambda1 := (Is + sqrt0) / 2 in
      let lambda2 := (Is - sqrt0) / 2 in
      let v1y := (Id + sqrt0) / 2 in
      let v2y := (Id - sqrt0) / 2 in
      if Rltb lambda1 lambda2 then (- degrees (atan (v2y / Ixy)), lambda2, lambda1)
      else (- degrees (atan (v1y / Ixy)), lambda1, lambda2) in
  let major := 4 * sqrt (Rabs lambda1) in
  let minor := 4 * sqrt (Rabs lambda2) in
  Inertia angle major minor (if Reqb minor 0 then 0 else major / minor).

(** 467-487: _winding_number_test, and 491-498: is_point_inside.  Segment2D has no method is_left nor
    is_right. *)
Definition polygon_is_point_inside (edges : list segment) (point : vec) : result bool :=
  let y := vy point in
  _ <- traverse (fun edge =>
         if Rleb (vy (s_p0 edge)) y then
           if Rltb y (vy (s_p1 edge)) then Raise AttributeError else Ok tt
         else
           if Rleb (vy (s_p1 edge)) y then Raise AttributeError else Ok tt) edges ;;
  Ok (Z.ltb 0 0).

(** 444-463: _crossing_number_test.  Vector2D has no attribute slope. *)
Definition crossing_number_test (edges : list segment) (point : vec) : result bool :=
  let y := vy point in
  _ <- traverse (fun edge =>
         let y0 := vy (s_p0 edge) in let y1 := vy (s_p1 edge) in
         if orb (andb (Rleb y0 y) (Rltb y y1)) (andb (Rleb y1 y) (Rltb y y0))
         then Raise AttributeError else Ok tt) edges ;;
  Ok false.

(** ** Polygon2D: the object and its caches *)

(** 88-109: the attributes *)
Record polygon := Poly {
  p_points : list vec; c_edges : option (list segment); c_simple : option bool;
  c_convex : option bool; c_measures : option measures; c_clockwise : option bool;
  c_inertia : option inertia }.

Definition new_polygon (points : list vec) : result polygon :=
  if Nat.ltb (length points) 3 then Raise ValueError
  else Ok (Poly points None None None None None None).

(** A method call: its result or exception, and the object after it. *)
Definition method A := polygon -> result A * polygon.
Definition ret {A} (a : A) : method A := fun p => (Ok a, p).
Definition lift {A} (r : result A) : method A := fun p => (r, p).
Definition then_ {A B} (m : method A) (k : A -> method B) : method B := fun p =>
  match m p with
  | (Ok a, p) => k a p
  | (Raise e, p) => (Raise e, p)
  end.
Definition self : method polygon := fun p => (Ok p, p).
Definition set_edges v : method unit := fun p =>
  (Ok tt, Poly (p_points p) (Some v) (c_simple p) (c_convex p) (c_measures p) (c_clockwise p) (c_inertia p)).
Definition set_simple v : method unit := fun p =>
  (Ok tt, Poly (p_points p) (c_edges p) (Some v) (c_convex p) (c_measures p) (c_clockwise p) (c_inertia p)).
Definition set_convex v : method unit := fun p =>
  (Ok tt, Poly (p_points p) (c_edges p) (c_simple p) (Some v) (c_measures p) (c_clockwise p) (c_inertia p)).
Definition set_measures v : method unit := fun p =>
  (Ok tt, Poly (p_points p) (c_edges p) (c_simple p) (c_convex p) (Some v) (c_clockwise p) (c_inertia p)).
Definition set_clockwise v : method unit := fun p =>
  (Ok tt, Poly (p_points p) (c_edges p) (c_simple p) (c_convex p) (c_measures p) (Some v) (c_inertia p)).
Definition set_inertia v : method unit := fun p =>
  (Ok tt, Poly (p_points p) (c_edges p) (c_simple p) (c_convex p) (c_measures p) (c_clockwise p) (Some v)).

Local Notation "x <~ m ; k" := (then_ m (fun x => k))
  (at level 100, m at next level, right associativity).

(** 129-134: edges *)
Definition get_edges : method (list segment) :=
  p <~ self ;
  match c_edges p with
  | Some e => ret e
  | None => e <~ lift (polygon_edges (p_points p)) ; _ <~ set_edges e ; ret e
  end.

(** 191-196: is_simple *)
Definition get_is_simple : method bool :=
  p <~ self ;
  match c_simple p with
  | Some b => ret b
  | None => edges <~ get_edges ; b <~ lift (test_is_simple edges) ; _ <~ set_simple b ; ret b
  end.

(** 200-204 and 174-175: is_convex *)
Definition get_is_convex : method bool :=
  p <~ self ;
  match c_convex p with
  | Some b => ret b
  | None =>
      simple <~ get_is_simple ;
      b <~ (if (simple : bool) then edges <~ get_edges ; lift (test_is_convex edges) else ret false) ;
      _ <~ set_convex b ; ret b
  end.

(** 363-365: _check_area; _compute_area_barycenter tests is_simple again, which is cached then. *)
Definition check_area : method unit :=
  simple <~ get_is_simple ;
  p <~ self ;
  match (simple : bool), c_measures p with
  | true, None => m <~ lift (compute_area_barycenter (p_points p)) ; set_measures m
  | _, _ => ret tt
  end.

(** 369-373: area; [None] for a polygon that is not simple *)
Definition get_area : method (option R) :=
  _ <~ check_area ; p <~ self ;
  ret (match c_measures p with Some m => Some (m_area m) | None => None end).

(** 394-398: barycenter; the attribute is missing on a polygon that is not simple *)
Definition get_barycenter : method vec :=
  _ <~ check_area ; p <~ self ;
  match c_measures p with
  | Some m => ret (m_barycenter m)
  | None => lift (Raise AttributeError)
  end.

(** 377-389: is_clockwise *)
Definition get_is_clockwise : method (option bool) :=
  simple <~ get_is_simple ;
  if negb simple then ret None
  else
    p <~ self ;
    match c_clockwise p with
    | Some b => ret (Some b)
    | None =>
        _ <~ check_area ; p <~ self ;
        match c_measures p with
        | Some (Measures _ (Some s) _) => _ <~ set_clockwise (Rltb s 0) ; ret (Some (Rltb s 0))
        | _ => lift (Raise AttributeError)
        end
    end.

(** 415-438: _check_moment, major_axis_angle, major_axis, minor_axis, axis_ratio.  [_major_axis] is
    [None] and the other attributes are missing on a polygon that is not simple; the four properties
    are read together here. *)
Definition get_inertia : method inertia :=
  simple <~ get_is_simple ;
  p <~ self ;
  match c_inertia p with
  | Some i => ret i
  | None =>
      if (simple : bool) then
        _ <~ set_inertia (compute_inertia (p_points p)) ; ret (compute_inertia (p_points p))
      else lift (Raise AttributeError)
  end.

(** 220-222: perimeter *)
Definition get_perimeter : method R := edges <~ get_edges ; ret (edges_perimeter edges).

(** 491-498: is_point_inside *)
Definition get_is_point_inside (point : vec) : method bool :=
  edges <~ get_edges ; lift (polygon_is_point_inside edges point).

(** 402-409: recenter; [point -= barycenter] changes the points in place.  The barycenter of a polygon
    of null area (265) is the first point itself, which the first round of the loop makes null. *)
Definition recenter : method unit :=
  p <~ self ;
  match c_measures p with
  | Some m => fun p =>
      let '(points, m) :=
        match m_sign m, p_points p with
        | None, start :: points =>
            let zero := vsub start start in
            (zero :: map (fun q => vsub q zero) points, Measures (m_area m) None zero)
        | _, points => (map (fun q => vsub q (m_barycenter m)) points, m)
        end in
      (Ok tt, Poly points (c_edges p) (c_simple p) (c_convex p) (Some m) (c_clockwise p) (c_inertia p))
  | None => lift (Raise AttributeError)
  end.

(** Primitive.py 276-284 and 652-654: apply_transformation, _set_points: the caches stay. *)
Definition transform_points (f : vec -> vec) (p : polygon) : polygon :=
  Poly (map f (p_points p)) (c_edges p) (c_simple p) (c_convex p) (c_measures p) (c_clockwise p)
       (c_inertia p).

(** The queries on a polygon and their answers. *)
Inductive query := AskSimple | AskConvex | AskArea | AskBarycenter | AskClockwise | AskAxes
  | AskPerimeter | AskInside (point : vec).
Inductive answer := ABool (b : bool) | AReal (x : option R) | APoint (p : vec)
  | AClockwise (b : option bool) | AAxes (i : inertia) | ALength (x : R).
Definition ask (q : query) : method answer :=
  match q with
  | AskSimple => b <~ get_is_simple ; ret (ABool b)
  | AskConvex => b <~ get_is_convex ; ret (ABool b)
  | AskArea => x <~ get_area ; ret (AReal x)
  | AskBarycenter => x <~ get_barycenter ; ret (APoint x)
  | AskClockwise => x <~ get_is_clockwise ; ret (AClockwise x)
  | AskAxes => x <~ get_inertia ; ret (AAxes x)
  | AskPerimeter => x <~ get_perimeter ; ret (ALength x)
  | AskInside point => b <~ get_is_point_inside point ; ret (ABool b)
  end.

(** The object after a list of queries, whether they raise or not. *)
Definition after (qs : list query) (p : polygon) : polygon :=
  fold_left (fun p q => snd (ask q p)) qs p.

(** ** simplify *)

(** 514-521: the loop that skips the removed points, from [k]; at most [fuel] steps. *)
Fixpoint skip_removed (fuel : nat) (remove : list nat) (number_of_points k : nat) : nat :=
  match fuel with
  | O => k
  | S fuel =>
      if existsb (Nat.eqb k) remove then
        if Nat.eqb (k + 1) number_of_points then (k + 1)%nat
        else skip_removed fuel remove number_of_points (k + 1)
      else k
  end.

(** 511-527: test_edge_pair *)
Definition test_edge_pair (points : list vec) (threshold : R) (remove : list nat) (i j : nat)
    : result bool :=
  let n := length points in
  k <- py_mod (j + 1) n ;;
  let k := if Nat.eqb i (n - 1) then skip_removed n remove n k else k in
  p1 <- py_index points i ;;
  p2 <- py_index points j ;;
  p3 <- py_index points k ;;
  deviation <- deviation_with (vsub p2 p1) (vsub p3 p1) ;;
  Ok (Rleb (Rabs deviation) threshold).

(** 529-541: the loop.  [fuel] bounds the number of rounds. *)
Fixpoint simplify_loop (fuel : nat) (points : list vec) (threshold : R) (remove : list nat)
    (i j : nat) : result (list nat) :=
  let n := length points in
  match fuel with
  | O => Raise OutOfFuel
  | S fuel =>
      if Nat.ltb i n then
        b <- test_edge_pair points threshold remove i j ;;
        if (b : bool) then
          let remove := remove ++ [j] in
          if Nat.ltb j i then Ok remove
          else k <- py_mod (j + 1) n ;; simplify_loop fuel points threshold remove i k
        else if Nat.ltb j i then Ok remove
        else k <- py_mod (j + 1) n ;; simplify_loop fuel points threshold remove j k
      else Ok remove
  end.

(** 502-549: simplify.  [None] for the degenerate case.  The result is a list of points: a new
    polygon, or self when nothing is removed. *)
Definition simplify (points : list vec) (threshold : R) : result (option (list vec)) :=
  let n := length points in
  match simplify_loop (2 * n + 1) points threshold [] 0 1 with
  | Raise ZeroDivisionError => Ok None
  | Raise e => Raise e
  | Ok [] => Ok (Some points)
  | Ok remove =>
      let kept := map snd (filter (fun ip => negb (existsb (Nat.eqb (fst ip)) remove))
                                  (enumerate points)) in
      if Nat.ltb (length kept) 3 then Raise ValueError else Ok (Some kept)
  end.

(** ** RegularPolygon *)

(** 603-622: the points *)
Definition regular_points (center : vec) (radius : R) (number_of_edges : nat) (angle : R)
    : result (list vec) :=
  if Nat.ltb number_of_edges 3 then Raise ValueError
  else
    let edge_angle := 360 / INR number_of_edges in
    Ok (map (fun i => vadd center (from_polar radius (angle + INR i * edge_angle)))
            (seq 0 number_of_edges)).

(** 644-651: ngon_name and str_name use [self], not defined in a class method. *)
Definition ngon_name (number_of_edges : nat) : result unit := Raise NameError.

(** ** Convex hull *)

(** python's stable sort, by insertion: [le a b] tells that [a] may stay before [b]. *)
Fixpoint insert_sorted {A} (le : A -> A -> bool) (x : A) (l : list A) : list A :=
  match l with
  | [] => [x]
  | y :: l => if le x y then x :: y :: l else y :: insert_sorted le x l
  end.
Definition stable_sort {A} (le : A -> A -> bool) (l : list A) : list A :=
  fold_right (insert_sorted le) [] l.

(** 679-680: sort_by_y p0 p1 <= 0 *)
Definition y_le (p0 p1 : vec) : bool :=
  if Reqb (vy p0) (vy p1) then Rleb (vx p0 - vx p1) 0 else Rleb (vy p0 - vy p1) 0.

(** 694-699: data; the tuples (point, orientation) *)
Definition graham_data (p0 : vec) (points : list vec) : result (list (vec * R)) :=
  traverse (fun point => o <- orientation (vsub point p0) ;; Ok (point, o)) points.

(** 702-720: two consecutive items with the same angle are an assignment to a tuple. *)
Fixpoint same_angle (data : list (vec * R)) : bool :=
  match data with
  | a :: ((b :: _) as rest) => orb (Reqb (snd a) (snd b)) (same_angle rest)
  | _ => false
  end.

(** 663-723: sort_point_for_graham_scan *)
Definition sort_point_for_graham_scan (points : list vec) : result (list vec) :=
  match stable_sort y_le points with
  | [] => Raise IndexError
  | p0 :: others =>
      data <- graham_data p0 others ;;
      let data := stable_sort (fun a b => Rleb (snd a) (snd b)) data in
      if same_angle data then Raise TypeError
      else Ok (p0 :: map fst data)
  end.

(** 727-743: ccw, is_three_point_cw *)
Definition ccw (p1 p2 p3 : vec) : R :=
  (vx p2 - vx p1) * (vy p3 - vy p1) - (vy p2 - vy p1) * (vx p3 - vx p1).

(** 766-767: the inner loop; the stack is kept with its top first. *)
Fixpoint graham_pop (stack : list vec) (point : vec) : list vec :=
  match stack with
  | top :: ((below :: _) as rest) =>
      if Rltb (ccw below top point) 0 then graham_pop rest point else stack
  | _ => stack
  end.

(** 747-775: convex_hull, the list of points *)
Definition convex_hull (points : list vec) : result (list vec) :=
  sorted_points <- sort_point_for_graham_scan points ;;
  Ok (rev (fold_left (fun stack point => point :: graham_pop stack point) sorted_points [])).
