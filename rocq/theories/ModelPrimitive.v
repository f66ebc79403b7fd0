(** Model of the point primitives: Patro/GeometryEngine/Primitive.py, with the constructors of
    Segment.py, Rectangle.py, Triangle.py, Bezier.py, Spline.py, Polyline.py and Polygon.py.

    Python vectors are objects which can be changed in place (Vector.py 128-134, 186-188, 196-198,
    529-532, 542-545, 565-568): a store has one cell per vector, and a primitive holds addresses of
    cells.  Vector2D(value) (Vector.py 83-86) copies the coordinates into a fresh cell.  Regular
    polygons, knots of B-splines and the caches of polygons (C67) are not part of this model. *)
From Coq Require Import Reals List Arith Bool.
From Verif Require Import Base ModelVector ModelTransformation.
Import ListNotations.
Local Open Scope result_scope.

(** The concrete classes: Segment.py 39, Rectangle.py 39, Triangle.py 81, Bezier.py 206 and 414,
    Spline.py 48, 101 and 167, Polyline.py 37, Polygon.py 52. *)
Inductive pclass :=
| CSegment | CRectangle | CTriangle | CQuadraticBezier | CCubicBezier
| CQuadraticSpline | CCubicSpline | CBSpline (degree : nat) | CPolyline | CPolygon.

(** The number of arguments of the constructors of 2, 3 and 4 points primitives (Primitive.py 441,
    501, 554); None for n points. *)
Definition arity (c : pclass) : option nat :=
  match c with
  | CSegment | CRectangle => Some 2
  | CTriangle | CQuadraticBezier | CQuadraticSpline => Some 3
  | CCubicBezier | CCubicSpline => Some 4
  | CBSpline _ | CPolyline | CPolygon => None
  end.

(** A primitive: its class, its points, and Polyline.py 49: the cached edges of a polyline (segments
    hold copies of the points). *)
Record primitive := Prim { p_class : pclass; p_cells : list nat; p_edges : option (list (vec * vec)) }.

Record store := Store { cells : list vec; prims : list primitive }.

Definition empty : store := Store [] [].

Definition read (s : store) (a : nat) : vec := nth a (cells s) (V 0 0).
Definition reads (s : store) (l : list nat) : list vec := map (read s) l.

(** Fresh vectors. *)
Definition alloc (s : store) (l : list vec) : store * list nat :=
  (Store (cells s ++ l) (prims s), seq (length (cells s)) (length l)).

(** Primitive.py 403-404, 441-445, 501-505, 554-559, 614-619: the attributes of the new object are copies.
    Triangle.py 87-90, Polyline.py 43-49, Polygon.py 91-96: the checks.  The arguments are vectors
    of the store; a number of arguments which the constructor does not have is a TypeError. *)
Definition accepts (c : pclass) (l : list vec) : result unit :=
  match c with
  | CTriangle =>
      match l with
      | [a; b; d] => if is_parallel (vsub b a) (vsub d a) then Raise ValueError else Ok tt
      | _ => Raise TypeError
      end
  | CPolyline => if length l <? 2 then Raise ValueError else Ok tt
  | CPolygon => if length l <? 3 then Raise ValueError else Ok tt
  (* Spline.py 178-179 (the knots are the uniform ones) *)
  | CBSpline degree => if length l <? degree + 1 then Raise ValueError else Ok tt
  | _ => match arity c with
         | Some n => if length l =? n then Ok tt else Raise TypeError
         | None => Ok tt
         end
  end.

Definition construct (c : pclass) (args : list nat) (s : store) : result (store * nat) :=
  _ <- accepts c (reads s args) ;;
  let '(s', l) := alloc s (reads s args) in
  Ok (Store (cells s') (prims s' ++ [Prim c l None]), length (prims s)).

Definition get (s : store) (i : nat) : result primitive :=
  match nth_error (prims s) i with Some p => Ok p | None => Raise IndexError end.

(** Primitive.py 160-166: clone calls the class with the points as arguments.  For a B-spline
    (Spline.py 191) this gives the first point for the points: handle_points (607-610) iterates it,
    and its float coordinates are no points (Vector.py 100-101: ValueError); with one point the
    degree is missing, with more than four there are too many arguments (TypeError). *)
Definition clone (i : nat) (s : store) : result (store * nat) :=
  p <- get s i ;;
  match p_class p with
  | CBSpline _ => if (length (p_cells p) <? 2) || (4 <? length (p_cells p)) then Raise TypeError else Raise ValueError
  | c => construct c (p_cells p) s
  end.

(** A transformation: Transformation2D or AffineTransformation2D. *)
Inductive transf := Linear (t : transformation2) | Affine (t : transformation).
Definition on_point (t : transf) : vec -> vec :=
  match t with Linear t => apply2 t | Affine t => apply t end.
(** Transformation.py 131-133: is_identity *)
Definition is_identity (t : transf) : bool :=
  match t with
  | Linear t => tag_eqb (t2_type t) (Some TIdentity)
  | Affine t => tag_eqb (t_type t) (Some TIdentity)
  end.

(** 276-284 and _set_points 484, 543, 595, 652-654: the products are new vectors; the cached
    edges of a polyline are kept. *)
Definition apply_transformation (i : nat) (t : transf) (s : store) : result store :=
  p <- get s i ;;
  let '(s', l) := alloc s (map (on_point t) (reads s (p_cells p))) in
  Ok (Store (cells s') (update i (Prim (p_class p) l (p_edges p)) (prims s'))).

(** 263-272: transform *)
Definition transform (i : nat) (t : transf) (cloned : bool) (s : store) : result (store * nat) :=
  sj <- (if cloned then clone i s else Ok (s, i)) ;;
  let '(s, j) := sj in
  if is_identity t then Ok (s, j)
  else s <- apply_transformation j t s ;; Ok (s, j).

(** 288-306: mirror, x_mirror, y_mirror, rotate, scale *)
Definition with2 (t : result transformation2) (i : nat) (cloned : bool) (s : store) :=
  t <- t ;; transform i (Linear t) cloned s.
Definition mirror := with2 parity2.
Definition x_mirror := with2 xreflection2.
Definition y_mirror := with2 yreflection2.
Definition rotate (angle : R) := with2 (rotation2 angle).
Definition scale (x : R) (y : option R) := with2 (scale2 x y).

(** 244-245: reverse.  PointPrimitive comes before ReversiblePrimitiveMixin (374-375) in the method
    resolution order of every class. *)
Definition reverse (i : nat) (s : store) : result (store * nat) := p <- get s i ;; Ok (s, i).

(** 402-404, 458-460, 516-518, 570-572: the setters of p0, p1, p2, p3 *)
Definition set_point (i k : nat) (a : nat) (s : store) : result store :=
  p <- get s i ;;
  match arity (p_class p) with
  | Some n =>
      if k <? n then
        let '(s', l) := alloc s [read s a] in
        Ok (Store (cells s') (update i (Prim (p_class p) (update k (hd 0 l) (p_cells p)) (p_edges p)) (prims s')))
      else Raise AttributeError
  | None => Raise AttributeError
  end.

(** Polyline.py 54-66: edges and length *)
Definition consecutive (l : list vec) : list (vec * vec) := combine l (tl l).
Definition edges (i : nat) (s : store) : result (store * list (vec * vec)) :=
  p <- get s i ;;
  match p_edges p with
  | Some e => Ok (s, e)
  | None =>
      let e := consecutive (reads s (p_cells p)) in
      Ok (Store (cells s) (update i (Prim (p_class p) (p_cells p) (Some e)) (prims s)), e)
  end.
Definition polyline_length (i : nat) (s : store) : result (store * R) :=
  se <- edges i s ;;
  let '(s, e) := se in
  Ok (s, fold_right Rplus 0%R (map (fun e => magnitude (vsub (snd e) (fst e))) e)).

(** 219-225 and 663-666: is_point_equal, __eq__ *)
Fixpoint all_equal (a b : list vec) : bool :=
  match a, b with
  | [], [] => true
  | x :: a, y :: b => veqb x y && all_equal a b
  | _, _ => false
  end.
Definition equal (i j : nat) (s : store) : result bool :=
  p <- get s i ;; q <- get s j ;;
  Ok (all_equal (reads s (p_cells p)) (reads s (p_cells q))).

(** 670-678: iter_on_nuplets *)
Definition nuplets (i size : nat) (s : store) : result (list (list vec)) :=
  p <- get s i ;;
  match arity (p_class p) with
  | Some _ => Raise AttributeError
  | None =>
      let l := reads s (p_cells p) in
      if length l <? size then Raise ValueError
      else Ok (map (fun k => firstn size (skipn k l)) (seq 0 (length l - size + 1)))
  end.

(** What a caller can do: new vectors, changes in place of a vector (a point of a primitive is one
    of the vectors of the store), and the methods above.  A vector which does not exist cannot be
    named by a caller. *)
Inductive event :=
| ENewVector (v : vec)
| EChange (a : nat) (v : vec)
| EConstruct (c : pclass) (args : list nat)
| EClone (i : nat)
| ETransform (i : nat) (t : transf) (cloned : bool)
| ESetPoint (i k a : nat)
| ELength (i : nat)
| EReverse (i : nat).

Definition or_same {A} (s : store) (f : A -> store) (r : result A) : store :=
  match r with Ok a => f a | Raise _ => s end.

(** The store after an event; a method which raises leaves no visible trace. *)
Definition step (s : store) (e : event) : store :=
  match e with
  | ENewVector v => fst (alloc s [v])
  | EChange a v => Store (update a v (cells s)) (prims s)
  | EConstruct c args =>
      if forallb (fun a => a <? length (cells s)) args then or_same s fst (construct c args s) else s
  | EClone i => or_same s fst (clone i s)
  | ETransform i t cloned => or_same s fst (transform i t cloned s)
  | ESetPoint i k a => if a <? length (cells s) then or_same s (fun s => s) (set_point i k a s) else s
  | ELength i => or_same s fst (polyline_length i s)
  | EReverse i => or_same s fst (reverse i s)
  end.

Definition history (l : list event) : store := fold_left step l empty.
