(** Model of the drawing of geometric primitives in a scene: Patro/GraphicEngine/GraphicScene/Scene.py
    282-510 (add_geometry, add_spline, add_path) and of the geometry of the items, GraphicItem.py.

    An item is its class and its arguments (ModelPainter), the style is left out.  As in ModelScene, the
    syntax error of line 403 is taken as repaired. *)
From Coq Require Import String List Bool ZArith Reals.
From Verif Require Import Base ModelVector ModelTransformation ModelLine ModelBezier ModelConic ModelPath ModelSpline.
From Verif Require ModelScene.
From Verif Require Import ModelPainter.
Import ModelScene(position, PVector, PName, PNumber, coordinates, cast_position).
Import ListNotations.
Local Open Scope R_scope.
Local Open Scope result_scope.

(** The primitives which add_geometry tells apart; a polygon counts by its points *)
Inductive primitive :=
| Quadratic (c : quadratic) | Cubic (c : cubic) | Circle (c : circle) | Ellipse (e : ellipse) | Line (l : line)
| PathOf (p : path) | Polygon (l : list vec) | Polyline (l : list vec) | Rectangle (p q : vec) | Segment (s : segment)
| Spline (s : bspline) | Triangle (a b c : vec)
| Other.   (* a primitive of another class *)

(** The items added to the scene, with the exception which stopped the method: the items added before stay *)
Definition added : Type := list shape * option exn.

(** 370-374: add_spline; a quadratic curve has one point too few for a cubic item *)
Fixpoint add_curves (l : list curve) : added :=
  match l with
  | [] => ([], None)
  | CQuadratic _ :: _ => ([], Some TypeError)
  | CCubic c :: l =>
      let (m, e) := add_curves l in
      (SCubic (PVector (c0 c)) (PVector (c1 c)) (PVector (c2 c)) (PVector (c3p c)) :: m, e)
  end.
Definition add_spline (s : bspline) : added :=
  match to_bezier s with Ok l => add_curves l | Raise e => ([], Some e) end.

(** ** Paths *)
Local Open Scope reader_scope.

(** 445-454: add_bulge *)
Definition bulge_item (i : nat) : reader shape :=
  arc <~ bulge_geometry i ;;
  ret (match c_domain arc with
       | Some d => Ok (SCircle (PVector (c_center arc)) (c_radius arc) (d_start d) (d_stop d))
       | None => Raise AttributeError
       end).
(** 456-465: add_segment with Path.py 287-300 *)
Definition segment_item (i : nat) : reader shape :=
  ab <~ linear_points i ;; ret (Ok (SSegment (PVector (fst ab)) (PVector (snd ab)))).
(** 483-487: add_quadratic, add_cubic, with Path.py 699-701, 744-746: the points are those of the geometry *)
Definition curve_item (i : nat) : reader shape :=
  g <~ geometry i ;;
  ret (match g with
       | GQuad c => Ok (SQuadratic (PVector (q0 c)) (PVector (q1 c)) (PVector (q2 c)))
       | GCubic c => Ok (SCubic (PVector (c0 c)) (PVector (c1 c)) (PVector (c2 c)) (PVector (c3p c)))
       | _ => Raise TypeError
       end).
(** 467-481: add_ellipse; an arc with a null radius is a segment, without center *)
Definition arc_item (i : nat) : reader shape :=
  g <~ geometry i ;;
  ret (match g with
       | GArc (ArcEllipse e) =>
           match e_domain e with
           | Some d => Ok (SEllipse (PVector (e_center e)) (e_rx e) (e_ry e) (e_angle e) (d_start d) (d_stop d))
           | None => Raise AttributeError
           end
       | _ => Raise AttributeError
       end).
(** 489-510: the calls for a part, in order *)
Definition part_calls (i : nat) (q : ModelPath.part) : list (reader shape) :=
  match q with
  | Linear _ c => (match radius c with Some _ => [bulge_item i] | None => [] end) ++ [segment_item i]
  | PQuad _ _ _ | PCubic _ _ _ _ => [curve_item i]
  | PArc _ _ _ _ _ _ _ => [arc_item i]
  | PStringed _ => []
  end.
Fixpoint all_calls (i : nat) (l : list ModelPath.part) : list (reader shape) :=
  match l with [] => [] | q :: l => part_calls i q ++ all_calls (S i) l end.
(** The items, the exception, and the path whose caches are filled *)
Fixpoint run_calls (l : list (reader shape)) (p : path) : added * path :=
  match l with
  | [] => ([], None, p)
  | f :: l =>
      match f p with
      | (Ok s, p) => let '(m, e, p) := run_calls l p in (s :: m, e, p)
      | (Raise e, p) => ([], Some e, p)
      end
  end.
(** 429-510: add_as_path_segments *)
Definition add_as_path_segments (p : path) : added * path := run_calls (all_calls 0 (parts p)) p.

Local Open Scope result_scope.
(** 392-425: add_as_path; GraphicItem.py 446-462.  The item is in the scene before its parts are added. *)
Fixpoint path_parts (p : path) (i : nat) (l : list ModelPath.part) : list ModelPainter.part * option exn :=
  match l with
  | [] => ([], None)
  | q :: l' =>
      let r :=
        match q with
        | Linear _ _ => v <- stop_point p i ;; Ok (Some (LinearPart (PVector v)))
        | PQuad a b f =>
            a <- to_absolute_point p i f a ;; b <- to_absolute_point p i f b ;;
            Ok (Some (QuadraticPart (PVector a) (PVector b)))
        | PCubic a b c f =>
            a <- to_absolute_point p i f a ;; b <- to_absolute_point p i f b ;; c <- to_absolute_point p i f c ;;
            Ok (Some (CubicPart (PVector a) (PVector b) (PVector c)))
        | PArc _ _ _ _ _ _ _ | PStringed _ => Ok None
        end in
      match r with
      | Raise e => ([], Some e)
      | Ok o => let (m, e) := path_parts p (S i) l' in (match o with Some x => x :: m | None => m end, e)
      end
  end.
Definition add_as_path (p : path) : added :=
  let (m, e) := path_parts p 0 (parts p) in
  ([SPath (PVector (p0 p)) m (match e with None => closed p | Some _ => false end)], e).

(** ** 282-359: add_geometry.  The items have the primitive as user data. *)
Definition one (s : shape) : added := ([s], None).
Definition add_geometry (g : primitive) : added :=
  match g with
  | Quadratic c => one (SQuadratic (PVector (q0 c)) (PVector (q1 c)) (PVector (q2 c)))
  | Cubic c => one (SCubic (PVector (c0 c)) (PVector (c1 c)) (PVector (c2 c)) (PVector (c3p c)))
  | Circle c =>
      one match c_domain c with
          | Some d => SCircle (PVector (c_center c)) (c_radius c) (d_start d) (d_stop d)
          | None => SCircle (PVector (c_center c)) (c_radius c) 0 360
          end
  | Ellipse e => one (SEllipse (PVector (e_center e)) (e_rx e) (e_ry e) (e_angle e) 0 360)
  | Line _ => ([], Some NotImplementedError)
  | PathOf p => fst (add_as_path_segments p)
  | Polygon l => one (SPolygon (map PVector l))
  | Polyline l => one (SPolyline (map PVector l))
  | Rectangle p q => one (SRectangle (PVector p) (PVector q))
  | Segment s => one (SSegment (PVector (s_p0 s)) (PVector (s_p1 s)))
  | Spline s => add_spline s
  | Triangle a b c => one (SPolygon (map PVector [a; b; c]))
  | Other => ([], Some NotImplementedError)
  end.

(** ** The geometry of an item, GraphicItem.py 104-108, 147-151, 201-203, 223-225, 246-248, 267-269, 277-279,
    311-313, 349-351, 386-388, 435-437; the constructors as in ModelLine and ModelPolygon: a polyline of less than
    two points, a polygon of less than three are refused (Polyline.py 43-49, Polygon.py 91-109) *)
Definition get_geometry (t : transformation) (c : coordinates) (sh : shape) : result primitive :=
  let cast := cast_position t c in
  match sh with
  | SText p _ => v <- cast p ;; Ok (Rectangle v v)
  | SCircle p r a b => v <- cast p ;; Ok (Circle (Circ v r (Some (Dom a b))))
  | SEllipse p rx ry angle _ _ => v <- cast p ;; Ok (Ellipse (Ell v rx ry angle None))
  | SSegment p q => v <- cast p ;; w <- cast q ;; Ok (Segment (Seg v w))
  | SRectangle p q | SImage p q => v <- cast p ;; w <- cast q ;; Ok (Rectangle v w)
  | SPolyline l => m <- traverse cast l ;; if Nat.ltb (length m) 2 then Raise ValueError else Ok (Polyline m)
  | SPolygon l => m <- traverse cast l ;; if Nat.ltb (length m) 3 then Raise ValueError else Ok (Polygon m)
  | SCubic p q r s => a <- cast p ;; b <- cast q ;; c <- cast r ;; d <- cast s ;; Ok (Cubic (Cub a b c d))
  | SQuadratic p q r => a <- cast p ;; b <- cast q ;; c <- cast r ;; Ok (Quadratic (ModelBezier.Quad a b c))
  | SPath p _ _ => v <- cast p ;; Ok (PathOf (new_path v))
  end.
