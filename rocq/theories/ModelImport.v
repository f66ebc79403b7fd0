(** Model of Patro/FileFormat/Dxf/Importer.py: the entities of the model space of a DXF file and the items made
    of them, over the real numbers.  The file is read by the library ezdxf, which is not modelled: an entity is its
    type and the attributes which the importer reads. *)
From Coq Require Import Reals List Bool String.
From Verif Require Import Base ModelVector ModelLine ModelConic ModelSpline ModelDxf.
Import ListNotations.
Local Open Scope R_scope.
Local Open Scope result_scope.

(** A point of a DXF file *)
Record point3 := P3 { px : R; py : R; pz : R }.

(** The entities; a vertex of a polyline has two coordinates, two widths and a bulge.  The knots and the
    weights of a spline are in the file, the importer does not read them. *)
Inductive entity :=
| DLine (start stop : point3)
| DCircle (center : point3) (radius : R)
| DArc (center : point3) (radius start_angle end_angle : R)
| DEllipse (center major_axis : point3) (ratio start_param end_param : R)
| DPolyline (closed : bool) (points : list (R * R * R * R * R))
| DSpline (degree : nat) (closed : bool) (control_points : list point3) (knots weights : list R)
| DOther (type : string).
Definition dxftype (e : entity) : string :=
  match e with
  | DLine _ _ => "LINE" | DCircle _ _ => "CIRCLE" | DArc _ _ _ _ => "ARC" | DEllipse _ _ _ _ _ => "ELLIPSE"
  | DPolyline _ _ => "LWPOLYLINE" | DSpline _ _ _ _ _ => "SPLINE" | DOther type => type
  end%string.

(** The items of the importer; 153-154: the geometry of a polyline is a list, added as one item *)
Inductive imported :=
| OneSegment (s : segment) | OneCircle (c : circle) | OneEllipse (e : ellipse) | OneSpline (s : bspline)
| OneList (l : list dxf_item).

(** 70-76: _to_vector, _to_vectors *)
Definition to_vector (p : point3) : vec := V (px p) (py p).

(** 103-106: _on_line *)
Definition on_line (e : entity) : result imported :=
  match e with
  | DLine a b => Ok (OneSegment (Seg (to_vector a) (to_vector b)))
  | _ => Raise AttributeError
  end.
(** 111-120: _on_circle *)
Definition on_circle (e : entity) (is_arc : bool) : result imported :=
  match e with
  | DCircle c r | DArc c r _ _ =>
      let dom := match e with DArc _ _ s t => if is_arc then Some (Dom s t) else None | _ => None end in
      c <- new_circle (to_vector c) r dom false None ;; Ok (OneCircle c)
  | _ => Raise AttributeError
  end.
(** 124-143: _on_ellipse *)
Definition on_ellipse (e : entity) : result imported :=
  match e with
  | DEllipse c m ratio s t => e <- on_ellipse_item (to_vector c) (to_vector m) ratio s t ;; Ok (OneEllipse e)
  | _ => Raise AttributeError
  end.
(** 147-154: _on_polyline *)
Definition on_polyline (e : entity) : result imported :=
  match e with
  | DPolyline closed points =>
      let p := fold_left (fun p q => let '(x, y, _, _, b) := q in add_vertex p (V x y) b) points (Polyline closed []) in
      g <- geometry p ;; Ok (OneList g)
  | _ => Raise AttributeError
  end.
(** 157-163: _on_spline *)
Definition on_spline (e : entity) : result imported :=
  match e with
  | DSpline degree closed points _ _ => s <- new_bspline (map to_vector points) degree closed None ;; Ok (OneSpline s)
  | _ => Raise AttributeError
  end.

(** 85-99: the body of the loop of _read: None when the entity is skipped *)
Definition read_entity (e : entity) : result (option imported) :=
  let t := dxftype e in
  let keep r := x <- r ;; Ok (Some x) in
  (if t =? "LINE" then keep (on_line e)
   else if (t =? "CIRCLE") || (t =? "ARC") then keep (on_circle e (t =? "ARC"))
   else if t =? "ELLIPSE" then keep (on_ellipse e)
   else if t =? "LWPOLYLINE" then keep (on_polyline e)
   else if t =? "SPLINE" then keep (on_spline e)
   else Ok None)%string.
(** 85-99: _read *)
Fixpoint read_entities (l : list entity) (items : list imported) : result (list imported) :=
  match l with
  | [] => Ok items
  | e :: l => i <- read_entity e ;; read_entities l (match i with Some i => items ++ [i] | None => items end)
  end.
(** 49-55: the importer *)
Definition dxf_import (l : list entity) : result (list imported) := read_entities l [].
