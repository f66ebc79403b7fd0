(** Model of the bounding boxes of paths: Patro/GeometryEngine/Path.py 136-138 (PathPart.bounding_box) and 984-995
    (Path2D.bounding_box). *)
From Coq Require Import Reals List.
From Verif Require Import Base ModelVector ModelLine ModelBezier ModelConic ModelPath.
Import ListNotations.
Local Open Scope reader_scope.

(** The box of a geometry: Primitive.py 249-259 (box of the points of the primitive, of the control points for a curve), Conic.py 573-595 *)
Definition piece_box (g : piece) : option box :=
  match g with
  | GSegment s => bounding_box_from_points [s_p0 s; s_p1 s]
  | GQuad c => bounding_box_from_points [q0 c; q1 c; q2 c]
  | GCubic c => bounding_box_from_points [c0 c; c1 c; c2 c; c3p c]
  | GArc (ArcSeg s) => bounding_box_from_points [s_p0 s; s_p1 s]
  | GArc (ArcEllipse e) => ellipse_bounding_box e
  end.

(** 136-138: PathPart.bounding_box *)
Definition part_bounding_box (i : nat) : reader (option box) := g <~ geometry i ;; ret (Ok (piece_box g)).

(** 988-995: the loop of Path2D.bounding_box, over the parts which remain *)
Fixpoint boxes_loop (l : list nat) (acc : option box) : reader (option box) :=
  match l with
  | [] => ret (Ok acc)
  | i :: l =>
      interval <~ part_bounding_box i ;;
      boxes_loop l (match acc with
                    | None => interval
                    | Some b => match interval with Some b' => Some (bunion b b') | None => Some b end
                    end)
  end.
Definition path_bounding_box : reader (option box) := p <~ here ;; boxes_loop (seq 0 (length (parts p))) None.
