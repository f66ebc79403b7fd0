(** Model of the drawing of a sketch: Patro/Pattern/Sketch.py 137-246 (bounding_box, detail_scene), of
    SketchStyle.py and of the geometry of the operations, SketchOperation.py 400-401, 720-721, 794-799.

    The sketch is that of ModelSketch.  The label offset, the line style and the line colour of the operations, which play no
    part in the evaluation and can be changed at any time, are given by a table. *)
From Coq Require Import String Reals List ZArith Bool.
From Verif Require Import Base ModelVector ModelLine ModelSketch.
From Verif Require ModelFormula ModelMeasure ModelScene ModelPainter ModelStyle ModelColor.
Import ModelFormula(text, lit).
Import ModelScene(position, PVector, PName, PNumber, coordinates).
Import ModelPainter(shape, SText, SCircle, SSegment, SCubic).
Import ModelStyle(value, PNone, PStroke, PArg, path_style, new_style, SolidLine).
Import ListNotations.
Local Open Scope R_scope.
Local Open Scope result_scope.

(** ** The geometry of an operation, as the list of its points *)

(** The vector of a point; what is not a point has no such attribute *)
Definition point_of (s : sketch) (o : op) (k : nat) : result (option vec) :=
  match nth_error (o_refs o) k with
  | None => Raise AttributeError
  | Some j => match nth_error (ops s) j with
              | Some q => if is_point (o_kind q) then Ok (o_vector q) else Raise AttributeError
              | None => Raise AttributeError
              end
  end.
Definition some_vector (v : option vec) : result vec := match v with Some v => Ok v | None => Raise ValueError end.
(** 208-210, 400-401, 720-721, 794-799; [None.clone] is an AttributeError, a primitive refuses None *)
Definition operation_points (s : sketch) (o : op) : result (list vec) :=
  match o_kind o with
  | KOperation => Raise NotImplementedError
  | KLine =>
      a <- point_of s o 0 ;; b <- point_of s o 1 ;; a <- some_vector a ;; b <- some_vector b ;; Ok [a; b]
  | KSpline =>
      match o_controls o with
      | None => Raise NameError
      | Some (p, q) =>
          a <- point_of s o 0 ;; b <- point_of s o 1 ;; a <- some_vector a ;; b <- some_vector b ;; Ok [a; p; q; b]
      end
  | _ => match o_vector o with Some v => Ok [v] | None => Raise AttributeError end
  end.

(** 137-151: bounding_box; the box of a primitive is the box of its points (Primitive.py 249-259) *)
Fixpoint box_loop (s : sketch) (l : list op) (acc : option box) : result (option box) :=
  match l with
  | [] => Ok acc
  | o :: l =>
      points <- operation_points s o ;;
      match bounding_box_from_points points with
      | Some b => box_loop s l (Some match acc with None => b | Some a => bunion a b end)
      | None => Raise TypeError
      end
  end.
Definition sketch_box (s : sketch) : result (option box) := box_loop s (ops s) None.

(** ** The scene *)
Section Scene.
Variable read_float : text -> result ModelColor.float.
Variable db : ModelColor.database.

(** SketchStyle.py 35-110 *)
Record detail_style := DetailStyle {
  k_point_size : R; k_point_color : value; k_label_width : value; k_line_width : value; k_construction_width : value }.
(** The attributes of an operation which the evaluation does not use; a label offset without coordinates is None *)
Record decoration := Decoration { d_label : option vec; d_style : value; d_color : value }.

(** The style of an item: that of a path, or a font *)
Inductive look := LPath (s : path_style) | LFont.
(** An item, with its user data: the rank of the operation *)
Record entry := Entry { e_shape : shape; e_look : look; e_user : nat }.

(** SketchStyle.py 68-70, 90-92, Sketch.py 155-163 *)
Definition point_style (st : detail_style) : result path_style := new_style read_float db [(lit "fill_color", k_point_color st)].
Definition label_style (st : detail_style) : result path_style := new_style read_float db [(lit "line_width", k_label_width st)].
Definition operation_style (d : decoration) (width : value) : result path_style :=
  new_style read_float db [(lit "stroke_style", d_style d); (lit "stroke_color", d_color d); (lit "line_width", width)].

(** The name of the k-th reference, as a position *)
Definition name_of (s : sketch) (o : op) (k : nat) : result position :=
  match nth_error (o_refs o) k with
  | None => Raise AttributeError
  | Some j => match nth_error (ops s) j with
              | Some q => if is_point (o_kind q) then Ok (PName (lit (o_name q))) else Raise AttributeError
              | None => Raise AttributeError
              end
  end.

(** 182-244: one operation.  A Vector2D is true whatever it is (its length is 2, Vector.py 154), so that the label is
    always drawn. *)
Definition construction (k : kind) : bool := match k with KAlong | KEnd | KNormal => true | _ => false end.
Definition detail_op (s : sketch) (st : detail_style) (i : nat) (o : op) (d : decoration) (c : coordinates)
  : result (coordinates * list entry) :=
  let name := lit (o_name o) in
  match o_kind o with
  | KOperation => Ok (c, [])
  | KLine =>
      style <- operation_style d (k_line_width st) ;;
      a <- name_of s o 0 ;; b <- name_of s o 1 ;;
      Ok (c, [Entry (SSegment a b) (LPath style) i])
  | KSpline =>
      style <- operation_style d (k_line_width st) ;;
      a <- name_of s o 0 ;; b <- name_of s o 1 ;;
      match o_controls o with
      | Some (p, q) => Ok (c, [Entry (SCubic a (PVector p) (PVector q) b) (LPath style) i])
      | None => Raise AttributeError
      end
  | _ =>
      match o_vector o with
      | None => Raise TypeError
      | Some v =>
          let c := ModelMeasure.set_item c name v in
          disc <- point_style st ;;
          match d_label d with
          | None => Raise AttributeError
          | Some l =>
              let position := vadd v (V (vx l) (- vy l)) in
              arrow <- label_style st ;;
              let items := [Entry (SCircle (PName name) (k_point_size st) 0 360) (LPath disc) i;
                            Entry (SSegment (PVector v) (PVector position)) (LPath arrow) i;
                            Entry (SText (PVector position) name) LFont i] in
              if construction (o_kind o) then
                style <- operation_style d (k_construction_width st) ;;
                a <- name_of s o 0 ;;
                Ok (c, items ++ [Entry (SSegment a (PName name)) (LPath style) i])%list
              else Ok (c, items)
          end
      end
  end.
Fixpoint detail_loop (s : sketch) (st : detail_style) (deco : nat -> decoration) (i : nat) (l : list op) (c : coordinates)
  : result (coordinates * list entry) :=
  match l with
  | [] => Ok (c, [])
  | o :: l =>
      r <- detail_op s st i o (deco i) c ;;
      t <- detail_loop s st deco (S i) l (fst r) ;;
      Ok (fst t, snd r ++ snd t)%list
  end.
(** 167-246: detail_scene *)
Record detail := Detail { t_box : option box; t_coordinates : coordinates; t_items : list entry }.
Definition detail_scene (s : sketch) (st : detail_style) (deco : nat -> decoration) : result detail :=
  b <- sketch_box s ;;
  r <- detail_loop s st deco 0 (ops s) [] ;;
  Ok (Detail b (fst r) (snd r)).
End Scene.
