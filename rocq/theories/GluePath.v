(** Words used in the statements on paths. *)
From Coq Require Import Reals List.
From Verif Require Import Base ModelVector ModelTransformation ModelLine ModelBezier ModelConic ModelPath SpecVector SpecPath.
Import ListNotations.
Local Open Scope R_scope.

Definition go (absolute : bool) (v : vec) : move := if absolute then To v else By v.
Definition toward (c : compass) (length : R) : vec :=
  let diagonal := length * sqrt 2 / 2 in
  match c with
  | North => V 0 length | South => V 0 (- length) | East => V length 0 | West => V (- length) 0
  | NorthEast => V diagonal diagonal | NorthWest => V (- diagonal) diagonal
  | SouthEast => V diagonal (- diagonal) | SouthWest => V (- diagonal) (- diagonal)
  end.

(** What each command means for the pen. *)
Definition pen (c : command) : move :=
  match c with
  | HorizontalTo l _ absolute => if absolute then ToX l else By (V l 0)
  | VerticalTo l _ absolute => if absolute then ToY l else By (V 0 l)
  | AbsoluteHorizontalTo x _ => ToX x
  | AbsoluteVerticalTo y _ => ToY y
  | CompassTo c l _ => By (toward c l)
  | LineTo q _ absolute => go absolute q
  | Close _ _ => Home
  | QuadraticTo _ q absolute | CubicTo _ _ q absolute | StringedQuadraticTo q absolute
  | StringedCubicTo _ q absolute | ArcTo q _ _ _ _ _ absolute => go absolute q
  end.

(** The commands for which the claim holds. *)
Definition drawable (c : command) : Prop :=
  match c with
  | HorizontalTo _ _ absolute | VerticalTo _ _ absolute => absolute = false
  | StringedQuadraticTo _ _ | StringedCubicTo _ _ _ => False
  | _ => True
  end.

(** The parts of the path are the strokes. *)
Definition follows (p : path) (strokes : list (vec * vec)) : Prop :=
  length (parts p) = length strokes /\
  forall i s e, nth_error strokes i = Some (s, e) -> start_point p i = Ok s /\ stop_point p i = Ok e.

(** A command which asks for rounding the corner before it, and those which draw a line. *)
Definition rounding (c : command) : option R :=
  match c with
  | HorizontalTo _ r _ | VerticalTo _ r _ | AbsoluteHorizontalTo _ r | AbsoluteVerticalTo _ r
  | CompassTo _ _ r | LineTo _ r _ | Close r _ => r
  | _ => None
  end.
Definition draws_line (c : command) : bool :=
  match c with
  | QuadraticTo _ _ _ | CubicTo _ _ _ _ | StringedQuadraticTo _ _ | StringedCubicTo _ _ _
  | ArcTo _ _ _ _ _ _ _ => false
  | _ => true
  end.

(** What happens to a path. *)
Inductive read := RDirection (i : nat) | RCenter (i : nat) | RStart (i : nat) | RStop (i : nat)
| RBulge (i : nat) | RPoints (i : nat) | RGeometry (i : nat).
Definition reading (r : read) (p : path) : path :=
  match r with
  | RDirection i => snd (direction i p) | RCenter i => snd (bulge_center i p)
  | RStart i => snd (bulge_start_point i p) | RStop i => snd (bulge_stop_point i p)
  | RBulge i => snd (bulge_geometry i p) | RPoints i => snd (linear_points i p)
  | RGeometry i => snd (geometry i p)
  end.
Inductive event := Command (c : command) | Read (r : read) | Transform (t : transformation) | MoveTo (q : vec).
Definition happen (p : path) (e : event) : result path :=
  match e with
  | Command c => do_command p c
  | Read r => Ok (reading r p)
  | Transform t => transform_path t p
  | MoveTo q => Ok (move_to p q)
  end.
Fixpoint history (p : path) (l : list event) : result path :=
  match l with
  | [] => Ok p
  | e :: l => bind (happen p e) (fun p => history p l)
  end.
Definition drawing (e : event) : Prop := match e with Command _ | Read _ => True | _ => False end.

Definition has_radius (p : path) : Prop :=
  exists i s c r, nth_error (parts p) i = Some (Linear s c) /\ radius c = Some r.
Definition has_stringed (p : path) : Prop := exists i b, nth_error (parts p) i = Some (PStringed b).

(** The image of the geometry of a part which is not an arc. *)
Definition piece_image (f : vec -> vec) (g g' : piece) : Prop :=
  match g, g' with
  | GSegment s, GSegment s' => s' = Seg (f (s_p0 s)) (f (s_p1 s))
  | GQuad c, GQuad c' => c' = ModelBezier.Quad (f (q0 c)) (f (q1 c)) (f (q2 c))
  | GCubic c, GCubic c' => c' = Cub (f (c0 c)) (f (c1 c)) (f (c2 c)) (f (c3p c))
  | GArc _, GArc _ => True
  | _, _ => False
  end.

(** Rounding is asked for after a line only; [seen] tells which parts already drawn are lines. *)
Fixpoint roundable (seen : list bool) (l : list command) : Prop :=
  match l with
  | [] => True
  | c :: l =>
      (rounding c <> None -> last seen false = true) /\
      match c with
      | Close _ (Some _) => hd true seen = true
      | _ => True
      end /\
      match c with
      | Close _ _ => Forall (fun c => match c with Close _ (Some _) => hd true seen = true | _ => True end) l
      | _ => roundable (seen ++ [draws_line c]) l
      end
  end.

(** The part at [i] asks for rounding the corner at its start with radius [r]; the part before. *)
Definition rounded (p : path) (i : nat) (r : R) : Prop :=
  exists s c, nth_error (parts p) i = Some (Linear s c) /\ radius c = Some r.
Definition before (p : path) (i : nat) : nat := match i with O => (length (parts p) - 1)%nat | S j => j end.

(** No direction was read. *)
Definition unread (p : path) : Prop := forall i s c, nth_error (parts p) i = Some (Linear s c) ->
  k_direction c = None /\ k_bissector c = None.
(** Turning counterclockwise from [u] to [v] takes less than half a turn. *)
Definition short_turn (u v : R) : Prop := 0 < v - u < 180 \/ 0 < v - u + 360 < 180.
(** No rounding at all. *)
Definition sharp (p : path) : Prop := forall i r, ~ rounded p i r.
