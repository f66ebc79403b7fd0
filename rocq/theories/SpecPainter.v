(** What an item looks like, and what a figure looks like, as sets of points. *)
From Coq Require Import Reals String List ZArith Ascii.
From Verif Require Import Base ModelFormula ModelVector ModelTransformation ModelLine.
From Verif Require ModelScene.
Import ModelScene(position, PVector, PName, PNumber, coordinates).
From Verif Require Import ModelPainter.
Import ListNotations.
Local Open Scope R_scope.

Definition degrees_cos (a : R) : R := cos (a * PI / 180).
Definition degrees_sin (a : R) : R := sin (a * PI / 180).

Definition on_segment (p q x : vec) : Prop := exists t, 0 <= t <= 1 /\
  x = V ((1 - t) * vx p + t * vx q) ((1 - t) * vy p + t * vy q).
Definition on_quadratic (p q r x : vec) : Prop := exists t, 0 <= t <= 1 /\
  x = V ((1 - t) ^ 2 * vx p + 2 * (1 - t) * t * vx q + t ^ 2 * vx r)
        ((1 - t) ^ 2 * vy p + 2 * (1 - t) * t * vy q + t ^ 2 * vy r).
Definition on_cubic (p q r s x : vec) : Prop := exists t, 0 <= t <= 1 /\
  x = V ((1 - t) ^ 3 * vx p + 3 * (1 - t) ^ 2 * t * vx q + 3 * (1 - t) * t ^ 2 * vx r + t ^ 3 * vx s)
        ((1 - t) ^ 3 * vy p + 3 * (1 - t) ^ 2 * t * vy q + 3 * (1 - t) * t ^ 2 * vy r + t ^ 3 * vy s).
Definition in_rectangle (p q x : vec) : Prop := exists s t, 0 <= s <= 1 /\ 0 <= t <= 1 /\
  x = V ((1 - s) * vx p + s * vx q) ((1 - t) * vy p + t * vy q).
(** A broken line, open or closed *)
Definition on_chain (l : list vec) (x : vec) : Prop := exists i p q,
  nth_error l i = Some p /\ nth_error l (S i) = Some q /\ on_segment p q x.
Definition on_loop (l : list vec) (x : vec) : Prop :=
  on_chain l x \/ exists p, nth_error l 0 = Some p /\ on_segment (last l p) p x.

(** The angles of an arc, anticlockwise from the first to the second *)
Definition swept (start stop a : R) : Prop :=
  360 <= Rabs (stop - start) \/ start <= a <= stop \/ (stop < start /\ start <= a <= stop + 360).

(** The points of the parts of a path, from a point to the next *)
Section Covers.
Variable cast : position -> result vec.
Fixpoint parts_cover (pen : vec) (l : list part) (x : vec) : Prop :=
  match l with
  | [] => False
  | LinearPart p :: l => exists v, cast p = Ok v /\ (on_segment pen v x \/ parts_cover v l x)
  | QuadraticPart p q :: l => exists v w, cast p = Ok v /\ cast q = Ok w /\ (on_quadratic pen v w x \/ parts_cover w l x)
  | CubicPart p q r :: l => exists v w y, cast p = Ok v /\ cast q = Ok w /\ cast r = Ok y /\
      (on_cubic pen v w y x \/ parts_cover y l x)
  end.
Fixpoint parts_end (pen : vec) (l : list part) (y : vec) : Prop :=
  match l with
  | [] => y = pen
  | LinearPart p :: l | QuadraticPart _ p :: l | CubicPart _ _ p :: l => exists v, cast p = Ok v /\ parts_end v l y
  end.

(** The points of an item; a text is at its position *)
Definition covers (sh : shape) (x : vec) : Prop :=
  match sh with
  | SText p _ => cast p = Ok x
  | SCircle p r start stop => exists v a, cast p = Ok v /\ swept start stop a /\
      x = V (vx v + r * degrees_cos a) (vy v + r * degrees_sin a)
  | SEllipse p rx ry angle start stop => exists v a, cast p = Ok v /\ swept start stop a /\
      let u := rx * degrees_cos a in
      let w := ry * degrees_sin a in
      x = V (vx v + u * degrees_cos angle - w * degrees_sin angle) (vy v + u * degrees_sin angle + w * degrees_cos angle)
  | SSegment p q => exists v w, cast p = Ok v /\ cast q = Ok w /\ on_segment v w x
  | SRectangle p q => exists v w, cast p = Ok v /\ cast q = Ok w /\ on_loop [v; V (vx w) (vy v); w; V (vx v) (vy w)] x
  | SPolyline l => exists m, traverse cast l = Ok m /\ on_chain m x
  | SPolygon l => exists m, traverse cast l = Ok m /\ on_loop m x
  | SImage p q => exists v w, cast p = Ok v /\ cast q = Ok w /\ in_rectangle v w x
  | SCubic p q r s => exists v w y z, cast p = Ok v /\ cast q = Ok w /\ cast r = Ok y /\ cast s = Ok z /\ on_cubic v w y z x
  | SQuadratic p q r => exists v w y, cast p = Ok v /\ cast q = Ok w /\ cast r = Ok y /\ on_quadratic v w y x
  | SPath p l closed => exists v, cast p = Ok v /\
      (parts_cover v l x \/ closed = true /\ exists y, parts_end v l y /\ on_segment y v x)
  end.
End Covers.

(** The points of a figure.  QPainter.drawArc turns anticlockwise on the screen, whose ordinates go down. *)
Definition inked (f : figure) (y : vec) : Prop :=
  match f with
  | FText p _ => y = p
  | FDot c r => (vx y - vx c) ^ 2 + (vy y - vy c) ^ 2 <= r ^ 2
  | FEllipse c rx ry => exists a, y = V (vx c + rx * degrees_cos a) (vy c + ry * degrees_sin a)
  | FArc c rx ry start span => exists a,
      (IZR start / 16 <= a <= IZR (start + span) / 16 \/ IZR (start + span) / 16 <= a <= IZR start / 16) /\
      y = V (vx c + rx * degrees_cos a) (vy c - ry * degrees_sin a)
  | FLine p q => on_segment p q y
  | FCubic p q r s => on_cubic p q r s y
  | FPolyline l => on_chain l y
  | FPolygon l => on_loop l y
  | FImage p q => in_rectangle p q y
  | FNothing => False
  end.

(** The marks are the image of the item, and write its text. *)
Definition depicts {ink} (f : vec -> vec) (cast : position -> result vec) (sh : shape) (l : list (figure * option ink)) : Prop :=
  (forall y, (exists m, In m l /\ inked (fst m) y) <-> exists x, covers cast sh x /\ y = f x) /\
  (forall s, (exists p i, In (FText p s, i) l) <-> exists p, sh = SText p s).

(** A horizontal factor, a vertical one and a shift. *)
Definition placed (a k b h : R) (v : vec) : vec := V (a + k * vx v) (b + h * vy v).

(** The items every painter has a method for, circles set apart. *)
Definition basic (sh : shape) : Prop := match sh with SText _ _ | SSegment _ _ | SCubic _ _ _ _ => True | _ => False end.
(** All the positions of the item are known. *)
Definition positions (sh : shape) : list position :=
  match sh with
  | SText p _ | SCircle p _ _ _ | SEllipse p _ _ _ _ _ => [p]
  | SSegment p q | SRectangle p q | SImage p q => [p; q]
  | SPolyline l | SPolygon l => l
  | SCubic p q r s => [p; q; r; s]
  | SQuadratic p q r => [p; q; r]
  | SPath p l _ => p :: flat_map (fun x => match x with LinearPart p => [p] | QuadraticPart p q => [p; q] | CubicPart p q r => [p; q; r] end) l
  end.

(** What Qt draws exactly: angles which are multiples of 1/16 degree, ellipses along the axes, open
    paths of lines; quadratic curves in a scene without transformation. *)
Definition sixteenth (a : R) : Prop := exists n, a * 16 = IZR n.
Definition arc_ok (start stop : R) : Prop := 360 <= Rabs (stop - start) \/ (sixteenth start /\ sixteenth stop).
Definition qt_ok (t : transformation) (sh : shape) : Prop :=
  match sh with
  | SCircle _ _ start stop => arc_ok start stop
  | SEllipse _ _ _ angle start stop => angle = 0 /\ arc_ok start stop
  | SRectangle _ _ => False
  | SPolyline l => l <> []
  | SQuadratic _ _ _ => forall v, apply t v = v
  | SPath _ l closed => closed = false /\ forall x, In x l -> exists p, x = LinearPart p
  | _ => True
  end.

(** The number a decimal text stands for, in hundredths *)
Definition digit_of (c : ascii) : option Z :=
  let n := Z.of_nat (nat_of_ascii c) in if ((48 <=? n) && (n <=? 57))%Z%bool then Some (n - 48)%Z else None.
Fixpoint whole_part (acc : Z) (s : text) : option (Z * text) :=
  match s with
  | c :: s' => match digit_of c with Some d => whole_part (10 * acc + d) s' | None => Some (acc, s) end
  | [] => Some (acc, [])
  end.
Definition hundredths (s : text) : option Z :=
  let (sign, s) := match s with "-"%char :: s => ((-1)%Z, s) | _ => (1%Z, s) end in
  match whole_part 0 s with
  | Some (n, ["."%char; d; u]) =>
      match digit_of d, digit_of u with Some d, Some u => Some (sign * (100 * n + 10 * d + u))%Z | _, _ => None end
  | _ => None
  end.
(** The number a position of a TeX figure stands for *)
Definition reads (s : text) (v : vec) : Prop := exists x y m n,
  s = (lit "("%string ++ x ++ lit ","%string ++ y ++ lit ")"%string)%list /\ hundredths x = Some m /\ hundredths y = Some n /\ v = V (IZR m / 100) (IZR n / 100).

(** TikZ: what a position looks like, and the lines of the items. *)
Definition shows (p : position) (s : text) : Prop :=
  match p with
  | PName n => s = (lit "("%string ++ n ++ lit ")"%string)%list
  | PVector v => exists w, reads s w /\ Rabs (vx w - vx v) <= 0.005 /\ Rabs (vy w - vy v) <= 0.005
  | PNumber _ => False
  end.
Definition tikz_line (style : text) (sh : shape) (line : text) : Prop :=
  let eol := (lit ";"%string ++ [ascii_of_nat 10])%list in
  match sh with
  | SText p x => exists s, shows p s /\ line = (lit "\draw[] "%string ++ s ++ lit " node[anchor=north west] {"%string ++ x ++ lit "}"%string ++ eol)%list
  | SSegment p q => exists s1 s2, shows p s1 /\ shows q s2 /\
      line = (lit "\draw["%string ++ style ++ lit "] "%string ++ s1 ++ lit " -- "%string ++ s2 ++ eol)%list
  | SCubic p q r x => exists s1 s2 s3 s4, shows p s1 /\ shows q s2 /\ shows r s3 /\ shows x s4 /\
      line = (lit "\draw["%string ++ style ++ lit "] "%string ++ s1 ++ lit " .. controls "%string ++ s2 ++ lit " and "%string ++ s3 ++ lit " .. "%string ++ s4 ++ eol)%list
  | _ => False
  end.
Definition tikz_coordinate (n : text) (v : vec) (line : text) : Prop := exists s, shows (PVector v) s /\
  line = (lit "\coordinate ("%string ++ n ++ lit ") at "%string ++ s ++ lit ";"%string ++ [ascii_of_nat 10])%list.
Definition written_position (p : position) : Prop := match p with PNumber _ => False | _ => True end.
