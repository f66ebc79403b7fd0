(** The transforms of SVG. *)
From Coq Require Import String Ascii List Bool Reals.
From Verif Require Import Base ModelFormula ModelVector SpecVector.
Import ListNotations.
Local Open Scope R_scope.

Inductive svg_transform :=
| Matrix (a b c d e f : R)
| Translate (x y : R)
| Scale (x y : R)
| Rotate (angle : R) (x y : R)
| SkewX (angle : R)
| SkewY (angle : R).
Definition image (t : svg_transform) (p : vec) : vec :=
  match t with
  | Matrix a b c d e f => V (a * vx p + c * vy p + e) (b * vx p + d * vy p + f)
  | Translate x y => V (vx p + x) (vy p + y)
  | Scale x y => V (x * vx p) (y * vy p)
  | Rotate a x y =>
      V (x + (cos (rad a) * (vx p - x) - sin (rad a) * (vy p - y))) (y + (sin (rad a) * (vx p - x) + cos (rad a) * (vy p - y)))
  | SkewX a => V (vx p + tan (rad a) * vy p) (vy p)
  | SkewY a => V (vx p) (vy p + tan (rad a) * vx p)
  end.
(** In a list, the last one is applied first. *)
Definition images (l : list svg_transform) (p : vec) : vec := fold_right image p l.
(** What a name and values mean *)
Inductive means : text -> list R -> svg_transform -> Prop :=
| means_matrix a b c d e f : means (lit "matrix") [a; b; c; d; e; f] (Matrix a b c d e f)
| means_translate x y : means (lit "translate") [x; y] (Translate x y)
| means_translate1 x : means (lit "translate") [x] (Translate x 0)
| means_scale x y : means (lit "scale") [x; y] (Scale x y)
| means_scale1 x : means (lit "scale") [x] (Scale x x)
| means_rotate a x y : means (lit "rotate") [a; x; y] (Rotate a x y)
| means_rotate1 a : means (lit "rotate") [a] (Rotate a 0 0)
| means_skewx a : means (lit "skewX") [a] (SkewX a)
| means_skewy a : means (lit "skewY") [a] (SkewY a).
(** The names which are read, with the numbers of values which are accepted *)
Definition readable (name : text) (values : list R) : Prop :=
  (name = lit "matrix" /\ length values = 6%nat) \/ (name = lit "translate" /\ (length values = 1%nat \/ length values = 2%nat)) \/
  (name = lit "scale" /\ length values = 2%nat) \/ (name = lit "rotate" /\ (length values = 1%nat \/ length values = 3%nat)).
(** The text of a transform: the name and the words of the values *)
Definition transform_text (name : text) (ws : list text) : text := name ++ lit "(" ++ join (lit ",") ws ++ lit ")".
