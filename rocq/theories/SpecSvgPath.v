(** SVG path data: the text, the commands, what they draw. *)
From Coq Require Import String Ascii List Bool Arith Reals.
From Verif Require Import Base ModelFormula ModelVector.
Import ListNotations.

(** ** Texts *)
Definition separator (c : ascii) : Prop := c = " "%char \/ c = ","%char.
(** The text is made of these words, between separators *)
Inductive spaced : text -> list text -> Prop :=
| spaced_nil : spaced [] []
| spaced_sep c s l : separator c -> spaced s l -> spaced (c :: s) l
| spaced_word w s l : w <> [] -> (forall c, In c w -> ~ separator c) ->
    match s with [] => True | c :: _ => separator c end -> spaced s l -> spaced (w ++ s) (w :: l).

(** The number of arguments of a command *)
Definition arity (c : ascii) : option nat :=
  if existsb (Ascii.eqb c) ["M"; "m"; "L"; "l"; "T"; "t"]%char then Some 2
  else if existsb (Ascii.eqb c) ["H"; "h"; "V"; "v"]%char then Some 1
  else if existsb (Ascii.eqb c) ["C"; "c"]%char then Some 6
  else if existsb (Ascii.eqb c) ["S"; "s"; "Q"; "q"]%char then Some 4
  else if existsb (Ascii.eqb c) ["A"; "a"]%char then Some 7
  else if existsb (Ascii.eqb c) ["Z"; "z"]%char then Some 0
  else None.
Definition smooth_quadratic (c : ascii) : Prop := c = "T"%char \/ c = "t"%char.

Section Grammar.
Context {float : Type}.
(** A command letter followed by one group of arguments or more *)
Definition item : Type := ascii * list (list float).
Definition well_formed (i : item) : Prop := exists n, arity (fst i) = Some n /\
  snd i <> [] /\ Forall (fun g => length g = n) (snd i) /\ (n = 0 -> length (snd i) = 1).
(** The commands: the letter is repeated, but M and m by L and l. *)
Definition again (c : ascii) : ascii :=
  match c with "M" => "L" | "m" => "l" | c => c end%char.
Definition meaning (i : item) : list (ascii * list float) :=
  match snd i with
  | [] => []
  | g :: l => (fst i, g) :: map (fun g => (again (fst i), g)) l
  end.
(** The words of an item: [reads w x] says that the word is the number [x]. *)
Definition spells (reads : text -> float -> Prop) (i : item) (l : list text) : Prop :=
  exists numbers, l = [fst i] :: numbers /\ Forall2 reads numbers (concat (snd i)).
End Grammar.

(** ** What the commands draw *)
Local Open Scope R_scope.
Inductive svg :=
| Move (absolute : bool) (p : vec)
| Line (absolute : bool) (p : vec)
| Horizontal (absolute : bool) (x : R)
| Vertical (absolute : bool) (y : R)
| Cubic (absolute : bool) (p1 p2 p3 : vec)
| SmoothCubic (absolute : bool) (p2 p3 : vec)
| Quadratic (absolute : bool) (p1 p2 : vec)
| SmoothQuadratic (absolute : bool) (p2 : vec)
| Arc (absolute : bool) (rx ry angle large sweep : R) (p : vec)
| ClosePath.
Definition decode (c : ascii * list R) : option svg :=
  match c with
  | ("M", [x; y])%char => Some (Move true (V x y))
  | ("m", [x; y])%char => Some (Move false (V x y))
  | ("L", [x; y])%char => Some (Line true (V x y))
  | ("l", [x; y])%char => Some (Line false (V x y))
  | ("H", [x])%char => Some (Horizontal true x)
  | ("h", [x])%char => Some (Horizontal false x)
  | ("V", [y])%char => Some (Vertical true y)
  | ("v", [y])%char => Some (Vertical false y)
  | ("C", [a; b; c; d; e; f])%char => Some (Cubic true (V a b) (V c d) (V e f))
  | ("c", [a; b; c; d; e; f])%char => Some (Cubic false (V a b) (V c d) (V e f))
  | ("S", [c; d; e; f])%char => Some (SmoothCubic true (V c d) (V e f))
  | ("s", [c; d; e; f])%char => Some (SmoothCubic false (V c d) (V e f))
  | ("Q", [a; b; c; d])%char => Some (Quadratic true (V a b) (V c d))
  | ("q", [a; b; c; d])%char => Some (Quadratic false (V a b) (V c d))
  | ("T", [c; d])%char => Some (SmoothQuadratic true (V c d))
  | ("t", [c; d])%char => Some (SmoothQuadratic false (V c d))
  | ("A", [rx; ry; angle; large; sweep; x; y])%char => Some (Arc true rx ry angle large sweep (V x y))
  | ("a", [rx; ry; angle; large; sweep; x; y])%char => Some (Arc false rx ry angle large sweep (V x y))
  | ("Z", [])%char | ("z", [])%char => Some ClosePath
  | _ => None
  end.

(** The strokes, with absolute points *)
Inductive stroke :=
| SLine (a b : vec)
| SQuadratic (a b c : vec)
| SCubic (a b c d : vec)
| SArc (a b : vec) (rx ry angle : R) (large sweep : bool).
(** The pen: the first point of the subpath, the current point, the last control point of a cubic and
    of a quadratic curve just drawn *)
Record nib := Nib { home : vec; at_ : vec; cubic_control : option vec; quadratic_control : option vec }.
Definition target (p : nib) (absolute : bool) (v : vec) : vec :=
  if absolute then v else V (vx (at_ p) + vx v) (vy (at_ p) + vy v).
Definition mirrored (p : nib) (control : option vec) : vec :=
  match control with
  | None => at_ p
  | Some c => V (2 * vx (at_ p) - vx c) (2 * vy (at_ p) - vy c)
  end.
Definition nib_at (p : nib) (v : vec) : nib := Nib (home p) v None None.
Definition step (p : nib) (c : svg) : list stroke * nib :=
  match c with
  | Move absolute v => let q := target p absolute v in ([], Nib q q None None)
  | Line absolute v => let q := target p absolute v in ([SLine (at_ p) q], nib_at p q)
  | Horizontal absolute x =>
      let q := V (if absolute then x else vx (at_ p) + x) (vy (at_ p)) in ([SLine (at_ p) q], nib_at p q)
  | Vertical absolute y =>
      let q := V (vx (at_ p)) (if absolute then y else vy (at_ p) + y) in ([SLine (at_ p) q], nib_at p q)
  | Cubic absolute p1 p2 p3 =>
      ([SCubic (at_ p) (target p absolute p1) (target p absolute p2) (target p absolute p3)],
       Nib (home p) (target p absolute p3) (Some (target p absolute p2)) None)
  | SmoothCubic absolute p2 p3 =>
      ([SCubic (at_ p) (mirrored p (cubic_control p)) (target p absolute p2) (target p absolute p3)],
       Nib (home p) (target p absolute p3) (Some (target p absolute p2)) None)
  | Quadratic absolute p1 p2 =>
      ([SQuadratic (at_ p) (target p absolute p1) (target p absolute p2)],
       Nib (home p) (target p absolute p2) None (Some (target p absolute p1)))
  | SmoothQuadratic absolute p2 =>
      let q := mirrored p (quadratic_control p) in
      ([SQuadratic (at_ p) q (target p absolute p2)], Nib (home p) (target p absolute p2) None (Some q))
  | Arc absolute rx ry angle large sweep v =>
      let flag x := if Req_EM_T x 0 then false else true in
      let q := target p absolute v in ([SArc (at_ p) q rx ry angle (flag large) (flag sweep)], nib_at p q)
  | ClosePath => ([SLine (at_ p) (home p)], nib_at p (home p))
  end.
Fixpoint strokes (p : nib) (l : list svg) : list stroke :=
  match l with
  | [] => []
  | c :: l => fst (step p c) ++ strokes (snd (step p c)) l
  end.
Definition picture (l : list svg) : list stroke := strokes (Nib (V 0 0) (V 0 0) None None) l.
