(** What the constructions of a sketch mean, on coordinates. *)
From Coq Require Import String Reals List Bool.
From Verif Require Import ModelVector SpecVector ModelSketch.
Import ListNotations.
Local Open Scope R_scope.

(** The names of points in the calls of the functions selected by [p]. *)
Fixpoint called (p : fname -> Prop) (e : expr) (name : string) : Prop :=
  match e with
  | EConst _ | EName _ => False
  | ENeg a => called p a name
  | EAdd a b | ESub a b | EMul a b | EDiv a b => called p a name \/ called p b name
  | ECall f args => p f /\ In name args
  end.
Definition mentions : expr -> string -> Prop := called (fun _ => True).
Definition measures_with : expr -> string -> Prop := called (fun f => f = FLine).

(** The direction of a vector, in degrees, in ]-180, 180]; any number for the null vector. *)
Definition direction (v : vec) (angle : R) : Prop :=
  0 < len v -> -180 < angle <= 180 /\
  vx v = len v * cos (rad angle) /\ vy v = len v * sin (rad angle).

(** The value of an expression: [where] gives the position of a point, [known] the value of a
    measurement, [current] the current segment. *)
Inductive means (known : string -> R -> Prop) (where_ : string -> vec -> Prop) (current : vec -> Prop)
  : expr -> R -> Prop :=
| m_const x : means known where_ current (EConst x) x
| m_name n x : known n x -> means known where_ current (EName n) x
| m_neg a x : means known where_ current a x -> means known where_ current (ENeg a) (- x)
| m_add a b x y : means known where_ current a x -> means known where_ current b y ->
    means known where_ current (EAdd a b) (x + y)
| m_sub a b x y : means known where_ current a x -> means known where_ current b y ->
    means known where_ current (ESub a b) (x - y)
| m_mul a b x y : means known where_ current a x -> means known where_ current b y ->
    means known where_ current (EMul a b) (x * y)
| m_div a b x y : means known where_ current a x -> means known where_ current b y -> y <> 0 ->
    means known where_ current (EDiv a b) (x / y)
| m_line n1 n2 p q : where_ n1 p -> where_ n2 q -> means known where_ current (ECall FLine [n1; n2]) (dist p q)
| m_angle n1 n2 p q t : where_ n1 p -> where_ n2 q -> direction (V (vx q - vx p) (vy q - vy p)) t ->
    means known where_ current (ECall FAngleLine [n1; n2]) t
| m_length v : current v -> means known where_ current (ECall FCurrentLength []) (len v)
| m_zero n1 n2 : means known where_ current (ECall FSplLike [n1; n2]) 0.

(** [p] is at the length [l] from [a] on the line from [a] to [b] *)
Definition along (a b : vec) (l : R) (p : vec) : Prop :=
  a <> b /\
  vx p = vx a + l * ((vx b - vx a) / dist a b) /\ vy p = vy a + l * ((vy b - vy a) / dist a b).
(** [p] is at the length [l] from [a] in the direction [angle], in degrees *)
Definition end_line (a : vec) (angle l : R) (p : vec) : Prop :=
  vx p = vx a + l * cos (rad angle) /\ vy p = vy a + l * sin (rad angle).
(** [p] is at the length [l] from [a] in the direction from [a] to [b] turned by 90 degrees and by
    [angle] *)
Definition on_normal (a b : vec) (angle l : R) (p : vec) : Prop :=
  exists u v, along a b 1 (V (vx a + vx u) (vy a + vy u)) /\ turned (rad (90 + angle)) u v /\
    vx p = vx a + l * vx v /\ vy p = vy a + l * vy v.
