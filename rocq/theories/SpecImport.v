(** What the entities of a DXF file draw in the plane. *)
From Coq Require Import Reals List String ZArith.
From Verif Require Import ModelVector ModelImport SpecVector SpecConic SpecSpline SpecDxf.
Import ListNotations.
Local Open Scope R_scope.

Definition xy (p : point3) : vec := V (px p) (py p).
Definition vertices (l : list (R * R * R * R * R)) : list (vec * R) := map (fun '(x, y, _, _, b) => (V x y, b)) l.

(** The parameters met from [s] to [e] anticlockwise, one turn [w] more when [e] is below [s] *)
Definition from_to (w s e t : R) : Prop := (s <= e /\ s <= t <= e) \/ (e < s /\ s <= t <= e + w).

(** The polynomial spline of given knots, closed by its last control point *)
Definition on_spline_curve (K : nat -> R) (p : nat) (P : list vec) (X : vec) : Prop :=
  (exists t, K p <= t < K (List.length P) /\ X = spline_point K p P t) \/ Some X = hd_error (rev P).

Definition traced (e : entity) (X : vec) : Prop :=
  match e with
  | DLine a b => on_chord (xy a) (xy b) X
  | DCircle c r => dist (xy c) X = r
  | DArc c r s t => exists a, from_to 360 s t a /\ polar (xy c) r a X
  | DEllipse c m ratio s t => exists a, from_to (2 * PI) s t a /\ dxf_ellipse_point (xy c) (xy m) ratio a X
  | DPolyline closed l => exists P Q b, In (P, Q, b) (legs closed (vertices l)) /\ on_leg P Q b X
  | DSpline p _ P knots _ => on_spline_curve (knot knots) p (map xy P) X
  | DOther _ => False
  end.

(** The kinds of entities which the documentation of the importer lists *)
Definition supported (e : entity) : bool := match e with DOther _ => false | _ => true end.
(** Another entity has another type. *)
Definition other_type (e : entity) : Prop :=
  match e with
  | DOther t => ~ In t ["LINE"; "CIRCLE"; "ARC"; "ELLIPSE"; "LWPOLYLINE"; "SPLINE"]%string
  | _ => True
  end.

(** Knots at regular intervals, repeated at both ends: 0 .. 0 1 2 .. n .. n up to the unit and the origin *)
Definition regular (knots : list R) (p n : nat) : Prop := exists a b, 0 < a /\ List.length knots = (n + p + 1)%nat /\
  forall i, (i < n + p + 1)%nat -> knot knots i = a * INR (Nat.min (i - p) (n - p)) + b.

(** The entities which the importer reads faithfully *)
Definition readable (e : entity) : Prop :=
  match e with
  | DLine _ _ => True
  | DCircle _ r => 0 <= r
  | DArc _ _ s t => 0 <= s <= 360 /\ 0 <= t <= 360
  | DEllipse _ m ratio s t => ~ null (xy m) /\ ~ (px m = 0 /\ 0 < py m) /\ 0 <= ratio /\ 0 <= s <= 2 * PI /\ 0 <= t <= 2 * PI
  | DPolyline _ l => Forall (fun q => 0 <= snd q) (vertices l)
  | DSpline p _ P knots _ => regular knots p (List.length P)
  | DOther _ => True
  end.
(** The entities which raise no exception *)
Definition legible (e : entity) : Prop :=
  match e with
  | DPolyline closed l => (closed = true -> l <> []) /\
      Forall (fun '(P, Q, b) => b <> 0 -> P <> Q) (legs closed (vertices l))
  | DSpline p _ P _ _ => (p < List.length P)%nat
  | _ => True
  end.
