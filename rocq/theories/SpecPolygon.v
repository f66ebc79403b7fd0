(** Specification of polygons: cyclic edges, area and centre of mass by triangles seen from any
    point, simplicity, affine maps. *)
From Coq Require Import Reals List.
From Verif Require Import ModelVector SpecVector SpecLine.
Import ListNotations.
Local Open Scope R_scope.

(** The edges of the closed polygon. *)
Definition ring (l : list vec) : list (vec * vec) :=
  match l with [] => [] | a :: t => combine l (t ++ [a]) end.

(** Signed area of a triangle, positive when counterclockwise. *)
Definition tri (o a b : vec) : R :=
  ((vx a - vx o) * (vy b - vy o) - (vy a - vy o) * (vx b - vx o)) / 2.

(** Signed area of a polygon: the triangles under the edges seen from [o]. *)
Definition sweep (o : vec) (l : list vec) : R :=
  sumR (map (fun e => tri o (fst e) (snd e)) (ring l)).

(** Sum of the centres of these triangles weighted by their areas. *)
Definition moment (o : vec) (l : list vec) : vec :=
  V (sumR (map (fun e => tri o (fst e) (snd e) * ((vx o + vx (fst e) + vx (snd e)) / 3)) (ring l)))
    (sumR (map (fun e => tri o (fst e) (snd e) * ((vy o + vy (fst e) + vy (snd e)) / 3)) (ring l))).

(** Length of the outline. *)
Definition outline (l : list vec) : R := sumR (map (fun e => dist (fst e) (snd e)) (ring l)).

(** Two edges that are not almost parallel only meet at a common end. *)
Definition meet_at_ends (e f : vec * vec) : Prop :=
  5 / 10 ^ 8 < Rabs (crossv (vsub (snd e) (fst e)) (vsub (snd f) (fst f))) ->
  forall q, between (fst e) (snd e) q -> between (fst f) (snd f) q ->
    (q = fst e \/ q = snd e) /\ (q = fst f \/ q = snd f).
Definition simple (l : list vec) : Prop :=
  forall i j e f, i <> j -> nth_error (ring l) i = Some e -> nth_error (ring l) j = Some f ->
    meet_at_ends e f.

(** The affine map with the matrix [a b e; c d f]. *)
Definition affine (a b e c d f : R) (p : vec) : vec :=
  V (a * vx p + b * vy p + e) (c * vx p + d * vy p + f).

(** Mean square extent of the points in the direction of angle [t] (radians), around the origin. *)
Definition extent (l : list vec) (t : R) : R :=
  sumR (map (fun p => (vx p * cos t + vy p * sin t) ^ 2) l) / INR (length l).

(** The point is on the left of, or on, the line from [a] to [b]. *)
Definition on_left (a b p : vec) : Prop := 0 <= tri a b p.

(** The leftmost point of the smallest ordinate. *)
Definition lowest (p : vec) (l : list vec) : Prop :=
  forall q, In q l -> q = p \/ vy p < vy q \/ (vy p = vy q /\ vx p < vx q).

(** Two points seen in the same direction from [p], the direction of [p] itself being the vertical one. *)
Definition same_way (p a b : vec) : Prop :=
  (a = p /\ vx b = vx p) \/ (b = p /\ vx a = vx p) \/ (a <> p /\ b <> p /\ tri p a b = 0).

(** Three consecutive vertices of the closed polygon, from the index [i]. *)
Definition corner (l : list vec) (i : nat) (a b c : vec) : Prop :=
  (i < length l)%nat /\ nth_error l i = Some a /\
  nth_error l ((i + 1) mod length l) = Some b /\ nth_error l ((i + 2) mod length l) = Some c.

(** All turns are to the left or straight on, or all turns are to the right. *)
Definition same_turns (l : list vec) : Prop :=
  (forall i a b c, corner l i a b c -> 0 <= tri a b c) \/
  (forall i a b c, corner l i a b c -> tri a b c < 0).
