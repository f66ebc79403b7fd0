(** What a scene should do. *)
From Coq Require Import String Ascii List Bool Arith Reals Sorted.
From Verif Require Import Base ModelFormula ModelVector SpecVector ModelLine ModelScene.
Import ListNotations.
Local Open Scope R_scope.

Section Scene.
Variables shape geometry : Type.
Variable get_geometry : coordinates -> shape -> result geometry.
Variable geometry_box : geometry -> box.
Variable geometry_distance : geometry -> vec -> result (option R).
Notation item := (item shape geometry).

(** ** The order of painting: by non-decreasing z, and among equal z the visible items in order of
    insertion, each one once *)
Definition z_of (l : list (nat * item)) (id : nat) : R := match dict_get l id with Some it => i_z_value _ _ it | None => 0 end.
Definition painting_order (l : list (nat * item)) (o : list nat) : Prop :=
  StronglySorted (fun a b => z_of l a <= z_of l b) o /\
  forall z, filter (fun id => Reqb (z_of l id) z) o = map fst (filter (fun p => i_visible _ _ (snd p) && Reqb (i_z_value _ _ (snd p)) z)%bool l).

(** ** The index: the entries of an item *)
Definition entries (l : list (nat * box)) (id : nat) : list box := map snd (filter (fun p => Nat.eqb (fst p) id) l).
(** the index holds exactly one current box for each item, and nothing else *)
Definition indexed (s : scene shape geometry) : Prop :=
  (forall id it, dict_get (s_items _ _ s) id = Some it -> exists g, get_geometry (s_coordinates _ _ s) (i_shape _ _ it) = Ok g /\ entries (s_index _ _ s) id = [geometry_box g]) /\
  (forall id, dict_get (s_items _ _ s) id = None -> entries (s_index _ _ s) id = []).

(** ** Picking: an item is at a distance of a point *)
Definition at_distance (s : scene shape geometry) (p : vec) (id : nat) (d : R) : Prop :=
  exists it g, dict_get (s_items _ _ s) id = Some it /\ get_geometry (s_coordinates _ _ s) (i_shape _ _ it) = Ok g /\ geometry_distance g p = Ok (Some d).
(** A geometry is a set of points inside its box, its distance is that of one of its points *)
Definition in_box (p : vec) (b : box) : Prop := inf (bx b) <= vx p <= sup (bx b) /\ inf (by_ b) <= vy p <= sup (by_ b).
Definition drawn (on : geometry -> vec -> Prop) : Prop :=
  (forall g q, on g q -> in_box q (geometry_box g)) /\
  (forall g p d, geometry_distance g p = Ok (Some d) -> exists q, on g q /\ d = dist q p).

(** ** Careful histories: the geometry of an item is read after an update only, and after a change of
    the coordinates every item is reset *)
Definition clean (s : scene shape geometry) (id : nat) : Prop := forall it, dict_get (s_items _ _ s) id = Some it -> i_dirty _ _ it = false.
Definition allowed (s : scene shape geometry) (o : op shape) : Prop :=
  match o with
  | AddItem _ _ _ | RemoveItem _ _ | SetZ _ _ _ | SetVisible _ _ _ | SetSelected _ _ _ | Update _ => True
  | SetDirty _ _ b => b = false
  | ReadGeometry _ id | ReadBox _ id => clean s id
  | ItemAt _ _ _ => forall id, clean s id
  | AddCoordinate _ _ _ | RemoveCoordinate _ _ => False
  end.
Definition change (o : op shape) : Prop := match o with AddCoordinate _ _ _ | RemoveCoordinate _ _ => True | _ => False end.
Definition reset_all (s : scene shape geometry) : list (op shape) := map (fun p => SetDirty _ (fst p) false) (s_items _ _ s).
Variable arrange : list nat -> list nat.
Notation step := (step shape geometry get_geometry geometry_box geometry_distance arrange).
Notation run := (run shape geometry get_geometry geometry_box geometry_distance arrange).
Inductive careful : scene shape geometry -> list (op shape) -> Prop :=
| careful_nil s : careful s []
| careful_step s o l : allowed s o -> careful (step s o) l -> careful s (o :: l)
| careful_move s changes l : Forall change changes -> careful (run s (changes ++ reset_all s)) l -> careful s (changes ++ reset_all s ++ l).
End Scene.

(** ** Tiles *)
Definition inside (p : vec) (b : box) : Prop := inf (bx b) < vx p < sup (bx b) /\ inf (by_ b) < vy p < sup (by_ b).
Definition covers (l : list (box * nat * nat)) (b : box) : Prop := forall p, in_box p b -> exists t r c, In (t, r, c) l /\ in_box p t.

(** Boxes which have a point in common *)
Definition proper (b : box) : Prop := inf (bx b) <= sup (bx b) /\ inf (by_ b) <= sup (by_ b).
Definition share (a b : box) : Prop := exists p, in_box p a /\ in_box p b.
