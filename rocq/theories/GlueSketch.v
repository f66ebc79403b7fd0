(** Words about the operations of a sketch. *)
From Coq Require Import String Reals List Bool.
From Verif Require Import ModelVector SpecVector ModelLine SpecLine ModelConic SpecConic GlueConic ModelGraph ModelSketch SpecSketch.
Import ListNotations.
Local Open Scope R_scope.

(** The position of the k-th point which an operation refers to. *)
Definition at_ref (s : sketch) (o : op) (k : nat) (p : vec) : Prop :=
  exists j q, nth_error (o_refs o) k = Some j /\ nth_error (ops s) j = Some q /\ o_vector q = Some p.
(** The value of its k-th expression. *)
Definition at_expr (o : op) (k : nat) (x : R) : Prop :=
  exists e, nth_error (o_exprs o) k = Some e /\ x_value e = Some x.

(** The defining relation of an operation. *)
Definition placed (s : sketch) (o : op) : Prop :=
  match o_kind o with
  | KOperation | KPoint | KLine => True
  | KSingle => exists x y, at_expr o 0 x /\ at_expr o 1 y /\ o_vector o = Some (V x y)
  | KAlong => exists a b l p, at_ref s o 0 a /\ at_ref s o 1 b /\ at_expr o 0 l /\
      o_vector o = Some p /\ along a b l p
  | KEnd => exists a angle l p, at_ref s o 0 a /\ at_expr o 0 angle /\ at_expr o 1 l /\
      o_vector o = Some p /\ end_line a angle l p
  | KIntersect => exists a b c d, at_ref s o 0 a /\ at_ref s o 1 b /\ at_ref s o 2 c /\ at_ref s o 3 d /\
      let v := crossv (vsub b a) (vsub d c) in
      (collinear (vsub b a) (vsub d c) -> o_vector o = None) /\
      (5 / 10 ^ 8 < Rabs v ->
       exists p, o_vector o = Some p /\ forall q, aligned a b q /\ aligned c d q <-> q = p)
  | KNormal => exists a b angle l p, at_ref s o 0 a /\ at_ref s o 1 b /\
      (at_expr o 0 angle \/
       angle = 0 /\ exists e, nth_error (o_exprs o) 0 = Some e /\ x_value e = None /\ x_error e = true) /\
      at_expr o 1 l /\
      o_vector o = Some p /\ on_normal a b angle l p
  | KContact => exists a b c r, at_ref s o 0 a /\ at_ref s o 1 b /\ at_ref s o 2 c /\ at_expr o 0 r /\
      match o_vector o with
      | Some p => on_circle c (Rabs r) p /\ aligned a b p
      | None => forall p, on_circle c (Rabs r) p -> ~ aligned a b p
      end
  | KIntersection => exists a b, at_ref s o 0 a /\ at_ref s o 1 b /\ o_vector o = Some (V (vx a) (vy b))
  | KSpline => exists a b a1 l1 a2 l2 p q, at_ref s o 0 a /\ at_ref s o 1 b /\
      at_expr o 0 a1 /\ at_expr o 1 l1 /\ at_expr o 2 a2 /\ at_expr o 3 l2 /\
      o_controls o = Some (p, q) /\ end_line a a1 l1 p /\ end_line b a2 l2 q
  end.

(** [j] is the last point with that name among the operations up to [i]. *)
Definition denotes (s : sketch) (i : nat) (name : string) (j : nat) : Prop :=
  (j <= i)%nat /\ (exists p, nth_error (ops s) j = Some p /\ is_point (o_kind p) = true /\ o_name p = name) /\
  (forall k p, (j < k <= i)%nat -> nth_error (ops s) k = Some p -> is_point (o_kind p) = true -> o_name p <> name).
Definition located (s : sketch) (i : nat) (name : string) (p : vec) : Prop :=
  exists j q, denotes s i name j /\ nth_error (ops s) j = Some q /\ o_vector q = Some p.
(** The segment between the first two points of the along-line and normal points *)
Definition own_segment (s : sketch) (o : op) (v : vec) : Prop :=
  (o_kind o = KAlong \/ o_kind o = KNormal) /\
  exists a b, at_ref s o 0 a /\ at_ref s o 1 b /\ v = V (vx b - vx a) (vy b - vy a).

(** An operation measures itself. *)
Definition selfish (s : sketch) (n : node) : Prop :=
  exists i o x, nth_error (ops s) i = Some o /\ o_node o = n /\ is_point (o_kind o) = true /\
    In x (o_exprs o) /\ measures_with (x_source x) (o_name o).
(** No operation is made with an expression which measures it. *)
Definition modest (a : arguments) : Prop :=
  is_point (a_kind a) = true -> forall e, In e (a_exprs a) -> ~ measures_with e (a_name a).
Definition modest_event (e : event) : Prop := match e with Add a _ => modest a | _ => True end.
(** Events which build the sketch and do not evaluate it *)
Definition quiet (e : event) : Prop := match e with Add _ _ | Elsewhere _ | Get _ => True | _ => False end.
(** The values of the expressions are the values of what is written; a normal point does without its angle
    when a name is unknown. *)
Definition explained (s : sketch) (i : nat) (o : op) : Prop :=
  forall j e, nth_error (o_exprs o) j = Some e ->
  (exists w, x_value e = Some w /\
     means (fun n x => assoc String.eqb n (cache s) = Some x) (located s i) (own_segment s o) (x_source e) w) \/
  (o_kind o = KNormal /\ j = 0%nat /\ x_value e = None /\ x_error e = true).
(** The same construction: kind, id, name and points *)
Definition same_op (o o' : op) : Prop := o_kind o' = o_kind o /\ o_id o' = o_id o /\ o_name o' = o_name o /\ o_refs o' = o_refs o.
