(** Further theorems on C32, C34: what single queries and calls answer. *)
From Coq Require Import String ZArith Reals List Lra Lia.
From Verif Require Import Base ModelVector ModelSketch SpecSketch ProofSketch.
From Verif Require PropSketch.
Import ListNotations.
Local Open Scope string_scope.
Local Open Scope list_scope.

(** C34.  has_operation_id tells whether get_operation finds one. *)
Theorem C34_has l c m k : let s := history l (new_sketch c m) in has_operation s k = true <-> exists i, get_operation s k = Ok i.
Proof.
  cbv zeta. unfold has_operation, get_operation. destruct (assoc key_eqb k _) as [i|]; split; try discriminate; [eauto|reflexivity|].
  intros [i H]. discriminate H.
Qed.
Print Assumptions C34_has.

(** C34.  The references and the expressions which each class takes, by groups which are connected together *)
Inductive takes : kind -> list nat -> nat -> Prop :=
| takes_operation : takes KOperation [] 0 | takes_point : takes KPoint [] 0
| takes_single : takes KSingle [] 2                 (* x, y *)
| takes_along : takes KAlong [2] 1                  (* two points, a length *)
| takes_end : takes KEnd [1] 2                      (* a point, a length, an angle *)
| takes_intersect : takes KIntersect [4] 0          (* the ends of two lines *)
| takes_normal : takes KNormal [2] 2                (* two points, a length, an angle *)
| takes_contact : takes KContact [2; 1] 1           (* two points, a centre, a radius *)
| takes_intersection : takes KIntersection [2] 0
| takes_line : takes KLine [2] 0
| takes_spline : takes KSpline [2] 4.               (* two points, two angles, two lengths *)
Lemma same_nats_spec l : forall m, same_nats l m = true <-> l = m.
Proof.
  induction l as [|a l IH]; intros [|b m]; cbn [same_nats]; split; try discriminate; try reflexivity.
  - intros H. apply andb_prop in H. destruct H as [A B]. apply Nat.eqb_eq in A. apply IH in B. congruence.
  - intros H. injection H as -> ->. rewrite Nat.eqb_refl. apply IH. reflexivity.
Qed.
(** Another number of arguments is a TypeError which changes nothing. *)
Theorem C34_arguments a id s : ~ takes (a_kind a) (map (@length _) (a_groups a)) (length (a_exprs a)) -> add_op a id s = (Raise TypeError, s).
Proof.
  intros N. unfold add_op. destruct (well_formed a) eqn:W; [|reflexivity]. exfalso. apply N. unfold well_formed in W. apply andb_prop in W. destruct W as [A B].
  apply same_nats_spec in A. apply Nat.eqb_eq in B. rewrite A, B. destruct (a_kind a); constructor.
Qed.
Print Assumptions C34_arguments.
(** The right number is not refused for it: without references the operation is made. *)
Theorem C34_arguments_taken a s : takes (a_kind a) (map (@length _) (a_groups a)) (length (a_exprs a)) -> a_groups a = [] ->
  forall n g, ModelGraph.add_node (dag s) (Z.of_nat (length (ModelGraph.g_heap (dag s)))) = Ok (n, g) -> fst (add_op a None s) = Ok (length (ops s)).
Proof.
  intros T G n g E. unfold add_op. assert (W : well_formed a = true).
  { unfold well_formed. apply andb_true_intro. split; [apply same_nats_spec|apply Nat.eqb_eq]; inversion T; cbn [signature fst snd]; congruence || auto. }
  rewrite W. cbn [negb]. unfold ModelCounter.new_object, ModelCounter.counter_increment. cbn [Z.ltb Z.compare]. cbn [set_counter dag]. rewrite E, G. reflexivity.
Qed.
Print Assumptions C34_arguments_taken.

(** C32.  The functions of two points: an unknown name is a KeyError, also for the lengths of arcs and curves which are not implemented;
    before the evaluation of the points the difference fails. *)
Theorem C32_unknown_point s f n1 n2 : f <> FCurrentLength -> (assoc String.eqb n1 (points s) = None -> evaluate s (ECall f [n1; n2]) = Raise KeyError) /\
  (forall p, point_vector s n1 = Ok p -> assoc String.eqb n2 (points s) = None -> evaluate s (ECall f [n1; n2]) = Raise KeyError).
Proof.
  intros F. split.
  - intros A. cbn [evaluate]. unfold call, point_vector. rewrite A. destruct f; try reflexivity. congruence.
  - intros p P A. cbn [evaluate]. unfold call. rewrite P. cbn [bind]. unfold point_vector. rewrite A. destruct f; try reflexivity. congruence.
Qed.
Print Assumptions C32_unknown_point.
Theorem C32_too_early s n1 n2 p1 p2 : point_vector s n1 = Ok p1 -> point_vector s n2 = Ok p2 -> p1 = None \/ p2 = None ->
  evaluate s (ECall FLine [n1; n2]) = Raise (match p2 with None => TypeError | Some _ => AttributeError end).
Proof. intros A B N. cbn [evaluate]. unfold call. rewrite A, B. cbn [bind]. destruct p2; destruct N as [-> | N]; try reflexivity; discriminate N. Qed.
Print Assumptions C32_too_early.

(** C33.  An expression with a name which is not known has no value; where a number is asked for this is a TypeError. *)
Theorem C33_no_value i j s o x : nth_error (ops s) i = Some o -> nth_error (o_exprs o) j = Some x -> x_value x = None -> x_error x = true ->
  value i j s = (Ok None, s) /\ number i j s = (Raise TypeError, s).
Proof.
  intros A B C D. assert (V : value i j s = (Ok None, s)).
  { unfold value, then_, the_expr. rewrite A, B, C, D. reflexivity. }
  split; [exact V|]. unfold number, then_. rewrite V. reflexivity.
Qed.
Print Assumptions C33_no_value.
(** C32.  The names of the points of a formula are looked up when it is compiled. *)
Theorem C32_unknown_compiled s e : forall l n, In n l -> assoc String.eqb n (points s) = None -> visit_expr s (EAdd (ECall FLine l) e) = Raise KeyError.
Proof.
  intros l n I A. cbn [visit_expr]. assert (T : traverse (name_to_point s) l = Raise KeyError); [|rewrite T; reflexivity].
  induction l as [|m l IH]; [contradiction|]. cbn [traverse]. unfold name_to_point at 1. destruct (assoc String.eqb m (points s)) as [k|] eqn:E; [|reflexivity].
  cbn [bind]. destruct I as [->|I]; [congruence|]. rewrite IH by exact I. reflexivity.
Qed.
Print Assumptions C32_unknown_compiled.
