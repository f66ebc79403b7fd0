(** Evaluating a sketch, and histories. *)
From Coq Require Import String Reals List ZArith Bool Lia Permutation.
From Verif Require Import Base ModelVector ModelGraph SpecGraph GlueGraph ProofGraph ModelCounter ModelSketch SpecSketch GlueSketch ProofSketch ProofSketch2 ProofSketch3.
Import ListNotations.
Local Open Scope nat_scope.

Definition around (i : nat) (s s' : sketch) : Prop :=
  counter s' = counter s /\ op_dict s' = op_dict s /\ cache s' = cache s /\ sigs s' = sigs s /\
  (forall k, k <> i -> nth_error (ops s') k = nth_error (ops s) k).
Lemma frame_around i s s' : frame i s s' -> around i s s'.
Proof. intros (A & B & _ & _ & C & D & E). repeat split; assumption. Qed.
Lemma around_trans i a b c : around i a b -> around i b c -> around i a c.
Proof.
  intros (A1 & A2 & A3 & A4 & A5) (B1 & B2 & B3 & B4 & B5). repeat split; try congruence.
  intros k K. rewrite (B5 k K). exact (A5 k K).
Qed.
Lemma around_refl i s : around i s s.
Proof. repeat split. Qed.

(** All the expressions are compiled and their points are among the dependencies. *)
Definition recorded (o : op) : Prop :=
  forall x, In x (o_exprs o) -> exists d, x_dependencies x = Some d /\ incl d (o_dependencies o).

(** The first part of [eval_op]: the evaluation of the point or of the spline *)
Definition eval_point (i : nat) (o : op) : action unit :=
  if is_point (o_kind o) then
    then_ (modify (fun s => set_points ((o_name o, i) :: points s) s)) (fun _ => then_ (named_refs o) (fun _ => eval_internal i o))
  else match o_kind o with
       | KSpline => then_ (named_refs o) (fun _ => eval_internal i o)
       | _ => returns (Ok tt)
       end.
Lemma eval_op_eq i s o : nth_error (ops s) i = Some o ->
  eval_op i s = then_ (eval_point i o) (fun _ => then_ (the_op i) (fun o => connect_expressions i (o_exprs o))) s.
Proof. intro H. unfold eval_op. unfold then_ at 1, the_op at 1. rewrite H. reflexivity. Qed.

Lemma points_invariant s i o : invariant s -> nth_error (ops s) i = Some o -> is_point (o_kind o) = true ->
  (forall k p, k < i -> nth_error (ops s) k = Some p -> compiled p) ->
  invariant (set_points ((o_name o, i) :: points s) s).
Proof.
  intros [St Dy] Ho K C. split; [exact (statics_sig s (set_points ((o_name o, i) :: points s) s) eq_refl eq_refl eq_refl St)|].
  constructor; try (destruct Dy; assumption).
  intros n j [E|J]; [|exact (dy_points _ Dy n j J)]. injection E as <- <-. split; [exists o; auto|exact C].
Qed.

Lemma eval_point_ok i s o : invariant s -> nth_error (ops s) i = Some o ->
  (forall k p, k < i -> nth_error (ops s) k = Some p -> compiled p) ->
  invariant (snd (eval_point i o s)) /\ around i s (snd (eval_point i o s)).
Proof.
  intros I Ho C. unfold eval_point. destruct (is_point (o_kind o)) eqn:K.
  - set (s1 := set_points ((o_name o, i) :: points s) s).
    pose proof (points_invariant s i o I Ho K C) as I1. fold s1 in I1.
    assert (A : keeps (safe i) (then_ (named_refs o) (fun _ => eval_internal i o))).
    { apply keeps_then; [apply safe_order|apply safe_named|intro; apply safe_internal]. }
    destruct (A s1) as [A1 A2]. change (snd (then_ (modify (fun s => set_points ((o_name o, i) :: points s) s))
      (fun _ => then_ (named_refs o) (fun _ => eval_internal i o)) s)) with (snd (then_ (named_refs o) (fun _ => eval_internal i o) s1)).
    split; [exact (A1 I1)|]. apply frame_around in A2. apply (around_trans i s s1); [|exact A2]. repeat split.
  - assert (A : forall m : action unit, keeps (safe i) m -> invariant (snd (m s)) /\ around i s (snd (m s))).
    { intros m M. destruct (M s) as [M1 M2]. split; [exact (M1 I)|exact (frame_around _ _ _ M2)]. }
    destruct (o_kind o); apply A; try apply keeps_returns, safe_order.
    apply keeps_then; [apply safe_order|apply safe_named|intro; apply safe_internal].
Qed.

Lemma eval_op_ok i s : invariant s -> i < length (ops s) ->
  (forall k p, k < i -> nth_error (ops s) k = Some p -> compiled p) ->
  invariant (snd (eval_op i s)) /\ around i s (snd (eval_op i s)) /\
  (fst (eval_op i s) = Ok tt -> exists o, nth_error (ops (snd (eval_op i s))) i = Some o /\ recorded o).
Proof.
  intros I Li C. destruct (nth_error (ops s) i) as [o|] eqn:Ho; [|apply nth_error_None in Ho; lia].
  rewrite (eval_op_eq i s o Ho). destruct (eval_point_ok i s o I Ho C) as [I1 A1]. unfold then_.
  destruct (eval_point i o s) as [[[]|e] s1]; cbn [snd] in I1, A1; [|cbn; split; [exact I1|split; [exact A1|discriminate]]].
  destruct A1 as (B1 & B2 & B3 & B4 & B5). destruct (sig_nth s s1 i o B4 Ho) as (o1 & Ho1 & _).
  unfold the_op. rewrite Ho1.
  destruct (connect_expressions_ok i (o_exprs o1) s1 o1 I1 Ho1 (incl_refl _))
    as (D1 & D2 & D3 & D4 & D5 & D6 & D7 & D8 & (m & D9) & D10).
  split; [exact D1|]. split.
  - apply (around_trans i s s1); [repeat split; assumption|]. repeat split; assumption.
  - intro F. destruct (D10 F) as (E1 & o' & E2 & E3 & E4). exists o'. split; [exact E2|].
    intros x X. rewrite D9 in E2. injection E2 as <-. cbn in X. specialize (E1 x X). specialize (E4 x).
    destruct (x_dependencies x) as [d|]; [|congruence]. exists d. split; [reflexivity|]. exact (E4 d X eq_refl).
Qed.

Lemma recorded_compiled o : recorded o -> compiled o.
Proof. intros H x X E. destruct (H x X) as (d & D & _). congruence. Qed.

Lemma eval_ops_ok n : forall i s, invariant s -> i + n <= length (ops s) ->
  (forall k p, k < i -> nth_error (ops s) k = Some p -> recorded p) ->
  let r := eval_ops (seq i n) s in
  invariant (snd r) /\ counter (snd r) = counter s /\ op_dict (snd r) = op_dict s /\ cache (snd r) = cache s /\
  sigs (snd r) = sigs s /\
  (fst r = Ok tt -> forall k p, k < i + n -> nth_error (ops (snd r)) k = Some p -> recorded p).
Proof.
  induction n as [|n IH]; intros i s I L C; cbn zeta.
  - cbn. do 5 (split; [first [assumption|reflexivity]|]). intros _ k p K P. apply (C k p); [lia|exact P].
  - cbn [seq eval_ops]. destruct (eval_op_ok i s I) as (A1 & (A2 & A3 & A4 & A5 & A6) & A7); [lia|intros k p K P; exact (recorded_compiled p (C k p K P))|].
    unfold then_. destruct (eval_op i s) as [[[]|e] s1]; cbn [fst snd] in *.
    + destruct (A7 eq_refl) as (o & O & Ro).
      destruct (IH (S i) s1 A1) as (B1 & B2 & B3 & B4 & B5 & B6).
      * rewrite (sig_length s s1 A5). lia.
      * intros k p K P. destruct (Nat.eq_dec k i) as [->|N]; [replace p with o by congruence; exact Ro|]. rewrite (A6 k N) in P. apply (C k p); [lia|exact P].
      * split; [exact B1|]. split; [congruence|]. split; [congruence|]. split; [congruence|]. split; [congruence|].
        intros F k p K P. apply (B6 F k p); [lia|exact P].
    + do 5 (split; [assumption|]). discriminate.
Qed.

Lemma new_sketch_invariant c m : invariant (new_sketch c m).
Proof.
  split; constructor; cbn; try (intros; match goal with H : nth_error [] ?i = _ |- _ => destruct i; discriminate end).
  - intros k i H. discriminate.
  - exists a_empty. split; [exact represents_empty|]. split; [reflexivity|]. split.
    + intros x y [].
    + intros i o j p H. destruct i; discriminate.
  - intros n j [].
Qed.

Lemma happen_invariant e s : invariant s -> invariant (happen e s).
Proof.
  intro I. destruct e as [a id|id| |i j|i j|k]; cbn [happen].
  - exact (proj1 (add_op_ok a id s I)).
  - apply counter_invariant; [exact (proj1 (new_object_ge (counter s) id))|exact I].
  - apply (eval_ops_ok (length (ops s)) 0 s I); [lia|]. intros; lia.
  - exact (value_invariant s i j I).
  - exact (dirty_invariant s i j I).
  - exact I.
Qed.
Lemma history_invariant l s : invariant s -> invariant (history l s).
Proof. revert s. induction l as [|e l IH]; intros s I; [exact I|]. apply IH, happen_invariant, I. Qed.

(** ** C31 *)
Lemma walk_le (E : nat -> nat -> Prop) : (forall x y, E x y -> x <= y) -> forall x y k, walk E x y k -> x <= y.
Proof. intros H x y k W. induction W; [lia|]. apply H in H0. lia. Qed.
Lemma walk_lt (E : nat -> nat -> Prop) : (forall x y, E x y -> x < y) -> forall x y k, walk E x y k -> x + k <= y.
Proof. intros H x y k W. induction W; [lia|]. apply H in H0. lia. Qed.

Lemma edges_ordered l c m : let s := history l (new_sketch c m) in
  exists a, represents (dag s) a /\
    (forall x y, a_edge a x y -> x < y \/ (x = y /\ selfish s x)) /\
    (forall i j o p, nth_error (ops s) i = Some o -> nth_error (ops s) j = Some p ->
       a_edge a (o_node o) (o_node p) -> i < j \/ (i = j /\ selfish s (o_node o))).
Proof.
  cbn zeta. pose proof (history_invariant l _ (new_sketch_invariant c m)) as I.
  set (s := history l (new_sketch c m)) in *. destruct (dy_graph _ (proj2 I)) as (a & R & _ & Ea & Eb).
  exists a. split; [exact R|]. split; [exact Ea|]. intros i j o p O P X.
  destruct (Nat.lt_trichotomy i j) as [L|[->|L]]; [auto|right|].
  - assert (p = o) by congruence. subst p. split; [reflexivity|]. destruct (Ea _ _ X) as [L|[_ Q]]; [lia|exact Q].
  - pose proof (st_nodes _ (proj1 I) j i p o L P O). destruct (Ea _ _ X) as [L'|[L' _]]; lia.
Qed.

Definition modest_op (o : op) : Prop :=
  is_point (o_kind o) = true -> forall e, In e (map x_source (o_exprs o)) -> ~ measures_with e (o_name o).
Lemma modest_sig s s' : sigs s' = sigs s -> (forall i o, nth_error (ops s) i = Some o -> modest_op o) ->
  (forall i o, nth_error (ops s') i = Some o -> modest_op o).
Proof.
  intros E H i o O. destruct (sig_nth s' s i o (eq_sym E) O) as (o' & O' & F). specialize (H i o' O').
  destruct (psig_fields _ _ F) as (F1 & _ & F3 & _ & _ & F6). unfold modest_op in *. rewrite <- F1, <- F3, <- F6. exact H.
Qed.
Lemma value_sigs s i j : sigs (snd (value i j s)) = sigs s.
Proof. destruct (safe_value i j s) as [_ (_ & _ & _ & _ & _ & F & _)]. exact F. Qed.
Lemma dirty_sigs s i j : sigs (snd (set_dirty i j s)) = sigs s.
Proof.
  destruct (has_expr s i j) as [(o & x & Ho & Hx)|N].
  - unfold set_dirty, then_, the_expr. rewrite Ho, Hx, (put_expr_eq s i j o _ Ho). cbn [snd].
    assert (F : frame i s (with_expr s i j o (Expr (x_source x) (x_dependencies x) None false)))
      by (apply (with_expr_frame s i j o x _ Ho Hx); reflexivity). apply F.
  - unfold set_dirty, then_, the_expr. destruct (nth_error (ops s) i) as [o|] eqn:O; [|reflexivity].
    destruct (nth_error (o_exprs o) j) as [x|] eqn:X; [destruct (N o x eq_refl X)|reflexivity].
Qed.
Lemma happen_sigs e s : invariant s -> match e with Add _ _ => True | _ => sigs (happen e s) = sigs s end.
Proof.
  intro I. destruct e as [a id|id| |i j|i j|k]; try exact Logic.I; try reflexivity.
  - destruct (eval_ops_ok (length (ops s)) 0 s I) as (_ & _ & _ & _ & E & _); [lia|intros; lia|]. exact E.
  - exact (value_sigs s i j).
  - exact (dirty_sigs s i j).
Qed.
Lemma history_modest l : forall s, invariant s -> Forall modest_event l ->
  (forall i o, nth_error (ops s) i = Some o -> modest_op o) ->
  (forall i o, nth_error (ops (history l s)) i = Some o -> modest_op o).
Proof.
  induction l as [|e l IH]; intros s I F H; [exact H|]. inversion F as [|? ? F1 F2]; subst.
  apply (IH (happen e s) (happen_invariant e s I) F2). pose proof (happen_sigs e s I) as E.
  destruct e as [a id|id| |i j|i j|k]; try exact (modest_sig s _ E H). clear E. cbn [happen].
  destruct (add_op_ok a id s I) as (_ & Q1 & Q2 & _). destruct (fst (add_op a id s)) as [n|e] eqn:R.
  - destruct (Q2 n eq_refl) as (_ & o & Eo & K & N & X & _). rewrite Eo. intros i p P.
    destruct (nth_snoc _ _ _ _ P) as [[L P']|[-> ->]]; [exact (H i p P')|]. unfold modest_op. rewrite K, N, X. exact F1.
  - destruct (Q1 e eq_refl) as [-> _]. exact H.
Qed.

Lemma no_cycle l c m : Forall modest_event l -> let s := history l (new_sketch c m) in
  exists a, represents (dag s) a /\ (forall x, ~ on_cycle (a_edge a) x) /\
    (forall i j o p, nth_error (ops s) i = Some o -> nth_error (ops s) j = Some p ->
       a_edge a (o_node o) (o_node p) -> i < j).
Proof.
  intros F. cbn zeta. destruct (edges_ordered l c m) as (a & R & E1 & E2). exists a. split; [exact R|].
  assert (M : forall x, ~ selfish (history l (new_sketch c m)) x).
  { intros x (i & o & e & O & _ & K & X & S0).
    refine (history_modest l _ (new_sketch_invariant c m) F _ i o O K (x_source e) (in_map _ _ _ X) S0).
    intros k p P. destruct k; discriminate. }
  split.
  - intros x (k & W). pose proof (walk_lt (a_edge a)) as L. specialize (L (fun u v H =>
      match E1 u v H with or_introl l0 => l0 | or_intror (conj _ Q) => match M u Q with end end) x x (S k) W). lia.
  - intros i j o p O P X. destruct (E2 i j o p O P X) as [L|[_ Q]]; [exact L|destruct (M _ Q)].
Qed.

(** Without any condition, a cycle is a loop on one operation which measures itself. *)
Lemma only_loops l c m : let s := history l (new_sketch c m) in
  exists a, represents (dag s) a /\ (forall x, on_cycle (a_edge a) x -> selfish s x) /\
    (forall i j o p, nth_error (ops s) i = Some o -> nth_error (ops s) j = Some p ->
       a_edge a (o_node o) (o_node p) -> i <= j).
Proof.
  cbn zeta. destruct (edges_ordered l c m) as (a & R & E1 & E2). exists a. split; [exact R|]. split.
  - intros x (k & W). inversion W as [|? y ? ? W1 W2]; subst.
    pose proof (walk_le (a_edge a) (fun u v H => match E1 u v H with or_introl l0 => Nat.lt_le_incl _ _ l0
       | or_intror (conj q _) => eq_ind u (fun w => u <= w) (le_n u) v q end) x y k W1) as L.
    destruct (E1 y x W2) as [L'|[-> Q]]; [lia|exact Q].
  - intros i j o p O P X. destruct (E2 i j o p O P X) as [L|[-> _]]; lia.
Qed.

(** ** C32 *)
Lemma eval_recorded s : invariant s -> fst (eval_sketch s) = Ok tt ->
  forall i o, nth_error (ops (snd (eval_sketch s))) i = Some o -> recorded o.
Proof.
  intros I F i o O. destruct (eval_ops_ok (length (ops s)) 0 s I) as (_ & _ & _ & _ & E & G); [lia|intros; lia|].
  apply (G F i o); [|exact O]. apply nth_lt in O. fold (eval_sketch s) in E. rewrite <- (sig_length s _ E). exact O.
Qed.
Lemma line_points_recorded l c m : let s := history l (new_sketch c m) in let r := eval_sketch s in
  fst r = Ok tt -> exists a, represents (dag (snd r)) a /\
  forall i o e n, nth_error (ops (snd r)) i = Some o -> In e (o_exprs o) -> measures_with (x_source e) n ->
  exists j p, In j (o_dependencies o) /\ nth_error (ops (snd r)) j = Some p /\ is_point (o_kind p) = true /\
    o_name p = n /\ a_edge a (o_node p) (o_node o).
Proof.
  cbn zeta. pose proof (history_invariant l _ (new_sketch_invariant c m)) as I.
  set (s := history l (new_sketch c m)) in *. intro F.
  pose proof (happen_invariant Eval s I) as I1. cbn [happen] in I1. pose proof (eval_recorded s I F) as G.
  set (s1 := snd (eval_sketch s)) in *. destruct (dy_graph _ (proj2 I1)) as (a & R & _ & _ & Eb). exists a.
  split; [exact R|]. intros i o e n O X M. destruct (G i o O e X) as (d & D & Inc).
  pose proof (dy_exprs _ (proj2 I1) i o e O X) as Q. unfold good_expr in Q. rewrite D in Q.
  destruct (proj2 Q n M) as (j & J & (p & P & K & N)). exists j, p. specialize (Inc j J).
  repeat split; try assumption. apply (Eb i o j p O P). exact Inc.
Qed.
(** The recorded dependencies are the edges, and contain the points given to the constructor. *)
Lemma dependencies_are_edges l c m : let s := history l (new_sketch c m) in
  exists a, represents (dag s) a /\
  (forall i o, nth_error (ops s) i = Some o -> incl (o_refs o) (o_dependencies o)) /\
  (forall i o j p, nth_error (ops s) i = Some o -> nth_error (ops s) j = Some p ->
     (In j (o_dependencies o) <-> a_edge a (o_node p) (o_node o))).
Proof.
  cbn zeta. pose proof (history_invariant l _ (new_sketch_invariant c m)) as I.
  destruct (dy_graph _ (proj2 I)) as (a & R & _ & _ & Eb). exists a. split; [exact R|]. split; [|exact Eb].
  exact (dy_refs _ (proj2 I)).
Qed.

(** ** C34 *)
Lemma found l c m : let s := history l (new_sketch c m) in
  (forall i o, nth_error (ops s) i = Some o -> get_operation s (KeyId (o_id o)) = Ok i) /\
  (forall i o, nth_error (ops s) i = Some o -> is_point (o_kind o) = true ->
     (forall j p, i < j -> nth_error (ops s) j = Some p -> is_point (o_kind p) = true -> o_name p <> o_name o) ->
     get_operation s (KeyName (o_name o)) = Ok i) /\
  (forall z, (forall i o, nth_error (ops s) i = Some o -> o_id o <> z) -> get_operation s (KeyId z) = Raise KeyError) /\
  (forall n, (forall i o, nth_error (ops s) i = Some o -> is_point (o_kind o) = true -> o_name o <> n) ->
     get_operation s (KeyName n) = Raise KeyError).
Proof.
  cbn zeta. pose proof (proj1 (history_invariant l _ (new_sketch_invariant c m))) as St. unfold get_operation.
  split; [|split; [|split]].
  - intros i o O. rewrite (st_id _ St i o O). reflexivity.
  - intros i o O K H. rewrite (st_name _ St i o O K); [reflexivity|]. intros j L (p & P & K' & N). exact (H j p L P K' N).
  - intros z H. destruct (assoc key_eqb (KeyId z) _) as [i|] eqn:A; [|reflexivity].
    destruct (st_key _ St _ _ A) as (o & O & E). destruct (H i o O E).
  - intros n H. destruct (assoc key_eqb (KeyName n) _) as [i|] eqn:A; [|reflexivity].
    destruct (st_key _ St _ _ A) as (o & O & K & E). destruct (H i o O K E).
Qed.

(** What is registered stays. *)
Lemma happen_stays e s i o : invariant s -> nth_error (ops s) i = Some o ->
  exists o', nth_error (ops (happen e s)) i = Some o' /\ same_op o o'.
Proof.
  intros I O. pose proof (happen_sigs e s I) as E.
  assert (Q : sigs (happen e s) = sigs s -> exists o', nth_error (ops (happen e s)) i = Some o' /\ same_op o o').
  { intro F. destruct (sig_nth _ _ _ _ F O) as (o' & O' & G). destruct (psig_fields _ _ G) as (G1 & G2 & G3 & _ & G5 & _).
    exists o'. split; [exact O'|]. repeat split; assumption. }
  destruct e as [a id|id| |j k|j k|k]; try exact (Q E). clear E Q. cbn [happen].
  destruct (add_op_ok a id s I) as (_ & Q1 & Q2 & _). destruct (fst (add_op a id s)) as [n|e] eqn:R.
  - destruct (Q2 n eq_refl) as (_ & o1 & Eo & _). rewrite Eo. exists o. split; [exact (nth_old _ _ _ _ O)|repeat split].
  - destruct (Q1 e eq_refl) as [-> _]. exists o. split; [exact O|repeat split].
Qed.
Lemma history_stays l s i o : invariant s -> nth_error (ops s) i = Some o ->
  exists o', nth_error (ops (history l s)) i = Some o' /\ same_op o o'.
Proof.
  revert s o. induction l as [|e l IH]; intros s o I O; [exists o; split; [exact O|repeat split]|].
  destruct (happen_stays e s i o I O) as (o1 & O1 & A). destruct (IH (happen e s) o1 (happen_invariant e s I) O1) as (o2 & O2 & B).
  exists o2. split; [exact O2|]. destruct A as (A1 & A2 & A3 & A4), B as (B1 & B2 & B3 & B4). repeat split; congruence.
Qed.
Lemma added_is_found l l' c m a id i : let s := history l (new_sketch c m) in
  fst (add_op a id s) = Ok i -> let s' := history l' (snd (add_op a id s)) in
  exists o, nth_error (ops s') i = Some o /\ o_kind o = a_kind a /\ o_name o = a_name a /\
    (forall z, id = Some z -> o_id o = z) /\ get_operation s' (KeyId (o_id o)) = Ok i.
Proof.
  cbn zeta. pose proof (history_invariant l _ (new_sketch_invariant c m)) as I. set (s := history l (new_sketch c m)) in *.
  intro F. destruct (add_op_ok a id s I) as (I1 & _ & Q & _). destruct (Q i F) as (-> & o & Eo & K & N & _ & Z0 & _).
  assert (O : nth_error (ops (snd (add_op a id s))) (length (ops s)) = Some o) by (rewrite Eo; apply nth_new).
  destruct (history_stays l' _ _ _ I1 O) as (o' & O' & S1 & S2 & S3 & _). exists o'. split; [exact O'|].
  split; [congruence|]. split; [congruence|]. split; [intros z Hz; rewrite S2; exact (Z0 z Hz)|].
  unfold get_operation. rewrite (st_id _ (proj1 (history_invariant l' _ I1)) _ _ O'). reflexivity.
Qed.
Lemma failed_add l c m a id e : let s := history l (new_sketch c m) in fst (add_op a id s) = Raise e ->
  ops (snd (add_op a id s)) = ops s /\ forall k, get_operation (snd (add_op a id s)) k = get_operation s k.
Proof.
  cbn zeta. pose proof (history_invariant l _ (new_sketch_invariant c m)) as I. intro F.
  destruct (add_op_ok a id _ I) as (_ & Q & _). destruct (Q e F) as [Q1 Q2]. split; [exact Q1|].
  intro k. unfold get_operation. rewrite Q2. reflexivity.
Qed.
(** An unknown reference is refused. *)
Lemma unknown_refused l c m a id r q : let s := history l (new_sketch c m) in
  In q (a_groups a) -> In r q ->
  match r with
  | RId z => get_operation s (KeyId z) = Raise KeyError
  | RName n => get_operation s (KeyName n) = Raise KeyError
  | ROp i => length (ops s) <= i
  | RForeign => True
  end -> exists e, fst (add_op a id s) = Raise e.
Proof.
  cbn zeta. set (s := history l (new_sketch c m)). intros Hq Hr H.
  assert (U : forall s', ops s' = ops s -> op_dict s' = op_dict s -> exists e, fst (resolve r s') = Raise e).
  { intros s' E1 E2. unfold resolve, get_operation in *. destruct r; cbn [fst] in *.
    - rewrite E1. destruct (Nat.ltb_spec i (length (ops s))); [lia|]. eexists; reflexivity.
    - rewrite E2, H. eauto.
    - rewrite E2, H. eauto.
    - eauto. }
  assert (V0 : forall s', ops s' = ops s -> op_dict s' = op_dict s -> exists e, fst (resolve_all q s') = Raise e).
  { intros s' E1 E2. specialize (U s' E1 E2). clear Hq H. induction q as [|x q IH]; [destruct Hr|].
    cbn [resolve_all]. unfold then_. destruct Hr as [->|Hr].
    - destruct U as (e & U). destruct (resolve r s') as [[i|e'] s1]; [discriminate U|cbn; eauto].
    - pose proof (resolve_state x s') as Q. destruct (resolve x s') as [[i|e'] s1]; [|cbn; eauto]. cbn in Q. subst s1.
      destruct (IH Hr) as (e & W). destruct (resolve_all q s') as [[t|e'] s1]; [discriminate W|cbn; eauto]. }
  assert (C : forall n t s', exists g, snd (connect_all n t s') = set_dag g s').
  { intros n t. induction t as [|i t IH]; intros s'; cbn [connect_all].
    - exists (dag s'). destruct s'; reflexivity.
    - destruct (nth_error (ops s') i); [|exists (dag s'); destruct s'; reflexivity].
      destruct (connect_ancestor (dag s') n (o_node o)) as [g|e]; [|exists (dag s'); destruct s'; reflexivity].
      destruct (IH (set_dag g s')) as (g' & ->). exists g'. destruct s'; reflexivity. }
  assert (W : forall n gs s', In q gs -> ops s' = ops s -> op_dict s' = op_dict s -> exists e, fst (resolve_groups n gs s') = Raise e).
  { intros n gs. induction gs as [|x gs IH]; intros s' [] E1 E2; cbn [resolve_groups]; unfold then_.
    - subst x. destruct (V0 s' E1 E2) as (e & V1). destruct (resolve_all q s') as [[t|e'] s1]; [discriminate V1|cbn; eauto].
    - pose proof (resolve_all_state x s') as Q. destruct (resolve_all x s') as [[t|e'] s1]; [|cbn; eauto]. cbn in Q. subst s1.
      destruct (C n t s') as (g & Cg). destruct (connect_all n t s') as [[u|e'] s1]; [|cbn; eauto]. cbn in Cg. subst s1.
      destruct (IH (set_dag g s') H0 E1 E2) as (e & W). destruct (resolve_groups n gs (set_dag g s')) as [[v|e'] s1]; [discriminate W|cbn; eauto]. }
  unfold add_op. destruct (negb (well_formed a)); [cbn; eauto|]. destruct (new_object (counter s) id) as [[z|e] cc]; [|cbn; eauto].
  destruct (add_node _ _) as [[n g]|e]; [|cbn; eauto]. unfold then_.
  destruct (W n (a_groups a) (set_dag g (set_counter cc s)) Hq eq_refl eq_refl) as (e & W1).
  destruct (resolve_groups n (a_groups a) (set_dag g (set_counter cc s))) as [[v|e'] s1]; [discriminate W1|cbn; eauto].
Qed.
