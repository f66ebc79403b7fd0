(** Two sketches with the same operations are evaluated alike. *)
From Coq Require Import String Reals List ZArith Bool Lia.
From Verif Require Import Base ModelVector ModelGraph ModelCounter ModelSketch SpecSketch GlueSketch ProofSketch ProofSketch2 ProofSketch3 ProofSketch4 ProofSketch5 ProofSketch8.
Import ListNotations.
Local Open Scope nat_scope.

(** What the evaluation reads *)
Definition face (o : op) :=
  (o_kind o, if is_point (o_kind o) then Some (o_name o) else None, o_refs o, o_exprs o, o_vector o, o_controls o).
Definition twin (s s' : sketch) : Prop :=
  map face (ops s) = map face (ops s') /\ points s = points s' /\ segment s = segment s' /\ cache s = cache s'.
Lemma twin_refl s : twin s s.
Proof. repeat split. Qed.
Lemma twin_sym s s' : twin s s' -> twin s' s.
Proof. intros (A & B & C & D). repeat split; congruence. Qed.
Lemma twin_vectors s s' : twin s s' -> same_vectors s s'.
Proof.
  intros (A & B & C & D). repeat split; try congruence.
  apply (f_equal (map (fun q => snd (fst q)))) in A. rewrite !map_map in A. symmetry. exact A.
Qed.
Lemma face_fields o o' : face o = face o' -> o_kind o = o_kind o' /\ (is_point (o_kind o) = true -> o_name o = o_name o') /\
  o_refs o = o_refs o' /\ o_exprs o = o_exprs o' /\ o_vector o = o_vector o' /\ o_controls o = o_controls o'.
Proof.
  unfold face. intros H. injection H as A B C D E F. repeat split; try assumption. intros K. rewrite <- A, K in B. congruence.
Qed.
Lemma twin_nth s s' i o : twin s s' -> nth_error (ops s) i = Some o -> exists o', nth_error (ops s') i = Some o' /\ face o = face o'.
Proof.
  intros (A & _) H. apply (nth_map face) in H. rewrite A in H. destruct (nth_map_inv _ _ _ _ H) as (o' & E & F). exists o'. auto.
Qed.
Lemma twin_none s s' i : twin s s' -> nth_error (ops s) i = None -> nth_error (ops s') i = None.
Proof.
  intros T H. destruct (nth_error (ops s') i) as [o'|] eqn:E; [|reflexivity].
  destruct (twin_nth s' s i o' (twin_sym _ _ T) E) as (o & F & _). congruence.
Qed.

(** Two actions which do the same *)
Definition sim {A B} (P : A -> B -> Prop) (m : action A) (m' : action B) : Prop := forall s s', twin s s' ->
  twin (snd (m s)) (snd (m' s')) /\
  match fst (m s), fst (m' s') with
  | Ok a, Ok b => P a b
  | Raise e, Raise e' => e = e'
  | _, _ => False
  end.
Lemma sim_then {A A' B B'} (P : A -> A' -> Prop) (Q : B -> B' -> Prop) m m' k k' :
  sim P m m' -> (forall a a', P a a' -> sim Q (k a) (k' a')) -> sim Q (then_ m k) (then_ m' k').
Proof.
  intros M K s s' T. destruct (M s s' T) as [T1 R]. unfold then_.
  destruct (m s) as [[a|e] s1], (m' s') as [[a'|e'] s1']; cbn in T1, R; try contradiction.
  - exact (K a a' R s1 s1' T1).
  - split; [exact T1|exact R].
Qed.
Lemma sim_returns {A} (r : result A) : sim eq (returns r) (returns r).
Proof. intros s s' T. split; [exact T|]. cbn. destruct r; reflexivity. Qed.
Lemma sim_look : sim twin look look.
Proof. intros s s' T. split; exact T. Qed.
Lemma sim_segment v : sim eq (modify (set_segment v)) (modify (set_segment v)).
Proof. intros s s' (A & B & C & D). split; [|reflexivity]. repeat split; assumption. Qed.
Definition faces (o o' : op) : Prop := face o = face o'.
Lemma sim_op i : sim faces (the_op i) (the_op i).
Proof.
  intros s s' T. unfold the_op. destruct (nth_error (ops s) i) as [o|] eqn:E.
  - destruct (twin_nth s s' i o T E) as (o' & -> & F). split; [exact T|exact F].
  - rewrite (twin_none s s' i T E). split; [exact T|reflexivity].
Qed.
Lemma sim_put i f : (forall o o', face o = face o' -> face (f o) = face (f o')) -> sim eq (put_op i f) (put_op i f).
Proof.
  intros Hf s s' T. unfold put_op, modify. cbn [fst snd]. split; [|reflexivity].
  destruct (nth_error (ops s) i) as [o|] eqn:E.
  - destruct (twin_nth s s' i o T E) as (o' & -> & F). destruct T as (A & B & C & D). repeat split; try assumption.
    cbn. rewrite !map_update, A, (Hf o o' F). reflexivity.
  - rewrite (twin_none s s' i T E). exact T.
Qed.
Lemma sim_the_expr i j : sim eq (the_expr i j) (the_expr i j).
Proof.
  intros s s' T. unfold the_expr. destruct (nth_error (ops s) i) as [o|] eqn:E.
  - destruct (twin_nth s s' i o T E) as (o' & -> & F). destruct (face_fields o o' F) as (_ & _ & _ & -> & _).
    destruct (nth_error (o_exprs o') j); (split; [exact T|reflexivity]).
  - rewrite (twin_none s s' i T E). split; [exact T|reflexivity].
Qed.
Ltac face_tac := intros o o' F; destruct (face_fields o o' F) as (F1 & F2 & F3 & F4 & F5 & F6); rewrite F1 in F2; unfold face; cbn; rewrite ?F1, ?F3, ?F4, ?F5, ?F6;
  destruct (is_point (o_kind o')); [rewrite F2 by reflexivity|]; reflexivity.
Lemma sim_put_expr i j x : sim eq (put_expr i j x) (put_expr i j x).
Proof. apply sim_put. face_tac. Qed.
Lemma sim_vector i v : sim eq (put_op i (set_vector v)) (put_op i (set_vector v)).
Proof. apply sim_put. face_tac. Qed.
Lemma sim_controls i v : sim eq (put_op i (set_controls v)) (put_op i (set_controls v)).
Proof. apply sim_put. face_tac. Qed.
Lemma visit_twin s s' e : twin s s' -> visit_expr s e = visit_expr s' e.
Proof.
  intros (_ & B & _). induction e; cbn [visit_expr]; rewrite ?IHe, ?IHe1, ?IHe2; try reflexivity.
  destruct f; try reflexivity. induction args as [|a l IH]; [reflexivity|]. cbn [traverse]. rewrite IH. unfold name_to_point. rewrite B. reflexivity.
Qed.
Lemma sim_value i j : sim eq (value i j) (value i j).
Proof.
  unfold value. apply (sim_then eq); [apply sim_the_expr|]. intros x _ <-.
  destruct (x_value x) as [v|]; [apply sim_returns|]. destruct (x_error x); [apply sim_returns|].
  apply (sim_then eq).
  - destruct (x_dependencies x); [apply sim_returns|]. apply (sim_then twin); [apply sim_look|]. intros s s' T.
    rewrite (visit_twin s s' _ T). apply (sim_then eq); [apply sim_returns|]. intros d _ <-. apply sim_put_expr.
  - intros _ _ _. apply (sim_then eq); [apply sim_the_expr|]. intros y _ <-. apply (sim_then twin); [apply sim_look|]. intros s s' T.
    rewrite (evaluate_same s s' _ (twin_vectors s s' T)). destruct (evaluate s (x_source y)) as [v|[]]; try apply sim_returns;
      (apply (sim_then eq); [apply sim_put_expr|]; intros _ _ _; apply sim_returns).
Qed.
Lemma sim_number i j : sim eq (number i j) (number i j).
Proof. apply (sim_then eq); [apply sim_value|]. intros v _ <-. apply sim_returns. Qed.
Lemma sim_ref o o' k : o_refs o = o_refs o' -> sim eq (ref_vector o k) (ref_vector o' k).
Proof.
  intros R s s' T. unfold ref_vector. rewrite R. destruct (nth_error (o_refs o') k) as [i|]; [|split; [exact T|reflexivity]].
  destruct (nth_error (ops s) i) as [p|] eqn:E.
  - destruct (twin_nth s s' i p T E) as (p' & -> & F). destruct (face_fields p p' F) as (-> & _ & _ & _ & -> & _).
    destruct (is_point (o_kind p')); (split; [exact T|reflexivity]).
  - rewrite (twin_none s s' i T E). split; [exact T|reflexivity].
Qed.
Lemma sim_named o o' : o_refs o = o_refs o' -> sim eq (named_refs o) (named_refs o').
Proof.
  intros R s s' T. unfold named_refs. rewrite R.
  assert (G : forall l, forallb (fun i => match nth_error (ops s) i with Some p => is_point (o_kind p) | None => false end) l =
                        forallb (fun i => match nth_error (ops s') i with Some p => is_point (o_kind p) | None => false end) l).
  { induction l as [|i l IH]; [reflexivity|]. cbn [forallb]. rewrite IH. f_equal. destruct (nth_error (ops s) i) as [p|] eqn:E.
    - destruct (twin_nth s s' i p T E) as (p' & -> & F). destruct (face_fields p p' F) as (-> & _). reflexivity.
    - rewrite (twin_none s s' i T E). reflexivity. }
  rewrite G. destruct (forallb _ _); (split; [exact T|reflexivity]).
Qed.
Ltac sim_tac R :=
  repeat match goal with
  | |- sim _ (then_ (value _ _) _) _ => apply (sim_then eq); [apply sim_value|intros ? ? <-]
  | |- sim _ (then_ (number _ _) _) _ => apply (sim_then eq); [apply sim_number|intros ? ? <-]
  | |- sim _ (then_ (ref_vector _ _) _) _ => apply (sim_then eq); [apply (sim_ref _ _ _ R)|intros ? ? <-]
  | |- sim _ (then_ (returns _) _) _ => apply (sim_then eq); [apply sim_returns|intros ? ? <-]
  | |- sim _ (then_ (modify (set_segment _)) _) _ => apply (sim_then eq); [apply sim_segment|intros ? ? <-]
  | |- sim _ (then_ (put_op _ _) _) _ => apply (sim_then eq); [apply sim_vector|intros ? ? <-]
  | |- sim _ (returns _) _ => apply sim_returns
  | |- sim _ (modify (set_segment _)) _ => apply sim_segment
  | |- sim _ (put_op _ _) _ => apply sim_vector || apply sim_controls
  | |- sim _ (match ?x with _ => _ end) _ => destruct x
  end.
Lemma sim_internal i o o' : face o = face o' -> sim eq (eval_internal i o) (eval_internal i o').
Proof.
  intros F. destruct (face_fields o o' F) as (K & _ & R & _). unfold eval_internal. rewrite <- K. destruct (o_kind o); cbn zeta; sim_tac R.
Qed.
Lemma sim_point i o o' : face o = face o' -> sim eq (eval_point i o) (eval_point i o').
Proof.
  intros F. destruct (face_fields o o' F) as (K & N & R & _). unfold eval_point. rewrite <- K. destruct (is_point (o_kind o)) eqn:P.
  - apply (sim_then eq).
    + intros s s' (A & B & C & D). split; [|reflexivity]. repeat split; try assumption. cbn. rewrite N, B; reflexivity.
    + intros _ _ _. apply (sim_then eq); [apply (sim_named _ _ R)|]. intros _ _ _. apply (sim_internal i o o' F).
  - destruct (o_kind o) eqn:Ko; try apply sim_returns. apply (sim_then eq); [apply (sim_named _ _ R)|]. intros _ _ _. apply (sim_internal i o o' F).
Qed.

(** The connections succeed exactly when the expressions are compiled. *)
Definition connectable (l : list expression) : bool := forallb (fun x => match x_dependencies x with Some _ => true | None => false end) l.
Lemma connect_result i : forall l s o, invariant s -> nth_error (ops s) i = Some o -> incl l (o_exprs o) ->
  fst (connect_expressions i l s) = if connectable l then Ok tt else Raise TypeError.
Proof.
  induction l as [|x l IH]; intros s o I Ho Hl; [reflexivity|]. cbn [connectable forallb].
  destruct (x_dependencies x) as [d|] eqn:D; [|cbn [connect_expressions]; rewrite D; reflexivity].
  destruct (connect_deps_invariant s i o x d I Ho (Hl x (or_introl eq_refl)) D) as (g & E & I1). cbn zeta in E, I1.
  set (s1 := set_dag g (set_ops (update i (add_dependencies d o) (ops s)) s)) in *.
  assert (T : connect_expressions i (x :: l) s = connect_expressions i l s1).
  { revert E. cbn [connect_expressions]. rewrite D. unfold then_, the_op. rewrite Ho. destruct (put_op i (add_dependencies d) s) as [[u|e] w]; [|discriminate].
    intros ->. reflexivity. }
  rewrite T. apply (IH s1 (add_dependencies d o) I1); [exact (nth_error_update_eq _ _ _ _ _ Ho)|exact (fun y Y => Hl y (or_intror Y))].
Qed.
Lemma nth_ext_map {A B} (f : A -> B) (l l' : list A) : (forall k, option_map f (nth_error l k) = option_map f (nth_error l' k)) -> map f l = map f l'.
Proof.
  revert l'. induction l as [|a l IH]; intros [|b m] H; [reflexivity|specialize (H 0); discriminate|specialize (H 0); discriminate|].
  cbn. f_equal; [specialize (H 0); cbn in H; congruence|]. apply IH. intros k. exact (H (S k)).
Qed.
Lemma connect_twin i l s o : invariant s -> nth_error (ops s) i = Some o -> incl l (o_exprs o) -> twin (snd (connect_expressions i l s)) s.
Proof.
  intros I Ho Hl. destruct (connect_expressions_ok i l s o I Ho Hl) as (_ & _ & A3 & _ & _ & A6 & A7 & A8 & (m & A9) & _).
  repeat split; try assumption. apply nth_ext_map. intros k. destruct (Nat.eq_dec k i) as [->|N].
  - rewrite A9, Ho. reflexivity.
  - rewrite (A8 k N). reflexivity.
Qed.
Lemma twin_trans a b c : twin a b -> twin b c -> twin a c.
Proof. intros (A1 & A2 & A3 & A4) (B1 & B2 & B3 & B4). repeat split; congruence. Qed.

Lemma op_twin i s s' : twin s s' -> invariant s -> invariant s' -> i < length (ops s) ->
  (forall k p, k < i -> nth_error (ops s) k = Some p -> compiled p) ->
  (forall k p, k < i -> nth_error (ops s') k = Some p -> compiled p) ->
  twin (snd (eval_op i s)) (snd (eval_op i s')) /\ fst (eval_op i s) = fst (eval_op i s').
Proof.
  intros T I I' L C C'. destruct (nth_error (ops s) i) as [o|] eqn:Ho; [|apply nth_error_None in Ho; lia].
  destruct (twin_nth s s' i o T Ho) as (o' & Ho' & F). rewrite (eval_op_eq i s o Ho), (eval_op_eq i s' o' Ho').
  destruct (eval_point_ok i s o I Ho C) as [I1 A1]. destruct (eval_point_ok i s' o' I' Ho' C') as [I1' A1'].
  destruct (sim_point i o o' F s s' T) as [T1 R]. unfold then_.
  destruct (eval_point i o s) as [[[]|e] s1], (eval_point i o' s') as [[[]|e'] s1']; cbn [fst snd] in *; try contradiction.
  2:{ subst. split; [exact T1|reflexivity]. }
  destruct A1 as (_ & _ & _ & B4 & _). destruct (sig_nth s s1 i o B4 Ho) as (o1 & Ho1 & _).
  destruct (twin_nth s1 s1' i o1 T1 Ho1) as (o1' & Ho1' & F1). destruct (face_fields o1 o1' F1) as (_ & _ & _ & X & _).
  unfold the_op. rewrite Ho1, Ho1'. rewrite (connect_result i (o_exprs o1) s1 o1 I1 Ho1 (incl_refl _)).
  rewrite (connect_result i (o_exprs o1') s1' o1' I1' Ho1' (incl_refl _)), X. split; [|reflexivity].
  apply (twin_trans _ s1); [apply (connect_twin i _ s1 o1 I1 Ho1); rewrite X; apply incl_refl|].
  apply (twin_trans _ s1'); [exact T1|]. apply twin_sym, (connect_twin i _ s1' o1' I1' Ho1'), incl_refl.
Qed.
Lemma ops_twin n : forall i s s', twin s s' -> invariant s -> invariant s' -> i + n <= length (ops s) ->
  (forall k p, k < i -> nth_error (ops s) k = Some p -> recorded p) ->
  (forall k p, k < i -> nth_error (ops s') k = Some p -> recorded p) ->
  twin (snd (eval_ops (seq i n) s)) (snd (eval_ops (seq i n) s')) /\ fst (eval_ops (seq i n) s) = fst (eval_ops (seq i n) s').
Proof.
  induction n as [|n IH]; intros i s s' T I I' L C C'; [split; [exact T|reflexivity]|].
  cbn [seq eval_ops]. assert (Le : length (ops s) = length (ops s')) by (destruct T as [E _]; apply (f_equal (@List.length _)) in E; rewrite !map_length in E; exact E).
  destruct (op_twin i s s' T I I') as [T1 R]; [lia|intros k p K P; exact (recorded_compiled p (C k p K P))|intros k p K P; exact (recorded_compiled p (C' k p K P))|].
  destruct (eval_op_ok i s I) as (A1 & (_ & _ & _ & A5 & A6) & A7); [lia|intros k p K P; exact (recorded_compiled p (C k p K P))|].
  destruct (eval_op_ok i s' I') as (A1' & (_ & _ & _ & A5' & A6') & A7'); [lia|intros k p K P; exact (recorded_compiled p (C' k p K P))|].
  unfold then_. destruct (eval_op i s) as [[[]|e] s1], (eval_op i s') as [[[]|e'] s1']; cbn [fst snd] in *; try discriminate.
  2:{ split; [exact T1|exact R]. }
  destruct (A7 eq_refl) as (o & O & Ro). destruct (A7' eq_refl) as (o' & O' & Ro').
  apply (IH (S i) s1 s1' T1 A1 A1').
  - rewrite (sig_length s s1 A5). lia.
  - intros k p K P. destruct (Nat.eq_dec k i) as [->|N]; [replace p with o by congruence; exact Ro|]. rewrite (A6 k N) in P. apply (C k p); [lia|exact P].
  - intros k p K P. destruct (Nat.eq_dec k i) as [->|N]; [replace p with o' by congruence; exact Ro'|]. rewrite (A6' k N) in P. apply (C' k p); [lia|exact P].
Qed.
Theorem eval_twin s s' : twin s s' -> invariant s -> invariant s' ->
  twin (snd (eval_sketch s)) (snd (eval_sketch s')) /\ fst (eval_sketch s) = fst (eval_sketch s').
Proof.
  intros T I I'. unfold eval_sketch.
  assert (Le : length (ops s) = length (ops s')) by (destruct T as [E _]; apply (f_equal (@List.length _)) in E; rewrite !map_length in E; exact E).
  rewrite <- Le. apply (ops_twin _ 0 s s' T I I'); [lia| |]; intros; lia.
Qed.

(** A sketch which was built and never evaluated *)
Definition raw (s : sketch) : Prop :=
  points s = [] /\ segment s = None /\
  forall k p, nth_error (ops s) k = Some p -> o_vector p = None /\ o_controls p = None /\ forall x, In x (o_exprs p) -> x = new_expression (x_source x).
Lemma added_controls a id s i : fst (add_op a id s) = Ok i -> exists o, ops (snd (add_op a id s)) = (ops s ++ [o])%list /\ o_controls o = None.
Proof.
  unfold add_op. destruct (negb (well_formed a)); [discriminate|].
  destruct (new_object (counter s) id) as [[z|e] c]; [|discriminate].
  destruct (add_node _ _) as [[n g]|]; [|discriminate].
  set (s2 := set_dag g (set_counter c s)).
  assert (K : forall l s0, ops (snd (resolve_groups n l s0)) = ops s0).
  { assert (R : forall l s0, ops (snd (resolve_all l s0)) = ops s0) by (intros; rewrite resolve_all_state; reflexivity).
    assert (Q : forall l s0, ops (snd (connect_all n l s0)) = ops s0).
    { induction l as [|j l IH]; intros s0; [reflexivity|]. cbn [connect_all]. destruct (nth_error (ops s0) j); [|reflexivity].
      destruct (connect_ancestor _ _ _); [|reflexivity]. rewrite IH. reflexivity. }
    induction l as [|q l IH]; intros s0; [reflexivity|]. cbn [resolve_groups]. unfold then_.
    pose proof (R q s0) as R1. destruct (resolve_all q s0) as [[r|e] s3]; cbn [snd] in *; [|exact R1].
    pose proof (Q r s3) as Q1. destruct (connect_all n r s3) as [[u|e] s4]; cbn [snd] in *; [|congruence].
    pose proof (IH s4) as I1. destruct (resolve_groups n l s4) as [[t|e] s5]; cbn in *; congruence. }
  unfold then_. pose proof (K (a_groups a) s2) as K1. destruct (resolve_groups n (a_groups a) s2) as [[r|e] s3]; [|discriminate].
  cbn [snd] in K1. intros _. unfold look, modify, returns. cbn. rewrite K1. eexists. split; [reflexivity|reflexivity].
Qed.
Lemma quiet_raw e s : invariant s -> quiet e -> raw s -> raw (happen e s).
Proof.
  intros Iv Q (P & Sg & U). destruct e as [a id|id| |i j|i j|k]; try contradiction; cbn [happen].
  - destruct (add_op_ok a id s Iv) as (_ & E1 & E2 & E3 & E4 & _). split; [congruence|]. split; [congruence|].
    destruct (fst (add_op a id s)) as [n|e] eqn:Fst.
    + destruct (E2 n eq_refl) as (-> & o & O & _ & _ & _ & _ & Vn & X).
      destruct (added_controls a id s _ Fst) as (o' & O' & Cn). rewrite O in O'. apply app_inj_tail in O'. destruct O' as [_ <-].
      rewrite O. intros k p Hk.
      destruct (Nat.lt_ge_cases k (length (ops s))) as [Hi|Hi].
      * rewrite nth_error_app1 in Hk by exact Hi. exact (U k p Hk).
      * rewrite nth_error_app2 in Hk by exact Hi. destruct (k - length (ops s)) as [|[|]]; try discriminate. injection Hk as <-.
        split; [exact Vn|]. split; [exact Cn|]. exact X.
    + destruct (E1 e eq_refl) as [O _]. rewrite O. exact U.
  - exact (conj P (conj Sg U)).
  - exact (conj P (conj Sg U)).
Qed.
Lemma history_raw l : Forall quiet l -> forall s, invariant s -> raw s -> raw (history l s).
Proof.
  induction 1 as [|e l Q _ IH]; intros s Iv U; [exact U|]. apply IH; [apply happen_invariant, Iv|apply quiet_raw; assumption].
Qed.
Lemma new_raw c m : raw (new_sketch c m).
Proof. split; [reflexivity|]. split; [reflexivity|]. intros k p H. destruct k; discriminate. Qed.
