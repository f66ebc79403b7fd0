(** Lemmas on Valentina files, seventh part: the positions of the points of a sketch which was written and read. *)
From Coq Require Import ZArith String Ascii List Bool Lia.
From Verif Require Import Base ModelFormula ModelMeasure SpecXml.
From Verif Require ModelXml ModelColor.
From Verif Require Import ModelVector ModelSketch SpecSketch GlueSketch ProofSketch ProofSketch3 ProofSketch4 ProofTwin.
From Verif Require Import ModelValentina SpecValentina ProofValentina5 ProofValentina6.
Import ModelColor(color, database).
Import ListNotations.
Local Open Scope nat_scope.

Section Positions.
Context {float : Type} (float_str : float -> text) (float_parse : text -> result float) (db : database) (black : color) (parse : text -> expr).
Notation state := (state float).
Notation read := (read float float_str float_parse db black parse).
Notation read_all := (read_all float float_str float_parse db black parse).
Notation write_all := (write_all float float_str float_parse db).
Notation is_operation := (is_operation parse).

Lemma drafted_reachable m (st : state) : drafted m st -> reachable st.
Proof. intros ((l & c & _ & E) & L). split; [exists l, c, m; exact E|exact L]. Qed.
Lemma empty_drafted c m : drafted m (empty float c m).
Proof. split; [exists [], c; split; [constructor|reflexivity]|reflexivity]. Qed.
Lemma construct_drafted m k kw lb (st : state) : drafted m st -> drafted m (snd (construct float float_str black parse k kw lb st)).
Proof.
  intros R. pose proof (reachable_invariant st (drafted_reachable m st R)) as Iv. unfold construct.
  match goal with |- context [match ?y with Ok _ => _ | Raise _ => _ end] => destruct y as [[[[name points] texts] id]|e] end; [|exact R].
  cbv zeta.
  match goal with |- context [add_op ?a id ?s] => set (A := a); destruct (ProofSketch3.add_op_ok A id s Iv) as (_ & E1 & E2 & _);
     assert (H : exists l c, Forall quiet l /\ snd (add_op A id s) = history l (new_sketch c m));
     [destruct R as ((l & c & Q & E) & _); exists (l ++ [Add A id])%list, c; split; [apply Forall_app; split; [exact Q|repeat constructor]|];
      unfold history; rewrite fold_left_app; cbn [fold_left happen]; unfold history in E; rewrite <- E; reflexivity|];
     destruct (add_op A id s) as [[i|e] s'] eqn:EA end; cbn [fst snd] in *; (split; [exact H|]); cbn [st_sketch st_extra].
  - destruct (E2 i eq_refl) as (_ & o & Eo & _). rewrite Eo, !app_length, (proj2 R). reflexivity.
  - destruct (E1 e eq_refl) as (Eo & _). rewrite Eo. exact (proj2 R).
Qed.
Lemma read_drafted m e (st : state) : drafted m st -> drafted m (snd (read e st)).
Proof.
  intro R. unfold ModelValentina.read.
  match goal with |- context [match ?y with Ok _ => _ | Raise _ => _ end] => destruct y as [[[k t] inst]|x] end; [|destruct x; exact R].
  assert (H : drafted m (snd (to_operation float float_str black parse k t inst st))).
  { unfold to_operation. destruct (ModelSketch.is_point k);
      match goal with |- context [match ?y with Ok _ => _ | Raise _ => _ end] => destruct y as [v|x] end; try exact R.
    - destruct v as [d lb]. apply construct_drafted, R.
    - apply construct_drafted, R. }
  destruct (to_operation float float_str black parse k t inst st) as [[i|[]] s]; exact H.
Qed.
Lemma read_all_drafted m l : forall st : state, drafted m st -> drafted m (snd (read_all l st)).
Proof.
  induction l as [|e l IH]; intros st R; [exact R|]. cbn [ModelValentina.read_all]. pose proof (read_drafted m e st R) as H.
  destruct (read e st) as [[v|x] s]; [apply IH, H|exact H].
Qed.

Lemma quiet_cache l : Forall quiet l -> forall s, invariant s -> cache (history l s) = cache s.
Proof.
  induction 1 as [|e l Q _ IH]; intros s Iv; [reflexivity|]. change (history (e :: l) s) with (history l (happen e s)).
  rewrite IH by (apply happen_invariant, Iv). destruct e as [a id|id| |i j|i j|k]; try contradiction; cbn [happen]; try reflexivity.
  destruct (add_op_ok a id s Iv) as (_ & _ & _ & _ & _ & E). exact E.
Qed.
Lemma drafted_raw m (st : state) : drafted m st -> raw (st_sketch _ st) /\ cache (st_sketch _ st) = m.
Proof.
  intros ((l & c & Q & E) & _). rewrite E. split.
  - apply history_raw; [exact Q|apply new_sketch_invariant|apply new_raw].
  - rewrite (quiet_cache l Q) by apply new_sketch_invariant. reflexivity.
Qed.
Lemma raw_twin s s' : raw s -> raw s' -> cache s = cache s' -> same_sketch s s' -> twin s s'.
Proof.
  intros (P & G & U) (P' & G' & U') C F. repeat split; try congruence.
  unfold same_sketch in F. revert U U'. generalize (ops s) (ops s') F. clear. intros a b F.
  induction F as [|o o' a b (K & _ & N & R & X) F IH]; intros U U'; [reflexivity|]. cbn [map]. f_equal.
  - destruct (U 0 o eq_refl) as (V & Cn & Hx). destruct (U' 0 o' eq_refl) as (V' & Cn' & Hx'). unfold face. rewrite K, R, V, V', Cn, Cn'.
    assert (Ex : o_exprs o' = o_exprs o).
    { assert (G : forall l, (forall x, In x l -> x = new_expression (x_source x)) -> l = map new_expression (map x_source l)).
      { induction l as [|x l I]; intros H; [reflexivity|]. cbn. rewrite <- (H x (or_introl eq_refl)). f_equal. apply I. intros y Y. apply H. right. exact Y. }
      rewrite (G _ Hx), (G _ Hx'), X. reflexivity. }
    rewrite Ex. destruct (is_point (o_kind o)); [rewrite N by reflexivity|]; reflexivity.
  - apply IH; intros k p H; [exact (U (S k) p H)|exact (U' (S k) p H)].
Qed.

Lemma eval_sigs s : invariant s -> sigs (snd (eval_sketch s)) = sigs s /\ counter (snd (eval_sketch s)) = counter s /\ invariant (snd (eval_sketch s)).
Proof.
  intros I. destruct (eval_ops_ok (length (ops s)) 0 s I) as (A & B & _ & _ & C & _); [lia|intros; lia|]. auto.
Qed.
Lemma sigs_operation (st st' : state) i d : sigs (st_sketch _ st') = sigs (st_sketch _ st) -> st_extra _ st' = st_extra _ st ->
  is_operation st i d -> is_operation st' i d.
Proof.
  intros S X (o & x & O & Hx & A1 & A2 & A3 & A4 & A5 & A6 & A7). destruct (sig_nth _ _ i o S O) as (o' & O' & P).
  destruct (psig_fields o o' P) as (B1 & B2 & B3 & _ & B5 & B6). exists o', x. rewrite X.
  split; [exact O'|]. split; [exact Hx|]. split; [congruence|]. split; [congruence|]. split; [congruence|]. split; [|split; [exact A5|split; [congruence|exact A7]]].
  rewrite B5. clear - A4 S. induction A4 as [|r z l m (p & Hp & E) F IH]; constructor; [|exact IH].
  destruct (sig_nth _ _ r p S Hp) as (p' & P' & Q). exists p'. split; [exact P'|]. destruct (psig_fields p p' Q) as (_ & -> & _). exact E.
Qed.
Lemma evaluated_reachable m (st st' : state) : drafted m st -> evaluated st st' -> reachable st'.
Proof.
  intros D (E & X). pose proof D as ((l & c & Q & Es) & L). split.
  - exists (l ++ [Eval])%list, c, m. unfold history. rewrite fold_left_app. cbn [fold_left happen]. unfold history in Es. rewrite <- Es, E. reflexivity.
  - destruct (eval_sigs (st_sketch _ st) (reachable_invariant st (drafted_reachable m st D))) as (S & _). rewrite E in S. cbn [snd] in S.
    rewrite X, (sig_length _ _ S). exact L.
Qed.
Lemma twin_place s s' : twin s s' -> same_place s s'.
Proof.
  intros (F & _). unfold same_place. revert F. generalize (ops s) (ops s'). intros a. induction a as [|o a IH]; intros [|o' b] F; try discriminate; constructor.
  - pose proof (f_equal (hd (face o)) F) as F0. cbn [hd map] in F0. destruct (face_fields _ _ F0) as (_ & _ & _ & _ & F1 & F2). auto.
  - apply IH. exact (f_equal (@tl _) F).
Qed.
Lemma same_sketch_sigs s t t' : sigs t = sigs s -> same_sketch t t' -> same_sketch s t'.
Proof.
  unfold sigs, same_sketch. generalize (ops s) (ops t) (ops t'). intros a b c E F. revert a E.
  induction F as [|o o' b c (K & I & N & R & X) F IH]; intros [|p a] E; try discriminate; constructor.
  - pose proof (f_equal (hd (psig o)) E) as E0. cbn [hd map] in E0. destruct (psig_fields p o E0) as (B1 & B2 & B3 & _ & B5 & B6). repeat split; try congruence. intros P. rewrite N, B3; [reflexivity|congruence].
  - apply IH. exact (f_equal (@tl _) E).
Qed.
Lemma same_sketch_sigs' s t t' : sigs t' = sigs t -> same_sketch s t -> same_sketch s t'.
Proof.
  unfold sigs, same_sketch. generalize (ops s) (ops t) (ops t'). intros a b c E F. revert c E.
  induction F as [|o o' a b (K & I & N & R & X) F IH]; intros [|p c] E; try discriminate; constructor.
  - pose proof (f_equal (hd (psig o')) E) as E0. cbn [hd map] in E0. destruct (psig_fields o' p E0) as (B1 & B2 & B3 & _ & B5 & B6). repeat split; try congruence. intros P. rewrite B3. apply N, P.
  - apply IH. exact (f_equal (@tl _) E).
Qed.

Lemma positions_round_trip : faithful float_str float_parse -> forall m (st st1 : state), drafted m st -> evaluated st st1 ->
  (forall i, i < length (ops (st_sketch _ st1)) -> exists d, is_operation st1 i d /\ writable d) ->
  exists l, write_all st1 = Ok l /\ forall c, (forall o, In o (ops (st_sketch _ st1)) -> (c < o_id o)%Z) ->
    exists st' st2, read_all l (empty float c m) = (Ok tt, st') /\ drafted m st' /\ evaluated st' st2 /\
      counter (st_sketch _ st2) = last (map o_id (ops (st_sketch _ st1))) c /\
      same_sketch (st_sketch _ st1) (st_sketch _ st2) /\ same_place (st_sketch _ st1) (st_sketch _ st2) /\
      forall i d, is_operation st1 i d -> exists d', is_operation st2 i d' /\ same d d' /\
        (d_kind d = KSpline -> exists t, d_color d' = PText _ t /\ py_str _ float_str (d_color d) = Ok t).
Proof.
  intros Hf m st st1 D Ev W. pose proof (evaluated_reachable m st st1 D Ev) as R1.
  destruct (whole_round_trip_last float_str float_parse db black parse Hf st1 R1 W) as (l & E & K). exists l. split; [exact E|]. intros c Hc.
  destruct (K c m Hc) as (st' & A1 & A2 & A3 & A4). pose proof (read_all_drafted m l _ (empty_drafted c m)) as D'. rewrite A1 in D'. cbn [snd] in D'.
  pose proof (reachable_invariant _ (drafted_reachable m _ D)) as I. pose proof (reachable_invariant _ (drafted_reachable m _ D')) as I'.
  destruct Ev as (Ev & X). destruct (eval_sigs _ I) as (S1 & C1 & _). rewrite Ev in S1, C1. cbn [snd] in S1, C1.
  destruct (drafted_raw m st D) as (Rw & Ca). destruct (drafted_raw m st' D') as (Rw' & Ca').
  assert (T : twin (st_sketch _ st) (st_sketch _ st')) by (apply raw_twin; try assumption; [congruence|exact (same_sketch_sigs _ _ _ S1 A3)]).
  destruct (eval_twin _ _ T I I') as (T2 & Rs). rewrite Ev in T2, Rs. cbn [fst snd] in T2, Rs.
  destruct (eval_sigs _ I') as (S2 & C2 & _). destruct (eval_sketch (st_sketch _ st')) as [r s2] eqn:E2. cbn [fst snd] in *. subst r.
  exists st', (State _ s2 (st_extra _ st')). split; [exact A1|]. split; [exact D'|]. split; [split; [exact E2|reflexivity]|]. cbn [st_sketch].
  split; [congruence|]. split; [exact (same_sketch_sigs' _ _ _ S2 A3)|]. split; [exact (twin_place _ _ T2)|].
  intros i d Op. destruct (A4 i d Op) as (d' & O' & Q). exists d'. split; [|exact Q]. apply (sigs_operation st'); [exact S2|reflexivity|exact O'].
Qed.
End Positions.
