(** Properties of the Valentina files (C43, C44, C98). *)
From Coq Require Import ZArith String Ascii List Bool Lia.
From Verif Require Import Base ModelFormula ModelMeasure SpecXml ProofXml2.
From Verif Require ModelXml ModelColor ModelStyle ModelSketch ProofSketch4 ProofValentina3.
From Verif Require Import ModelValentina SpecValentina ProofValentina2 ProofValentina4 ProofValentina5 ProofValentina6 ProofValentina7.
Import ModelColor(color, database).
Import ModelStyle(stroke_style, NoPen, SolidLine, DashLine, DotLine, DashDotLine, DashDotDotLine).
Import ModelXml(int_parse, int_str).
Import ModelSketch(kind, KSingle, KAlong, KEnd, KNormal, KLine, KSpline, expr, ops, o_id, o_kind, counter).
Import ListNotations.
Local Open Scope nat_scope.

Section Properties.
Context {float : Type} (float_str : float -> text) (float_parse : text -> result float) (db : database) (black : color) (parse : text -> expr).
Notation write := (write float float_str float_parse db).
Notation read := (read float float_str float_parse db black parse).
Notation read_all := (read_all float float_str float_parse db black parse).
Notation read_piece := (read_piece float float_str float_parse db black parse).
Notation write_all := (write_all float float_str float_parse db).
Notation is_operation := (is_operation parse).

(** C43.  Writing an operation then reading it gives the same operation; the full claim also asks for
    the style of a spline, and for lines whose style is not given: see the refutations. *)
Theorem C43_round_trip_partial : faithful float_str float_parse -> forall (st st' : state float) i d,
  is_operation st i d -> writable d -> reachable st' ->
  (counter (st_sketch _ st') < d_id d)%Z -> (forall z, In z (d_points d) -> holds_id (st_sketch _ st') z) ->
  exists e d' st'', write st i = Ok e /\ read e st' = (Ok (Some (length (ops (st_sketch _ st')))), st'') /\
    is_operation st'' (length (ops (st_sketch _ st'))) d' /\ same d d' /\
    (forall j x, is_operation st' j x -> is_operation st'' j x).
Proof. intros Hf st st' i d. exact (one_round_trip float_str float_parse db black parse Hf st i d st'). Qed.
(** The element is the one of the file format. *)
Theorem C43_written : faithful float_str float_parse -> forall (st : state float) i d, is_operation st i d -> writable d ->
  exists e d', write st i = Ok e /\ says float_parse db e d' /\ same d d' /\
    (d_kind d = KSpline -> exists t, d_color d' = PText _ t /\ py_str _ float_str (d_color d) = Ok t).
Proof. exact (write_says float_str float_parse db parse). Qed.

(** C44.  The calculations of a piece are read in order with their ids, the unsupported ones are
    skipped, when the ids increase from the last id of the process and the points are known. *)
Theorem C44_reading_partial : forall c m l ds, readable float_parse db c [] l ds ->
  exists st, read_all l (empty float c m) = (Ok tt, st) /\ length (ops (st_sketch _ st)) = length ds /\
    (forall i d, nth_error ds i = Some d -> is_operation st i d).
Proof.
  intros c m l ds R.
  destruct (ProofValentina3.read_readable float_str float_parse db black parse l c [] ds (empty float c m) [] R) as (st & E & _ & _ & L & O); try reflexivity.
  - apply ProofSketch4.new_sketch_invariant.
  - intros z [].
  - intros [|i] d D; discriminate.
  - exists st. auto.
Qed.
Theorem C44_skipped : forall e (st : state float), unsupported e -> read e st = (Ok None, st).
Proof. exact (read_unsupported float_str float_parse db black parse). Qed.
(** Whatever is read, the sketch is one which its methods could make: all the properties of the
    sketches hold (unique ids, references to earlier operations, ...). *)
Theorem C44_reachable : forall l (st : state float), reachable st -> reachable (snd (read_all l st)).
Proof. exact (read_all_reachable float_str float_parse db black parse). Qed.
(** A tag which is not in the list stops the reading. *)
Theorem C44_unknown_refuted : forall e l (st : state float), lookup tags (e_tag e) = None -> read_all (e :: l) st = (Raise KeyError, st).
Proof.
  intros e l st H. cbn [ModelValentina.read_all]. unfold ModelValentina.read, dispatch. rewrite H. reflexivity.
Qed.
(** An id which is not larger than the last one is refused: the second reading of a file in a process. *)
Theorem C44_again_refuted : forall e d (st : state float), says float_parse db e d ->
  (d_id d <= counter (st_sketch _ st))%Z -> fst (read e st) = Raise NameError.
Proof. exact (read_old float_str float_parse db black parse). Qed.

(** C98.  A whole sketch written then read in a new sketch: the same operations in the same order. *)
Theorem C98_round_trip_partial : faithful float_str float_parse -> forall st : state float, reachable st ->
  (forall i, i < length (ops (st_sketch _ st)) -> exists d, is_operation st i d /\ writable d) ->
  exists l, write_all st = Ok l /\ forall c m, (forall o, In o (ops (st_sketch _ st)) -> (c < o_id o)%Z) ->
    exists st', read_all l (empty float c m) = (Ok tt, st') /\ same_sketch (st_sketch _ st) (st_sketch _ st') /\
      forall i d, is_operation st i d -> exists d', is_operation st' i d' /\ same d d' /\
        (d_kind d = KSpline -> exists t, d_color d' = PText _ t /\ py_str _ float_str (d_color d) = Ok t).
Proof. exact (whole_round_trip float_str float_parse db black parse). Qed.
(** C98: the sketch is evaluated, written, read with the same measurements and evaluated: the reading and the
    evaluation succeed, and the points and the curves have the same positions. *)
Theorem C98_positions : faithful float_str float_parse -> forall m (st st1 : state float), drafted m st -> evaluated st st1 ->
  (forall i, i < length (ops (st_sketch _ st1)) -> exists d, is_operation st1 i d /\ writable d) ->
  exists l, write_all st1 = Ok l /\ forall c, (forall o, In o (ops (st_sketch _ st1)) -> (c < o_id o)%Z) ->
    exists st2, read_piece l (empty float c m) = (Ok tt, st2) /\ same_sketch (st_sketch _ st1) (st_sketch _ st2) /\
      same_place (st_sketch _ st1) (st_sketch _ st2).
Proof.
  intros Hf m st st1 D E W. destruct (positions_round_trip float_str float_parse db black parse Hf m st st1 D E W) as (l & El & K).
  exists l. split; [exact El|]. intros c Hc. destruct (K c Hc) as (st' & st2 & A1 & _ & (A2 & A3) & _ & A4 & A5 & _). exists st2.
  split; [|auto]. unfold ModelValentina.read_piece. rewrite A1, A2. destruct st2. cbn in *. rewrite A3. reflexivity.
Qed.
End Properties.

(** C43: a point made without the style of its line, as by default, cannot be written. *)
Theorem C43_default_refuted : exists (st : state Z) d, reachable st /\ is_operation z_parse st 1 d /\
  d_kind d = KEnd /\ d_style d = PNone _ /\ z_write st 1 = Raise KeyError.
Proof. exact default_line. Qed.
(** C43: the style of the line of a spline is lost, its colour becomes a text. *)
Theorem C43_spline_refuted : exists (st : state Z) e d d', reachable st /\ is_operation z_parse st 2 d /\ d_kind d = KSpline /\
  d_style d = PStroke _ DashLine /\ d_color d = PColor _ red /\ z_write st 2 = Ok e /\
  is_operation z_parse (snd (z_read_all [e_a; e_b; e] (empty Z 0 []))) 2 d' /\
  d_style d' = PStroke _ SolidLine /\ d_color d' = PText _ (lit "#ff0000").
Proof. exact spline_lost. Qed.
(** C44: a calculation which refers to a skipped one stops the reading. *)
Theorem C44_dangling_refuted :
  fst (z_read_all [e_a; e_skipped; e_line] (empty Z 0 [])) = Raise KeyError.
Proof. exact dangling. Qed.
(** C44: a piece can be read but not evaluated: here the base of a point is a line. *)
Theorem C44_evaluation_refuted : exists ds, readable int_parse [] 0 [] [e_a; e_b; e_line; e_end] ds /\
  fst (read_piece Z int_str int_parse [] red z_parse [e_a; e_b; e_line; e_end] (empty Z 0 [])) = Raise AttributeError.
Proof. exact unevaluated. Qed.
(** C98: two sketches of a process whose ids are interleaved can be written but not read again. *)
Theorem C98_scopes_refuted : exists (A B : state Z) lA lB, reachable A /\ reachable B /\
  z_write_all A = Ok lA /\ z_write_all B = Ok lB /\
  fst (z_read_all lA (empty Z 0 [])) = Ok tt /\
  fst (z_read_all lB (empty Z (counter (st_sketch _ (snd (z_read_all lA (empty Z 0 []))))) [])) = Raise NameError.
Proof. exact interleaved. Qed.
Print Assumptions C43_round_trip_partial.
Print Assumptions C43_written.
Print Assumptions C44_reading_partial.
Print Assumptions C44_skipped.
Print Assumptions C44_reachable.
Print Assumptions C44_unknown_refuted.
Print Assumptions C44_again_refuted.
Print Assumptions C98_round_trip_partial.
Print Assumptions C98_positions.
Print Assumptions C43_default_refuted.
Print Assumptions C43_spline_refuted.
Print Assumptions C44_dangling_refuted.
Print Assumptions C44_evaluation_refuted.
Print Assumptions C98_scopes_refuted.

Example C43_example : is_operation z_parse demo_state 2 d_line /\ writable d_line /\ reachable demo_state /\
  (match z_write demo_state 2 with Ok e => Some (e_tag e, e_attrib e) | Raise _ => None end) =
    Some (lit "line", at_ [("id", "4"); ("lineColor", "#ff0000"); ("typeLine", "dashLine"); ("firstPoint", "1"); ("secondPoint", "2")]%string).
Proof.
  split; [exact (demo_operations 2 d_line eq_refl)|]. split; [|split; [exact demo_reachable|vm_compute; reflexivity]].
  pose proof demo_writable as W. rewrite Forall_forall in W. apply W. cbn. tauto.
Qed.
Example C44_example : readable int_parse [] 0 [] demo_file demo_descriptions /\
  map (fun o => (o_kind o, o_id o)) (ops (st_sketch _ demo_state)) = [(KSingle, 1); (KSingle, 2); (KLine, 4); (KAlong, 6); (KSpline, 9)]%Z.
Proof. split; [exact demo_readable|vm_compute; reflexivity]. Qed.
Example C98_example : reachable demo_state /\ (forall i, i < length (ops (st_sketch _ demo_state)) -> exists d, is_operation z_parse demo_state i d /\ writable d) /\
  match z_write_all demo_state with Ok l => map e_tag l = map lit ["point"; "point"; "line"; "point"; "spline"]%string /\
     fst (z_read_all l (empty Z 0 [])) = Ok tt | Raise _ => False end.
Proof.
  split; [exact demo_reachable|]. split; [|vm_compute; auto].
  intros i Hi. change (length (ops (st_sketch _ demo_state))) with 5 in Hi.
  pose proof demo_writable as W. rewrite Forall_forall in W.
  destruct (nth_error demo_descriptions i) as [d|] eqn:D.
  - exists d. split; [exact (demo_operations i d D)|]. apply W. exact (nth_error_In _ _ D).
  - apply nth_error_None in D. cbn in D. lia.
Qed.
(** The measurements are not used here; the points are at (7, 1) and (1, 2): z_parse gives the lengths of the texts. *)
Example C98_positions_example : exists (st st1 : state Z), drafted [] st /\ evaluated st st1 /\
  (forall i, i < length (ops (st_sketch _ st1)) -> exists d, is_operation z_parse st1 i d /\ writable d) /\
  map ModelSketch.o_vector (ops (st_sketch _ st1)) =
    [Some (ModelVector.V (Rdefinitions.IZR 7) (Rdefinitions.IZR 1)); Some (ModelVector.V (Rdefinitions.IZR 1) (Rdefinitions.IZR 2)); None].
Proof.
  set (l := [e_a; e_b; e_line]). exists (snd (z_read_all l (empty Z 0 []))).
  assert (D : drafted [] (snd (z_read_all l (empty Z 0 [])))) by apply read_all_drafted, empty_drafted.
  assert (E : exists s, ModelSketch.eval_sketch (st_sketch _ (snd (z_read_all l (empty Z 0 [])))) = (Ok tt, s) /\
     map ModelSketch.o_vector (ops s) = [Some (ModelVector.V (Rdefinitions.IZR 7) (Rdefinitions.IZR 1)); Some (ModelVector.V (Rdefinitions.IZR 1) (Rdefinitions.IZR 2)); None]).
  { eexists. split; [vm_compute; reflexivity|]. vm_compute. reflexivity. }
  destruct E as (s & E & V). exists (State _ s (st_extra _ (snd (z_read_all l (empty Z 0 []))))). split; [exact D|]. split; [split; [exact E|reflexivity]|]. split; [|exact V].
  destruct (eval_sigs _ (reachable_invariant _ (drafted_reachable _ _ D))) as (S & _). rewrite E in S. cbn [snd] in S.
  cbn [st_sketch]. rewrite (ProofSketch.sig_length _ _ S). intros i Hi. change (length (ops (st_sketch Z (snd (z_read_all l (empty Z 0 [])))))) with 3 in Hi.
  destruct (C44_reading_partial int_str int_parse [] red z_parse 0 [] l [d_a; d_b; d_line]) as (st & R & _ & O).
  { apply readable_add; [exact says_a|reflexivity|intros z []|]. apply readable_add; [exact says_b|reflexivity|intros z []|].
    apply readable_add; [exact says_line|reflexivity|intros z Z; cbn in *; tauto|]. constructor. }
  pose proof demo_writable as W. rewrite Forall_forall in W.
  rewrite R in *. cbn [snd] in *.
  destruct (nth_error [d_a; d_b; d_line] i) as [d|] eqn:Dd; [|apply nth_error_None in Dd; cbn in Dd; lia].
  exists d. split; [apply (sigs_operation z_parse st); [exact S|reflexivity|exact (O i d Dd)]|].
  apply W. apply nth_error_In in Dd. cbn in *. tauto.
Qed.
