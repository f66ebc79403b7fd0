(** Lemmas on Valentina files, sixth part: the states which can be reached, and an example. *)
From Coq Require Import ZArith String Ascii List Bool Lia.
From Verif Require Import Base ModelFormula ModelMeasure SpecXml ProofXml2.
From Verif Require ModelXml ModelColor ModelStyle ModelSketch ProofSketch ProofSketch3 ProofSketch4.
From Verif Require Import ModelValentina SpecValentina ProofValentina5.
Import ModelColor(color, database, Color).
Import ModelStyle(stroke_style, NoPen, SolidLine, DashLine, DotLine, DashDotLine, DashDotDotLine).
Import ModelXml(int_parse, int_str).
Import ModelSketch(kind, KOperation, KPoint, KSingle, KAlong, KEnd, KIntersect, KNormal, KContact, KIntersection, KLine, KSpline,
  expr, EConst, ops, o_kind, o_id, o_name, o_refs, history, happen, new_sketch, add_op, Add, Args, counter).
Import ListNotations.
Local Open Scope nat_scope.

Section Reach.
Context {float : Type} (float_str : float -> text) (float_parse : text -> result float) (db : database) (black : color) (parse : text -> expr).
Notation state := (state float).
Notation read := (read float float_str float_parse db black parse).
Notation read_all := (read_all float float_str float_parse db black parse).

Lemma empty_reachable c m : reachable (empty float c m).
Proof. split; [exists [], c, m; reflexivity|reflexivity]. Qed.

Lemma construct_reachable k kw lb (st : state) : reachable st -> reachable (snd (construct float float_str black parse k kw lb st)).
Proof.
  intros R. pose proof (reachable_invariant st R) as Iv. unfold construct.
  match goal with |- context [match ?y with Ok _ => _ | Raise _ => _ end] => destruct y as [[[[name points] texts] id]|e] end; [|exact R].
  cbv zeta.
  match goal with |- context [add_op ?a id ?s] => set (A := a); destruct (ProofSketch3.add_op_ok A id s Iv) as (_ & E1 & E2 & _);
     assert (H : exists l c m, snd (add_op A id s) = history l (new_sketch c m));
     [destruct R as ((l & c & m & E) & _); exists (l ++ [Add A id]), c, m; unfold history; rewrite fold_left_app; cbn [fold_left happen]; unfold history in E; rewrite <- E; reflexivity|];
     destruct (add_op A id s) as [[i|e] s'] eqn:EA end; cbn [fst snd] in *; (split; [exact H|]); cbn [st_sketch st_extra].
  - destruct (E2 i eq_refl) as (_ & o & Eo & _). rewrite Eo, !app_length, (proj2 R). reflexivity.
  - destruct (E1 e eq_refl) as (Eo & _). rewrite Eo. exact (proj2 R).
Qed.
Lemma read_reachable e (st : state) : reachable st -> reachable (snd (read e st)).
Proof.
  intro R. unfold ModelValentina.read.
  match goal with |- context [match ?y with Ok _ => _ | Raise _ => _ end] => destruct y as [[[k t] inst]|x] end; [|destruct x; exact R].
  assert (H : reachable (snd (to_operation float float_str black parse k t inst st))).
  { unfold to_operation. destruct (ModelSketch.is_point k);
      match goal with |- context [match ?y with Ok _ => _ | Raise _ => _ end] => destruct y as [v|x] end; try exact R.
    - destruct v as [d lb]. apply construct_reachable, R.
    - apply construct_reachable, R. }
  destruct (to_operation float float_str black parse k t inst st) as [[i|[]] s]; exact H.
Qed.
Lemma read_all_reachable l : forall st : state, reachable st -> reachable (snd (read_all l st)).
Proof.
  induction l as [|e l IH]; intros st R; [exact R|]. cbn [ModelValentina.read_all]. pose proof (read_reachable e st R) as H.
  destruct (read e st) as [[v|x] s]; [apply IH, H|exact H].
Qed.

Lemma read_old e d (st : state) : says float_parse db e d -> (d_id d <= counter (st_sketch _ st))%Z -> fst (read e st) = Raise NameError.
Proof.
  intros Hs Hc. rewrite (ProofValentina2.read_says float_str float_parse db black parse e d st Hs).
  destruct (ProofValentina3.says_well_formed float_parse db parse e d Hs) as [W _]. unfold add_op. rewrite W. cbn [negb].
  unfold ModelCounter.new_object, ModelCounter.counter_set. replace (d_id d <=? counter (st_sketch float st))%Z with true by (symmetry; apply Z.leb_le; exact Hc).
  reflexivity.
Qed.
End Reach.

(** ** An example; the numbers are integers, the formulas are not read *)
Definition z_parse (t : text) : expr := EConst (Rdefinitions.IZR (Z.of_nat (length t))).
Definition red : color := match ModelColor.new_color [ModelColor.AText (lit "#ff0000")] None with Ok c => c | Raise _ => Color (ModelColor.of_int 0) (ModelColor.of_int 0) (ModelColor.of_int 0) None end.
Lemma red_new : ModelColor.new_color [ModelColor.AText (lit "#ff0000")] None = Ok red.
Proof.
  assert (H : match ModelColor.new_color [ModelColor.AText (lit "#ff0000")] None with Ok _ => true | Raise _ => false end = true) by (vm_compute; reflexivity).
  unfold red. destruct (ModelColor.new_color [ModelColor.AText (lit "#ff0000")] None); [reflexivity|discriminate].
Qed.
Lemma red_read : ModelColor.ensure_color [] (Some (ModelColor.AText (lit "#ff0000"))) = Ok (Some red).
Proof. unfold ModelColor.ensure_color. replace (starts (lit "#") (lit "#ff0000")) with true by reflexivity. rewrite red_new. reflexivity. Qed.
Notation z_read := (read Z int_str int_parse [] red z_parse).
Notation z_read_all := (read_all Z int_str int_parse [] red z_parse).
Notation z_write := (write Z int_str int_parse []).
Notation z_write_all := (write_all Z int_str int_parse []).
Definition at_ (l : list (string * string)) : list (text * text) := map (fun p => (lit (fst p), lit (snd p))) l.
Local Open Scope string_scope.
Definition e_a := Element (lit "point") (at_ [("id", "1"); ("type", "single"); ("name", "A"); ("x", "waist/2"); ("y", "3"); ("mx", "1"); ("my", "2")]).
Definition e_b := Element (lit "point") (at_ [("id", "2"); ("type", "single"); ("name", "B"); ("x", "1"); ("y", "30"); ("mx", "1"); ("my", "2")]).
Definition e_arc := Element (lit "arc") (at_ [("id", "3"); ("type", "simple")]).
Definition e_line := Element (lit "line") (at_ [("id", "4"); ("firstPoint", "1"); ("secondPoint", "2"); ("typeLine", "dashLine"); ("lineColor", "#ff0000")]).
Definition e_dart := Element (lit "point") (at_ [("id", "5"); ("type", "trueDarts"); ("name", "D")]).
Definition e_c := Element (lit "point") (at_ [("id", "6"); ("type", "alongLine"); ("name", "C"); ("mx", "0"); ("my", "0"); ("firstPoint", "1"); ("secondPoint", "2"); ("length", "Line_A_B/2"); ("typeLine", "hair")]).
Definition e_s := Element (lit "spline") (at_ [("id", "9"); ("type", "simpleInteractive"); ("point1", "1"); ("point4", "6"); ("angle1", "90"); ("length1", "10"); ("angle2", "45"); ("length2", "20"); ("color", "#00ff00")]).
Definition demo_file : list element := [e_a; e_b; e_arc; e_line; e_dart; e_c; e_s].
Definition demo_state : state Z := snd (z_read_all demo_file (empty Z 0 [])).
Definition d_a : @description Z := Build_description KSingle 1 (lit "A") [] [lit "waist/2"; lit "3"] (PFloat _ 1%Z) (PFloat _ 2%Z) (PNone _) (PNone _).
Definition d_b : @description Z := Build_description KSingle 2 (lit "B") [] [lit "1"; lit "30"] (PFloat _ 1%Z) (PFloat _ 2%Z) (PNone _) (PNone _).
Definition d_line : @description Z := Build_description KLine 4 [] [1%Z; 2%Z] [] (PNone _) (PNone _) (PStroke _ DashLine) (PColor _ red).
Definition d_c : @description Z := Build_description KAlong 6 (lit "C") [1%Z; 2%Z] [lit "Line_A_B/2"] (PFloat _ 0%Z) (PFloat _ 0%Z) (PStroke _ SolidLine) (PNone _).
Definition d_s : @description Z := Build_description KSpline 9 [] [1%Z; 6%Z] [lit "90"; lit "10"; lit "45"; lit "20"] (PNone _) (PNone _) (PStroke _ SolidLine) (PText _ (lit "#00ff00")).
Definition demo_descriptions := [d_a; d_b; d_line; d_c; d_s].

Lemma says_a : says int_parse [] e_a d_a.
Proof.
  constructor; cbn [d_kind d_id d_name d_points d_formulas d_mx d_my d_style d_color d_a spelled point_attributes formula_attributes labelled drawn].
  - split; reflexivity.
  - exists (lit "1"). split; reflexivity.
  - constructor.
  - repeat constructor.
  - intros _. split; [reflexivity|]. split; eexists; eexists; (split; [reflexivity|split; reflexivity]).
  - intros [].
  - discriminate.
  - tauto.
  - auto.
Qed.
Lemma says_b : says int_parse [] e_b d_b.
Proof.
  constructor; cbn [d_kind d_id d_name d_points d_formulas d_mx d_my d_style d_color d_b spelled point_attributes formula_attributes labelled drawn].
  - split; reflexivity.
  - exists (lit "2"). split; reflexivity.
  - constructor.
  - repeat constructor.
  - intros _. split; [reflexivity|]. split; eexists; eexists; (split; [reflexivity|split; reflexivity]).
  - intros [].
  - discriminate.
  - tauto.
  - auto.
Qed.
Lemma says_line : says int_parse [] e_line d_line.
Proof.
  constructor; cbn [d_kind d_id d_name d_points d_formulas d_mx d_my d_style d_color d_line spelled point_attributes formula_attributes labelled drawn].
  - reflexivity.
  - exists (lit "4"). split; reflexivity.
  - repeat constructor; [exists (lit "1")|exists (lit "2")]; (split; reflexivity).
  - repeat constructor.
  - intros [].
  - intros _. split.
    + exists "dashLine", DashLine. split; [cbn; tauto|split; reflexivity].
    + right. exists (lit "#ff0000"), red. split; [reflexivity|]. split; [exact red_read|reflexivity].
  - discriminate.
  - auto.
  - tauto.
Qed.
Lemma says_c : says int_parse [] e_c d_c.
Proof.
  constructor; cbn [d_kind d_id d_name d_points d_formulas d_mx d_my d_style d_color d_c spelled point_attributes formula_attributes labelled drawn].
  - split; reflexivity.
  - exists (lit "6"). split; reflexivity.
  - repeat constructor; [exists (lit "1")|exists (lit "2")]; (split; reflexivity).
  - repeat constructor.
  - intros _. split; [reflexivity|]. split; eexists; eexists; (split; [reflexivity|split; reflexivity]).
  - intros _. split.
    + exists "hair", SolidLine. split; [cbn; tauto|split; reflexivity].
    + left. split; reflexivity.
  - discriminate.
  - tauto.
  - tauto.
Qed.
Lemma says_s : says int_parse [] e_s d_s.
Proof.
  constructor; cbn [d_kind d_id d_name d_points d_formulas d_mx d_my d_style d_color d_s spelled point_attributes formula_attributes labelled drawn].
  - split; reflexivity.
  - exists (lit "9"). split; reflexivity.
  - repeat constructor; [exists (lit "1")|exists (lit "6")]; (split; reflexivity).
  - repeat constructor.
  - intros [].
  - intros [].
  - intros _. split; [reflexivity|]. exists (lit "#00ff00"). split; reflexivity.
  - auto.
  - tauto.
Qed.
Lemma demo_readable : readable int_parse [] 0 [] demo_file demo_descriptions.
Proof.
  apply readable_add; [|reflexivity|intros z []|].
  { exact says_a. }
  apply readable_add; [|reflexivity|intros z []|].
  { exact says_b. }
  apply readable_skip. { left. exists "arc". split; [cbn; tauto|reflexivity]. }
  apply readable_add; [|reflexivity|intros z Z; cbn in *; tauto|].
  { exact says_line. }
  apply readable_skip. { right. exists "point", "trueDarts". split; [cbn; tauto|split; reflexivity]. }
  apply readable_add; [|reflexivity|intros z Z; cbn in *; tauto|].
  { exact says_c. }
  apply readable_add; [|reflexivity|intros z Z; cbn in *; tauto|].
  { exact says_s. }
  constructor.
Qed.
Lemma demo_reachable : reachable demo_state.
Proof. apply read_all_reachable, empty_reachable. Qed.
Lemma demo_operations : forall i d, nth_error demo_descriptions i = Some d -> is_operation z_parse demo_state i d.
Proof.
  destruct (ProofValentina3.read_readable int_str int_parse [] red z_parse demo_file 0 [] demo_descriptions (empty Z 0 []) [] demo_readable)
    as (st' & E & _ & _ & _ & O); try reflexivity.
  - apply ProofSketch4.new_sketch_invariant.
  - intros z [].
  - intros [|i] d D; discriminate.
  - unfold demo_state. rewrite E. exact O.
Qed.
Lemma red_ordinary : ordinary red.
Proof. exists 255%Z, 0%Z, 0%Z. unfold SpecColor.byte. split; [lia|]. split; [lia|]. split; [lia|]. vm_compute. reflexivity. Qed.
Lemma demo_writable : Forall writable demo_descriptions.
Proof.
  assert (X : forall s, forallb ModelXml.xml_char s = true -> xml_text s) by exact ProofValentina4.lit_xml.
  repeat apply Forall_cons; try apply Forall_nil; constructor;
    cbn [d_kind d_id d_name d_points d_formulas d_mx d_my d_style d_color d_a d_b d_line d_c d_s spelled point_attributes formula_attributes labelled drawn];
    try discriminate; try reflexivity; try (intros []; fail).
  all: try (intros t T; cbn in T; repeat (destruct T as [<-|T]; [apply X; reflexivity|]); destruct T; fail).
  all: try (intros _; split; [apply X; reflexivity|split; eexists; reflexivity]).
  - intros _. split; [eexists; reflexivity|]. right. exists red. split; [reflexivity|exact red_ordinary].
  - intros _. split; [eexists; reflexivity|]. left. reflexivity.
  - intros _. right. exists (lit "#00ff00"). split; [reflexivity|apply X; reflexivity].
Qed.

(** ** What is refuted *)
(** sketch.EndLinePoint('E', A, '90', '10'): no style of line *)
Definition base_state : state Z := snd (z_read_all [e_a] (empty Z 0 [])).
Definition end_kwargs : list (text * pyval Z) :=
  [(lit "name", PText _ (lit "E")); (lit "base_point", PInt _ 1%Z); (lit "angle", PText _ (lit "90")); (lit "length", PText _ (lit "10")); (lit "id", PInt _ 2%Z)].
Definition end_state : state Z := snd (construct Z int_str red z_parse KEnd end_kwargs (PFloat _ 0%Z, PFloat _ 0%Z) base_state).
Lemma base_reachable : reachable base_state.
Proof. apply read_all_reachable, empty_reachable. Qed.
Lemma default_line : exists (st : state Z) d, reachable st /\ is_operation z_parse st 1 d /\
  d_kind d = KEnd /\ d_style d = PNone _ /\ z_write st 1 = Raise KeyError.
Proof.
  exists end_state, (Build_description KEnd 2 (lit "E") [1%Z] [lit "90"; lit "10"] (PFloat _ 0%Z) (PFloat _ 0%Z) (PNone _) (PNone _)).
  split; [apply construct_reachable, base_reachable|]. split.
  - eexists. eexists. split; [reflexivity|]. split; [reflexivity|]. cbn [d_kind d_id d_name d_points d_formulas d_mx d_my d_style d_color].
    split; [reflexivity|]. split; [reflexivity|]. split; [reflexivity|]. split.
    { constructor; [|constructor]. eexists. split; reflexivity. }
    repeat split; reflexivity.
  - split; [reflexivity|]. split; [reflexivity|]. vm_compute. reflexivity.
Qed.
Definition two_state : state Z := snd (z_read_all [e_a; e_b] (empty Z 0 [])).
Definition spline_kwargs : list (text * pyval Z) :=
  [(lit "first_point", PInt _ 1%Z); (lit "second_point", PInt _ 2%Z); (lit "angle1", PText _ (lit "90")); (lit "length1", PText _ (lit "10"));
   (lit "angle2", PText _ (lit "90")); (lit "length2", PText _ (lit "10"));
   (lit "line_style", PStroke _ DashLine); (lit "line_color", PColor _ red); (lit "id", PInt _ 3%Z)].
Definition spline_state : state Z := snd (construct Z int_str red z_parse KSpline spline_kwargs (PNone _, PNone _) two_state).
Definition e_spline := Element (lit "spline") (at_ [("id", "3"); ("point1", "1"); ("point4", "2"); ("length1", "10"); ("length2", "10");
  ("angle1", "90"); ("angle2", "90"); ("color", "#ff0000"); ("type", "simpleInteractive")]).
Lemma spline_lost : exists (st : state Z) e d d', reachable st /\ is_operation z_parse st 2 d /\ d_kind d = KSpline /\
  d_style d = PStroke _ DashLine /\ d_color d = PColor _ red /\ z_write st 2 = Ok e /\
  is_operation z_parse (snd (z_read_all [e_a; e_b; e] (empty Z 0 []))) 2 d' /\
  d_style d' = PStroke _ SolidLine /\ d_color d' = PText _ (lit "#ff0000").
Proof.
  exists spline_state, e_spline,
    (Build_description KSpline 3 [] [1%Z; 2%Z] [lit "90"; lit "10"; lit "90"; lit "10"] (PNone _) (PNone _) (PStroke _ DashLine) (PColor _ red)),
    (Build_description KSpline 3 [] [1%Z; 2%Z] [lit "90"; lit "10"; lit "90"; lit "10"] (PNone _) (PNone _) (PStroke _ SolidLine) (PText _ (lit "#ff0000"))).
  split; [apply construct_reachable, read_all_reachable, empty_reachable|]. split.
  { eexists. eexists. split; [reflexivity|]. split; [reflexivity|]. cbn [d_kind d_id d_name d_points d_formulas d_mx d_my d_style d_color].
    split; [reflexivity|]. split; [reflexivity|]. split; [reflexivity|]. split.
    { repeat constructor; eexists; (split; reflexivity). }
    repeat split; reflexivity. }
  split; [reflexivity|]. split; [reflexivity|]. split; [reflexivity|]. split; [vm_compute; reflexivity|]. split.
  { eexists. eexists. split; [reflexivity|]. split; [reflexivity|]. cbn [d_kind d_id d_name d_points d_formulas d_mx d_my d_style d_color].
    split; [reflexivity|]. split; [reflexivity|]. split; [reflexivity|]. split.
    { repeat constructor; eexists; (split; reflexivity). }
    repeat split; reflexivity. }
  split; reflexivity.
Qed.
Definition e_skipped := Element (lit "point") (at_ [("id", "2"); ("type", "height"); ("name", "B")]).
Lemma dangling : fst (z_read_all [e_a; e_skipped; e_line] (empty Z 0 [])) = Raise KeyError.
Proof. vm_compute. reflexivity. Qed.
Definition e_end := Element (lit "point") (at_ [("id", "5"); ("type", "endLine"); ("name", "E"); ("mx", "0"); ("my", "0"); ("basePoint", "4"); ("angle", "90"); ("length", "10"); ("typeLine", "hair")]).
Lemma unevaluated : exists ds, readable int_parse [] 0 [] [e_a; e_b; e_line; e_end] ds /\
  fst (read_piece Z int_str int_parse [] red z_parse [e_a; e_b; e_line; e_end] (empty Z 0 [])) = Raise AttributeError.
Proof.
  exists [d_a; d_b; d_line; Build_description KEnd 5 (lit "E") [4%Z] [lit "90"; lit "10"] (PFloat _ 0%Z) (PFloat _ 0%Z) (PStroke _ SolidLine) (PNone _)].
  split; [|vm_compute; reflexivity].
  apply readable_add; [exact says_a|reflexivity|intros z []|].
  apply readable_add; [exact says_b|reflexivity|intros z []|].
  apply readable_add; [exact says_line|reflexivity|intros z Z; cbn in *; tauto|].
  apply readable_add; [|reflexivity|intros z Z; cbn in *; tauto|constructor].
  constructor; cbn [d_kind d_id d_name d_points d_formulas d_mx d_my d_style d_color spelled point_attributes formula_attributes labelled drawn].
  - split; reflexivity.
  - exists (lit "5"). split; reflexivity.
  - repeat constructor. exists (lit "4"). split; reflexivity.
  - repeat constructor.
  - intros _. split; [reflexivity|]. split; eexists; eexists; (split; [reflexivity|split; reflexivity]).
  - intros _. split.
    + exists "hair", SolidLine. split; [cbn; tauto|split; reflexivity].
    + left. split; reflexivity.
  - discriminate.
  - tauto.
  - tauto.
Qed.
Definition e_third := Element (lit "point") (at_ [("id", "3"); ("type", "single"); ("name", "B"); ("x", "1"); ("y", "30"); ("mx", "1"); ("my", "2")]).
Lemma interleaved : exists (A B : state Z) lA lB, reachable A /\ reachable B /\
  z_write_all A = Ok lA /\ z_write_all B = Ok lB /\
  fst (z_read_all lA (empty Z 0 [])) = Ok tt /\
  fst (z_read_all lB (empty Z (counter (st_sketch _ (snd (z_read_all lA (empty Z 0 []))))) [])) = Raise NameError.
Proof.
  exists (snd (z_read_all [e_a; e_third] (empty Z 0 []))), (snd (z_read_all [e_b] (empty Z 0 []))).
  eexists. eexists. split; [apply read_all_reachable, empty_reachable|]. split; [apply read_all_reachable, empty_reachable|].
  split; [vm_compute; reflexivity|]. split; [vm_compute; reflexivity|]. split; vm_compute; reflexivity.
Qed.
