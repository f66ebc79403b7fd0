From Coq Require Import String Reals List ZArith Bool Lra Lia.
From Verif Require Import Base ModelVector ModelLine ModelSketch GlueSketch ModelDetail SpecDetail ProofDetail ProofSketch9.
From Verif Require ModelFormula ModelMeasure ModelScene ModelPainter SpecPainter ModelStyle ModelColor ModelTransformation ProofSvgTransform.
Import ModelFormula(text, lit).
Import ModelScene(position, PVector, PName, PNumber, coordinates, cast_position).
Import ModelPainter(shape, SText, SCircle, SSegment, SCubic).
Import ModelStyle(value, PNone, PStroke, PArg, SolidLine, to_stroke, to_color).
Import SpecPainter(on_segment, on_cubic, covers).
Import ModelColor(getitem).
Import ListNotations.
Local Open Scope string_scope.
Local Open Scope R_scope.

(** ** The style of the construction lines has to be given. *)
Lemma unstyled rf db black s st deco i o t : getitem db (lit "black") = Ok black -> on_points s -> nth_error (ops s) i = Some o -> construction (o_kind o) = true ->
  d_style (deco i) = PNone -> detail_scene rf db s st deco <> Ok t.
Proof.
  intros B O I K D H. destruct (proj1 (scene_defined rf db black B s st deco O) (ex_intro _ t H) i o I) as (_ & _ & S).
  destruct S as ((x & X) & _); [destruct (o_kind o); try discriminate K; exact Logic.I|]. rewrite D in X. discriminate X.
Qed.

(** ** Examples *)
Definition plain : decoration := Decoration (Some (V 1 1)) (PStroke SolidLine) PNone.
Definition ink : value := PArg (ModelColor.AFloat (ModelColor.of_int 1)).
Definition usual : detail_style := DetailStyle (1 / 5) PNone ink ink ink.
Definition twins_history : list event :=
  [single_point "A" 0 0; single_point "A" 1 0; single_point "B" 3 0; Add (Args KLine "" [[ROp 0; ROp 2]] []) None].
Definition twins := Eval cbv -[IZR Rminus Rplus Rmult] in snd (eval_sketch (history twins_history (new_sketch 0 []))).
Lemma twins_eval : eval_sketch (history twins_history (new_sketch 0 [])) = (Ok tt, twins).
Proof. reflexivity. Qed.
(** The line from the first point A is drawn from the second one. *)
Lemma twins_refuted rf db black : getitem db (lit "black") = Ok black -> exists l c m s t, Forall quiet l /\ eval_sketch (history l (new_sketch c m)) = (Ok tt, s) /\
  detail_scene rf db s usual (fun _ => plain) = Ok t /\
  exists i o a b, nth_error (ops s) i = Some o /\ o_kind o = KLine /\ at_ref s o 0 a /\ at_ref s o 1 b /\
    forall e, In e (t_items t) -> e_user e = i -> exists x, on_segment a b x /\ ~ covers (cast_position ModelTransformation.identity (t_coordinates t)) (e_shape e) x.
Proof.
  intro B. exists twins_history, 0%Z, [], twins. unfold detail_scene.
  destruct (point_style_ok rf db black B usual None eq_refl) as (dk & DK). destruct (label_style_ok rf db black B usual) as (ar & AR).
  destruct (operation_style_ok rf db black B plain (k_line_width usual) SolidLine None eq_refl eq_refl) as (sy & SY).
  assert (X : exists b, sketch_box twins = Ok b) by (eexists; reflexivity). destruct X as (b & X). rewrite X. cbn [bind].
  unfold twins, detail_loop, detail_op. cbn [ops o_kind o_vector o_name o_refs d_label plain construction].
  rewrite DK, AR. cbn [bind fst snd]. change (operation_style rf db plain (k_line_width usual)) with (operation_style rf db plain (k_line_width usual)).
  rewrite SY. cbn [bind]. unfold name_of. cbn [o_refs nth_error ops o_kind is_point o_name bind fst snd app].
  eexists. split; [repeat constructor|]. split; [exact twins_eval|]. split; [reflexivity|].
  exists 3%nat. eexists. exists (V 0 0), (V 3 0). split; [reflexivity|]. split; [reflexivity|].
  split; [do 2 eexists; split; [reflexivity|split; reflexivity]|]. split; [do 2 eexists; split; [reflexivity|split; reflexivity]|].
  cbn [t_items t_coordinates]. intros e I U. repeat (destruct I as [<-|I]; [try discriminate U|]); [|destruct I].
  exists (V 0 0). split; [exists 0; split; [lra|]; cbn; f_equal; lra|]. cbn [e_shape covers]. intros (v & w & HV & HW & u & HU & E).
  cbn in HV, HW. rewrite !ProofSvgTransform.identity_apply in HV. rewrite !ProofSvgTransform.identity_apply in HW. injection HV as <-. injection HW as <-. cbn in E. injection E as E _. lra.
Qed.

(** The label is out of the box. *)
Definition dot_history : list event := [single_point "A" 0 0].
Definition dot_ := Eval cbv -[IZR Rminus Rplus Rmult] in snd (eval_sketch (history dot_history (new_sketch 0 []))).
Lemma dot_eval : eval_sketch (history dot_history (new_sketch 0 [])) = (Ok tt, dot_).
Proof. reflexivity. Qed.
Lemma overflow_refuted rf db black : getitem db (lit "black") = Ok black -> exists l c m s t b, Forall quiet l /\ eval_sketch (history l (new_sketch c m)) = (Ok tt, s) /\
  detail_scene rf db s usual (fun _ => plain) = Ok t /\ t_box t = Some b /\
  exists e x, In e (t_items t) /\ covers (cast_position ModelTransformation.identity (t_coordinates t)) (e_shape e) x /\ ~ inside b x.
Proof.
  intro B. exists dot_history, 0%Z, [], dot_. unfold detail_scene.
  destruct (point_style_ok rf db black B usual None eq_refl) as (dk & DK). destruct (label_style_ok rf db black B usual) as (ar & AR).
  change (sketch_box dot_) with (Ok (Some (vbox (V 0 0)))). cbn [bind].
  unfold dot_, detail_loop, detail_op. cbn [ops o_kind o_vector o_name o_refs d_label plain construction].
  rewrite DK, AR. cbn [bind fst snd app].
  eexists. eexists. split; [repeat constructor|]. split; [exact dot_eval|]. split; [reflexivity|]. split; [reflexivity|].
  eexists. exists (V 1 (-1)). split; [right; right; left; reflexivity|]. cbn [e_shape covers t_coordinates]. split.
  - cbn. rewrite ProofSvgTransform.identity_apply. unfold vadd. cbn. f_equal. f_equal; lra.
  - unfold inside. cbn. lra.
Qed.

(** The control points of a spline stretch the box. *)
Definition bow_history : list event :=
  [single_point "A" 0 0; single_point "B" 1 0; Add (Args KSpline "" [[RName "A"; RName "B"]] [EConst 0; EConst 3; EConst 0; EConst 3]) None].
Definition bow := Eval cbv -[IZR Rminus Rplus Rmult Rdiv cos sin PI from_polar vadd] in snd (eval_sketch (history bow_history (new_sketch 0 []))).
Lemma bow_eval : eval_sketch (history bow_history (new_sketch 0 [])) = (Ok tt, bow).
Proof. reflexivity. Qed.
Lemma bow_refuted : exists l c m s b k, Forall quiet l /\ eval_sketch (history l (new_sketch c m)) = (Ok tt, s) /\ sketch_box s = Ok (Some b) /\
  (forall o x, In o (ops s) -> made_of s o x -> inside k x) /\ ~ smaller b k.
Proof.
  assert (T : 0 * PI / 180 = 0) by lra.
  assert (X : exists b, sketch_box bow = Ok (Some b)) by (eexists; reflexivity). destruct X as (b & X).
  exists bow_history, 0%Z, [], bow, b, (Box (Itv 0 (7 / 2)) (Itv 0 0)). split; [repeat constructor|]. split; [exact bow_eval|]. split; [exact X|]. split.
  - intros o x I M. unfold bow in I. cbn [ops In] in I. destruct I as [<-|[<-|[<-|[]]]].
    + cbn in M. injection M as <-. unfold inside. cbn. lra.
    + cbn in M. injection M as <-. unfold inside. cbn. lra.
    + destruct M as (p & q & r & w & A & D & E & t & HT & ->).
      destruct A as (j & o' & J & O & P). injection J as <-. injection O as <-. injection P as <-.
      destruct D as (j & o' & J & O & P). injection J as <-. injection O as <-. injection P as <-.
      unfold o_controls in E. injection E as <- <-. unfold inside, vadd. cbn [vx vy bx by_ inf sup]. rewrite T, cos_0, sin_0. 
      assert (S0 : 0 <= t * t) by (apply Rle_0_sqr). assert (S1 : 0 <= t * (1 - t)) by (apply Rmult_le_pos; lra). assert (S2 : 0 <= (t * t) * (1 - t)) by (apply Rmult_le_pos; lra).
      assert (S3 : 0 <= (t - 1 / 2) * (t - 1 / 2)) by apply Rle_0_sqr. assert (S4 : 0 <= t * (t * t)) by (apply Rmult_le_pos; lra).
      split; split; nra.
  - intros (_ & Q & _). destruct (sketch_box_ok bow _ X) as ((L & _) & _ & _).
    assert (I : inside b (vadd (V 1 0) (V (3 * cos (0 * PI / 180)) (3 * sin (0 * PI / 180))))).
    { apply L. eexists. split; [right; right; left; reflexivity|]. right. right. do 2 eexists. split; [reflexivity|right; reflexivity]. }
    destruct I as ((_ & I) & _). cbn in I, Q. rewrite T, cos_0 in I. lra.
Qed.

(** Something to draw: two points, a point under them, a line *)
Definition corner_history : list event :=
  [single_point "A" 1 5; single_point "B" 4 2; Add (Args KIntersection "C" [[RName "A"; RName "B"]] []) None; Add (Args KLine "" [[RName "A"; RName "C"]] []) None].
Definition corner := Eval cbv -[IZR Rminus Rplus Rmult] in snd (eval_sketch (history corner_history (new_sketch 0 []))).
Lemma corner_eval : eval_sketch (history corner_history (new_sketch 0 [])) = (Ok tt, corner).
Proof. reflexivity. Qed.
Lemma corner_apart : named_apart corner.
Proof.
  intros i j o p I J P Q N. unfold corner in I, J. cbn [ops] in I, J.
  destruct i as [|[|[|[|i]]]]; cbn in I; try (destruct i; discriminate I); injection I as <-; try discriminate P;
  (destruct j as [|[|[|[|j]]]]; cbn in J; try (destruct j; discriminate J); injection J as <-; try discriminate Q); try reflexivity; discriminate N.
Qed.
Lemma corner_points : on_points corner.
Proof.
  intros i o k j I K. unfold corner in I. cbn [ops] in I.
  destruct i as [|[|[|[|i]]]]; cbn in I; try (destruct i; discriminate I); injection I as <-; cbn in K; (destruct k as [|[|k]]; [| |destruct k; discriminate K]); try discriminate K; injection K as <-;
    eexists; split; reflexivity.
Qed.
Lemma corner_scene rf db black : getitem db (lit "black") = Ok black -> exists t, detail_scene rf db corner usual (fun _ => plain) = Ok t /\ List.length (t_items t) = 10%nat.
Proof.
  intro B. unfold detail_scene.
  destruct (point_style_ok rf db black B usual None eq_refl) as (dk & DK). destruct (label_style_ok rf db black B usual) as (ar & AR).
  destruct (operation_style_ok rf db black B plain (k_line_width usual) SolidLine None eq_refl eq_refl) as (sy & SY).
  assert (X : exists b, sketch_box corner = Ok b) by (eexists; reflexivity). destruct X as (b & X). rewrite X. cbn [bind].
  unfold corner, detail_loop, detail_op. cbn [ops o_kind o_vector o_name o_refs d_label plain construction].
  rewrite DK, AR. cbn [bind fst snd]. rewrite SY. cbn [bind]. unfold name_of. cbn [o_refs nth_error ops o_kind is_point o_name bind fst snd app].
  eexists. split; [reflexivity|]. reflexivity.
Qed.
