(** The drawing and the bounding box of a sketch. *)
From Coq Require Import String Reals List ZArith Bool.
From Verif Require Import Base ModelVector ModelLine ModelSketch GlueSketch ModelDetail SpecDetail ProofDetail ProofDetail2.
From Verif Require ModelFormula ModelMeasure ModelScene ModelPainter SpecPainter ModelStyle ModelColor ModelTransformation.
Import ModelFormula(text, lit).
Import ModelScene(cast_position).
Import ModelStyle(PNone).
Import SpecPainter(on_segment, covers).
Import ModelColor(getitem).
Import ListNotations.
Local Open Scope R_scope.

(** C123: each operation is drawn, in order, at its place, with its style *)
Theorem C123_drawn_partial : forall rf db black, getitem db (lit "black") = Ok black ->
  forall s st deco t, named_apart s -> detail_scene rf db s st deco = Ok t ->
  sketch_box s = Ok (t_box t) /\
  exists parts, List.length parts = List.length (ops s) /\ t_items t = concat parts /\
    forall i o, nth_error (ops s) i = Some o -> exists part label l, nth_error parts i = Some part /\
      (is_point (o_kind o) = true -> d_label (deco i) = Some label) /\ pictures s (k_point_size st) label o l /\
      Forall2 (fun e p => e_user e = i /\ shows (cast_position ModelTransformation.identity (t_coordinates t)) (e_shape e) (snd p) /\
                          dressed db black st (deco i) (fst p) (e_look e)) part l.
Proof. exact scene_drawn. Qed.
Print Assumptions C123_drawn_partial.
Theorem C123_coordinates : forall rf db s st deco t, named_apart s -> detail_scene rf db s st deco = Ok t ->
  forall i o, nth_error (ops s) i = Some o -> is_point (o_kind o) = true ->
  exists v, o_vector o = Some v /\ ModelMeasure.lookup (t_coordinates t) (lit (o_name o)) = Some v.
Proof. exact scene_coordinates. Qed.
Print Assumptions C123_coordinates.
(** When there is a drawing *)
Theorem C123_defined : forall rf db black, getitem db (lit "black") = Ok black -> forall s st deco, on_points s ->
  ((exists t, detail_scene rf db s st deco = Ok t) <-> forall i o, nth_error (ops s) i = Some o -> drawable db s st o (deco i)).
Proof. exact scene_defined. Qed.
Print Assumptions C123_defined.
(** Two points with the same name *)
Theorem C123_names_refuted : forall rf db black, getitem db (lit "black") = Ok black -> exists l c m s t, Forall quiet l /\
  eval_sketch (history l (new_sketch c m)) = (Ok tt, s) /\ detail_scene rf db s usual (fun _ => plain) = Ok t /\
  exists i o a b, nth_error (ops s) i = Some o /\ o_kind o = KLine /\ at_ref s o 0 a /\ at_ref s o 1 b /\
    forall e, In e (t_items t) -> e_user e = i ->
      exists x, on_segment a b x /\ ~ covers (cast_position ModelTransformation.identity (t_coordinates t)) (e_shape e) x.
Proof. exact twins_refuted. Qed.
Print Assumptions C123_names_refuted.
(** The line style of a construction line is None when it is not given: the sketch cannot be drawn. *)
Theorem C123_default_refuted : forall rf db black s st deco i o t, getitem db (lit "black") = Ok black -> on_points s ->
  nth_error (ops s) i = Some o -> o_kind o = KAlong \/ o_kind o = KNormal \/ o_kind o = KEnd -> d_style (deco i) = PNone ->
  detail_scene rf db s st deco <> Ok t.
Proof.
  exact (fun rf db black s st deco i o t B O I K => unstyled rf db black s st deco i o t B O I
    (match K with or_introl E => f_equal construction E | or_intror (or_introl E) => f_equal construction E | or_intror (or_intror E) => f_equal construction E end)).
Qed.
Print Assumptions C123_default_refuted.
Example C123_example : forall rf db black, getitem db (lit "black") = Ok black ->
  eval_sketch (history corner_history (new_sketch 0 [])) = (Ok tt, corner) /\ named_apart corner /\ on_points corner /\
  exists t, detail_scene rf db corner usual (fun _ => plain) = Ok t /\ List.length (t_items t) = 10%nat.
Proof. exact (fun rf db black B => conj corner_eval (conj corner_apart (conj corner_points (corner_scene rf db black B)))). Qed.

(** C124: the box holds what the operations make, and no less than their defining points *)
Theorem C124_box_partial : forall s b, sketch_box s = Ok b -> match b with
  | None => ops s = []
  | Some b => ops s <> [] /\ (forall o x, In o (ops s) -> made_of s o x -> inside b x) /\
      (forall c, (forall o x, In o (ops s) -> defined_by s o x -> inside c x) -> smaller b c) /\
      ((forall o, In o (ops s) -> o_kind o <> KSpline) -> forall c, (forall o x, In o (ops s) -> made_of s o x -> inside c x) -> smaller b c)
  end.
Proof. exact box_ok. Qed.
Print Assumptions C124_box_partial.
Theorem C124_defined : forall s, on_points s -> ((exists b, sketch_box s = Ok b) <-> forall o, In o (ops s) -> made s o).
Proof. exact box_defined. Qed.
Print Assumptions C124_defined.
(** A spline makes the box too large. *)
Theorem C124_spline_refuted : exists l c m s b k, Forall quiet l /\ eval_sketch (history l (new_sketch c m)) = (Ok tt, s) /\
  sketch_box s = Ok (Some b) /\ (forall o x, In o (ops s) -> made_of s o x -> inside k x) /\ ~ smaller b k.
Proof. exact bow_refuted. Qed.
Print Assumptions C124_spline_refuted.
(** The drawing is larger than the box which the scene is given. *)
Theorem C124_drawing_refuted : forall rf db black, getitem db (lit "black") = Ok black -> exists l c m s t b, Forall quiet l /\
  eval_sketch (history l (new_sketch c m)) = (Ok tt, s) /\ detail_scene rf db s usual (fun _ => plain) = Ok t /\ t_box t = Some b /\
  exists e x, In e (t_items t) /\ covers (cast_position ModelTransformation.identity (t_coordinates t)) (e_shape e) x /\ ~ inside b x.
Proof. exact overflow_refuted. Qed.
Print Assumptions C124_drawing_refuted.
Example C124_example : exists b, sketch_box corner = Ok (Some b) /\ forall o, In o (ops corner) -> o_kind o <> KSpline.
Proof. eexists. split; [reflexivity|]. intros o [<-|[<-|[<-|[<-|[]]]]]; discriminate. Qed.
