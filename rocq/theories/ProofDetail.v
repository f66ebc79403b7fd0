From Coq Require Import String Reals List ZArith Bool Lra Lia.
From Verif Require Import Base ModelVector ModelLine ModelSketch GlueSketch ModelDetail SpecDetail.
From Verif Require ModelFormula ModelMeasure ProofMeasure ModelScene ModelPainter SpecPainter ModelStyle ProofStyle SpecStyle ModelColor ModelTransformation
  ProofSvgTransform ProofSegment SpecLine.
Import ModelFormula(text, lit).
Import ModelMeasure(text_eqb).
Import ModelScene(position, PVector, PName, PNumber, coordinates, cast_position).
Import ModelPainter(shape, SText, SCircle, SSegment, SCubic).
Import ModelStyle(value, PNone, PStroke, PArg, path_style, new_style, SolidLine, to_stroke, to_color, s_stroke_style, s_stroke_color, s_line_width, s_fill_color).
Import SpecPainter(on_segment, on_cubic, covers, degrees_cos, degrees_sin, swept).
Import ModelColor(getitem).
Import ListNotations.
Local Open Scope R_scope.
Local Open Scope result_scope.

Lemma bind_some {A B} (r : result A) (k : A -> result B) b : bind r k = Ok b -> exists a, r = Ok a /\ k a = Ok b.
Proof. destruct r; [eauto|discriminate]. Qed.
Ltac inv H a E := apply bind_some in H as (a & E & H).
Lemma lit_inj a b : lit a = lit b -> a = b.
Proof. intro H. apply (f_equal string_of_list_ascii) in H. unfold lit in H. rewrite !string_of_list_ascii_of_string in H. exact H. Qed.

(** ** The styles *)
Section Styles.
Variable rf : text -> result ModelColor.float.
Variable db : ModelColor.database.
Variable black : ModelColor.color.
Hypothesis Hblack : getitem db (lit "black") = Ok black.
Ltac style := unfold ModelStyle.new_style, ModelStyle.get;
  repeat match goal with |- context [ModelMeasure.lookup ?l (lit ?n)] => let v := eval vm_compute in (ModelMeasure.lookup l (lit n)) in change (ModelMeasure.lookup l (lit n)) with v end; rewrite Hblack.
Lemma point_style_inv st p : point_style rf db st = Ok p -> dressed db black st (Decoration None PNone PNone) RDisc (LPath p).
Proof.
  intro H. apply (proj1 (ProofStyle.made_ok rf db black Hblack _ _)) in H as (A & B & C & _ & D & _ & _).
  destruct A as (_ & A), B as (_ & B), C as (_ & C), D as (D & _). cbn [dressed]. split; [apply D; reflexivity|]. split; [apply A; reflexivity|]. split; [apply C; reflexivity|].
  specialize (B eq_refl). exact B.
Qed.
Lemma label_style_inv st p : label_style rf db st = Ok p -> dressed db black st (Decoration None PNone PNone) RArrow (LPath p).
Proof.
  intro H. apply (proj1 (ProofStyle.made_ok rf db black Hblack _ _)) in H as (A & B & C & _ & D & _ & _).
  destruct A as (_ & A), B as (B & _), C as (_ & C), D as (_ & D). cbn [dressed]. specialize (B _ eq_refl). injection B as B. rewrite <- B. split; [reflexivity|]. auto.
Qed.
Lemma operation_style_inv d w p : operation_style rf db d w = Ok p -> to_stroke (d_style d) = Ok (s_stroke_style p) /\ to_color db (d_color d) = Ok (s_stroke_color p) /\
  s_line_width p = w /\ s_fill_color p = None.
Proof.
  intro H. apply (proj1 (ProofStyle.made_ok rf db black Hblack _ _)) in H as (A & B & C & _ & D & _ & _).
  destruct A as (A & _), B as (B & _), C as (C & _), D as (_ & D). specialize (B _ eq_refl). injection B as B. split; [apply A; reflexivity|]. split; [apply C; reflexivity|]. auto.
Qed.
Lemma point_style_ok st c : to_color db (k_point_color st) = Ok c -> exists p, point_style rf db st = Ok p.
Proof.
  intro H. unfold point_style, ModelStyle.new_style. rewrite Hblack.
  change (ModelStyle.get ?l (lit "fill_color") ?v) with (k_point_color st). rewrite H. eexists. reflexivity.
Qed.
Lemma label_style_ok st : exists p, label_style rf db st = Ok p.
Proof. unfold label_style, ModelStyle.new_style. rewrite Hblack. eexists. reflexivity. Qed.
Lemma operation_style_ok d w x c : to_stroke (d_style d) = Ok x -> to_color db (d_color d) = Ok c -> exists p, operation_style rf db d w = Ok p.
Proof.
  intros H K. unfold operation_style, ModelStyle.new_style. rewrite Hblack. change (ModelStyle.get ?l (lit "stroke_style") ?v) with (d_style d).
  change (ModelStyle.get ?l (lit "stroke_color") ?v) with (d_color d). rewrite H. cbn [bind]. rewrite K. eexists. reflexivity.
Qed.
End Styles.

(** ** One operation *)
Section Detail.
Variable rf : text -> result ModelColor.float.
Variable db : ModelColor.database.
Variable black : ModelColor.color.
Hypothesis Hblack : getitem db (lit "black") = Ok black.
Variable s : sketch.
Variable st : detail_style.

Lemma name_of_inv o k p : name_of s o k = Ok p -> exists j q, nth_error (o_refs o) k = Some j /\ nth_error (ops s) j = Some q /\ is_point (o_kind q) = true /\ p = PName (lit (o_name q)).
Proof.
  unfold name_of. destruct (nth_error (o_refs o) k) as [j|] eqn:E; [|discriminate]. destruct (nth_error (ops s) j) as [q|] eqn:F; [|discriminate].
  destruct (is_point (o_kind q)) eqn:G; [|discriminate]. intro H. injection H as <-. exists j, q. auto.
Qed.

(** The coordinates which the operation adds *)
Definition extended (o : op) (c : coordinates) : coordinates :=
  if is_point (o_kind o) then match o_vector o with Some v => ModelMeasure.set_item c (lit (o_name o)) v | None => c end else c.
Lemma detail_op_coordinates i o d c c' l : detail_op rf db s st i o d c = Ok (c', l) -> c' = extended o c /\ (is_point (o_kind o) = true -> o_vector o <> None).
Proof.
  unfold detail_op, extended. destruct (o_kind o) eqn:K; cbn [is_point construction]; intro H;
    try (injection H as <- <-; split; [reflexivity|discriminate]);
    try (destruct (o_vector o) as [v|]; [|discriminate H]; inv H dk D; destruct (d_label d) as [x|]; [|discriminate H]; inv H ar A; split; [|intros _; discriminate];
         try (inv H z0 HZ; inv H y Y); injection H as <- <-; reflexivity).
  - inv H z0 HZ. inv H y Y. inv H x X. injection H as <- <-. split; [reflexivity|discriminate].
  - inv H z0 HZ. inv H y Y. inv H x X. destruct (o_controls o) as [[p q]|]; [|discriminate H]. injection H as <- <-. split; [reflexivity|discriminate].
Qed.
Lemma detail_loop_coordinates deco l : forall i c c' m, detail_loop rf db s st deco i l c = Ok (c', m) -> c' = fold_left (fun c o => extended o c) l c /\
  forall o, In o l -> is_point (o_kind o) = true -> o_vector o <> None.
Proof.
  induction l as [|o l IH]; intros i c c' m H; cbn [detail_loop fold_left] in *.
  - injection H as <- <-. split; [reflexivity|intros o []].
  - inv H r HR. inv H t HT. injection H as <- <-. destruct r as (c1, l1), t as (c2, l2). cbn [fst snd] in *. destruct (detail_op_coordinates _ _ _ _ _ _ HR) as (-> & V).
    destruct (IH _ _ _ _ HT) as (-> & W). split; [reflexivity|]. intros p [<-|I]; [exact V|exact (W p I)].
Qed.
Lemma lookup_extended o c n : ModelMeasure.lookup (extended o c) n =
  if is_point (o_kind o) then match o_vector o with Some v => if text_eqb (lit (o_name o)) n then Some v else ModelMeasure.lookup c n | None => ModelMeasure.lookup c n end
  else ModelMeasure.lookup c n.
Proof. unfold extended. destruct (is_point (o_kind o)); [|reflexivity]. destruct (o_vector o); [|reflexivity]. apply ProofMeasure.lookup_set. Qed.
Lemma fold_lookup l : forall c n v, (exists o, In o l /\ is_point (o_kind o) = true /\ lit (o_name o) = n /\ o_vector o = Some v) \/ ModelMeasure.lookup c n = Some v ->
  (forall o, In o l -> is_point (o_kind o) = true -> lit (o_name o) = n -> o_vector o = Some v) ->
  ModelMeasure.lookup (fold_left (fun c o => extended o c) l c) n = Some v.
Proof.
  induction l as [|o l IH]; intros c n v H U; cbn [fold_left].
  - destruct H as [(o & [] & _)|H]; exact H.
  - apply IH; [|intros p I; apply U; right; exact I].
    destruct (is_point (o_kind o)) eqn:P; [destruct (ProofMeasure.text_eqb_spec (lit (o_name o)) n) as [E|N]|].
    + right. rewrite lookup_extended, P, (U o (or_introl eq_refl) P E). destruct (ProofMeasure.text_eqb_spec (lit (o_name o)) n); [reflexivity|contradiction].
    + destruct H as [(p & [<-|I] & Q & M & V)|H]; [contradiction|left; exists p; auto|].
      right. rewrite lookup_extended, P. destruct (o_vector o); [|exact H]. destruct (ProofMeasure.text_eqb_spec (lit (o_name o)) n); [contradiction|exact H].
    + destruct H as [(p & [<-|I] & Q & M & V)|H]; [congruence|left; exists p; auto|]. right. rewrite lookup_extended, P. exact H.
Qed.

(** The name of a point is its position at the end. *)
Variable deco : nat -> decoration.
Variable C : coordinates.
Variable M : list entry.
Hypothesis Run : detail_loop rf db s st deco 0 (ops s) [] = Ok (C, M).
Hypothesis Apart : named_apart s.
Lemma name_cast j q : nth_error (ops s) j = Some q -> is_point (o_kind q) = true -> exists v, o_vector q = Some v /\
  cast_position ModelTransformation.identity C (PName (lit (o_name q))) = Ok v.
Proof.
  intros J P. destruct (detail_loop_coordinates _ _ _ _ _ _ Run) as (-> & W). pose proof (nth_error_In _ _ J) as I.
  destruct (o_vector q) as [v|] eqn:V; [|destruct (W q I P V)]. exists v. split; [reflexivity|]. cbn [cast_position].
  rewrite (fold_lookup (ops s) [] (lit (o_name q)) v).
  - rewrite ProofSvgTransform.identity_apply. reflexivity.
  - left. exists q. auto.
  - intros o O Q E. apply lit_inj in E. apply In_nth_error in O as (k & O). rewrite (Apart k j o q O J Q P E) in O. rewrite O in J. injection J as ->. exact V.
Qed.
Lemma ref_cast o k p : name_of s o k = Ok p -> exists a, at_ref s o k a /\ cast_position ModelTransformation.identity C p = Ok a.
Proof.
  intro H. destruct (name_of_inv _ _ _ H) as (j & q & J & Q & P & ->). destruct (name_cast j q Q P) as (v & V & E). exists v. split; [exists j, q; auto|exact E].
Qed.

Notation cast := (cast_position ModelTransformation.identity C).
Lemma shows_segment p q a b : cast p = Ok a -> cast q = Ok b -> shows cast (SSegment p q) (Stroke a b).
Proof.
  intros A B. split; [|discriminate]. intro x. cbn [covers picture_points]. rewrite A, B. split.
  - intros (v & w & E & F & H). injection E as <-. injection F as <-. exact H.
  - intro H. exists a, b. auto.
Qed.
Lemma shows_cubic p q r t a b c d : cast p = Ok a -> cast q = Ok b -> cast r = Ok c -> cast t = Ok d -> shows cast (SCubic p q r t) (Curve a b c d).
Proof.
  intros A B D E. split; [|discriminate]. intro x. cbn [covers picture_points]. rewrite A, B, D, E. split.
  - intros (v & w & y & z & E1 & E2 & E3 & E4 & H). injection E1 as <-. injection E2 as <-. injection E3 as <-. injection E4 as <-. exact H.
  - intro H. exists a, b, c, d. auto.
Qed.
Lemma shows_disc p a r : cast p = Ok a -> shows cast (SCircle p r 0 360) (Disc a r).
Proof.
  intros A. split; [|discriminate]. intro x. cbn [covers picture_points]. rewrite A. split.
  - intros (v & w & E & _ & H). injection E as <-. exists w. exact H.
  - intros (w & H). exists a, w. split; [reflexivity|]. split; [|exact H]. left. rewrite Rabs_pos_eq; lra.
Qed.
Lemma shows_label p a t : cast p = Ok a -> shows cast (SText p t) (Label a t).
Proof. intros A. split; [|eauto]. intro x. cbn [covers picture_points]. rewrite A. split; [intro E; injection E as <-; reflexivity|intros ->; reflexivity]. Qed.
Lemma cast_vec v : cast (PVector v) = Ok v.
Proof. cbn. rewrite ProofSvgTransform.identity_apply. reflexivity. Qed.

Definition matches (d : decoration) (i : nat) (e : entry) (p : role * picture) : Prop :=
  e_user e = i /\ shows cast (e_shape e) (snd p) /\ dressed db black st d (fst p) (e_look e).
Lemma detail_op_ok i o d c c' l : nth_error (ops s) i = Some o -> detail_op rf db s st i o d c = Ok (c', l) -> o_kind o <> KOperation ->
  exists label m, (is_point (o_kind o) = true -> d_label d = Some label) /\ pictures s (k_point_size st) label o m /\ Forall2 (matches d i) l m.
Proof.
  intros I H N. unfold detail_op in H. unfold pictures.
  destruct (is_point (o_kind o)) eqn:P.
  - destruct (name_cast i o I P) as (v & HV & E). rewrite HV in H.
    assert (H' : exists x, d_label d = Some x /\ exists disc arrow, point_style rf db st = Ok disc /\ label_style rf db st = Ok arrow /\
       exists rest, l = [Entry (SCircle (PName (lit (o_name o))) (k_point_size st) 0 360) (LPath disc) i;
                            Entry (SSegment (PVector v) (PVector (vadd v (V (vx x) (- vy x))))) (LPath arrow) i;
                            Entry (SText (PVector (vadd v (V (vx x) (- vy x)))) (lit (o_name o))) LFont i] ++ rest /\
       if construction (o_kind o) then exists style a, operation_style rf db d (k_construction_width st) = Ok style /\ name_of s o 0 = Ok a /\
            rest = [Entry (SSegment a (PName (lit (o_name o)))) (LPath style) i]
       else rest = []).
    { destruct (o_kind o); try discriminate P; cbn [construction] in *; inv H dk D; destruct (d_label d) as [x|]; try discriminate H; inv H ar A;
        exists x; (split; [reflexivity|]); exists dk, ar; (split; [exact D|split; [exact A|]]).
      all: try (inv H style HS; inv H a NA; injection H as <- <-; eexists; (split; [reflexivity|]); exists style, a; auto).
      all: injection H as <- <-; exists []; auto. }
    clear H. destruct H' as (x & L & disc & arrow & D & A & rest & -> & R).
    apply (point_style_inv rf db black Hblack) in D. apply (label_style_inv rf db black Hblack) in A.
    assert (Q : vadd v (V (vx x) (- vy x)) = V (vx v + vx x) (vy v - vy x)) by (unfold vadd; cbn; f_equal; lra). rewrite Q. clear Q.
    assert (G : exists rest', match o_kind o with KAlong | KNormal | KEnd => exists a, at_ref s o 0 a /\ rest' = [(RConstruction, Stroke a v)] | _ => rest' = [] end /\
              Forall2 (matches d i) rest rest').
    { destruct (construction (o_kind o)) eqn:K.
      - destruct R as (style & a & HS & NA & ->). destruct (ref_cast _ _ _ NA) as (w & W & X). exists [(RConstruction, Stroke w v)]. split.
        + destruct (o_kind o); try discriminate K; exists w; auto.
        + constructor; [|constructor]. split; [reflexivity|]. split; [exact (shows_segment _ _ _ _ X E)|]. cbn [fst snd e_look dressed].
          exact (operation_style_inv rf db black Hblack _ _ _ HS).
      - subst rest. exists []. split; [destruct (o_kind o); reflexivity || discriminate K|constructor]. }
    destruct G as (rest' & G & F). exists x. eexists. split; [auto|]. split; [exists v; split; [exact HV|]; exists rest'; split; [reflexivity|exact G]|].
    cbn [app]. constructor; [|constructor; [|constructor; [|exact F]]].
    + split; [reflexivity|]. split; [exact (shows_disc _ _ _ E)|exact D].
    + split; [reflexivity|]. split; [apply shows_segment; apply cast_vec|exact A].
    + split; [reflexivity|]. split; [apply shows_label, cast_vec|exact Logic.I].
  - exists (V 0 0). destruct (o_kind o) eqn:K; try discriminate P; [contradiction| |].
    + inv H style HS. inv H a NA. inv H b NB. injection H as <- <-. destruct (ref_cast _ _ _ NA) as (w & W & X). destruct (ref_cast _ _ _ NB) as (y & Y & Z).
      eexists. split; [discriminate|]. split; [exists w, y; split; [exact W|split; [exact Y|reflexivity]]|].
      constructor; [|constructor]. split; [reflexivity|]. split; [exact (shows_segment _ _ _ _ X Z)|exact (operation_style_inv rf db black Hblack _ _ _ HS)].
    + inv H style HS. inv H a NA. inv H b NB. destruct (o_controls o) as [[p q]|] eqn:CC; [|discriminate H]. injection H as <- <-.
      destruct (ref_cast _ _ _ NA) as (w & W & X). destruct (ref_cast _ _ _ NB) as (y & Y & Z).
      eexists. split; [discriminate|]. split; [exists w, y, p, q; split; [exact W|split; [exact Y|split; reflexivity]]|].
      constructor; [|constructor]. split; [reflexivity|]. split; [apply shows_cubic; auto using cast_vec|exact (operation_style_inv rf db black Hblack _ _ _ HS)].
Qed.
Lemma detail_loop_ok l : forall i c c' m, (forall k o, nth_error l k = Some o -> nth_error (ops s) (i + k) = Some o) ->
  (forall o, In o l -> o_kind o <> KOperation) -> detail_loop rf db s st deco i l c = Ok (c', m) ->
  exists parts, List.length parts = List.length l /\ m = concat parts /\
    forall k o, nth_error l k = Some o -> exists part label pics, nth_error parts k = Some part /\
      (is_point (o_kind o) = true -> d_label (deco (i + k)%nat) = Some label) /\ pictures s (k_point_size st) label o pics /\ Forall2 (matches (deco (i + k)%nat) (i + k)) part pics.
Proof.
  induction l as [|o l IH]; intros i c c' m B K H; cbn [detail_loop] in H.
  - injection H as <- <-. exists []. split; [reflexivity|]. split; [reflexivity|]. intros [|k] o E; discriminate E.
  - inv H r HR. inv H t HT. injection H as <- <-. destruct r as (c1, l1), t as (c2, l2). cbn [fst snd] in *.
    pose proof (B 0%nat o eq_refl) as B0. rewrite Nat.add_0_r in B0. destruct (detail_op_ok _ _ _ _ _ _ B0 HR (K o (or_introl eq_refl))) as (label & pics & A1 & A2 & A3).
    destruct (IH (S i) c1 c2 l2) as (parts & P1 & P2 & P3); [|intros p I; apply K; right; exact I|exact HT|].
    { intros k p E. specialize (B (S k) p E). rewrite Nat.add_succ_r in B. exact B. }
    exists (l1 :: parts). split; [cbn; lia|]. split; [cbn; rewrite P2; reflexivity|]. intros [|k] p E.
    + injection E as <-. exists l1, label, pics. rewrite Nat.add_0_r. auto.
    + rewrite Nat.add_succ_r. exact (P3 k p E).
Qed.
End Detail.

(** ** The box *)
Lemma point_of_inv s o k v : point_of s o k = Ok (Some v) -> at_ref s o k v.
Proof.
  unfold point_of. destruct (nth_error (o_refs o) k) as [j|] eqn:E; [|discriminate]. destruct (nth_error (ops s) j) as [q|] eqn:F; [|discriminate].
  destruct (is_point (o_kind q)); [|discriminate]. intro H. injection H as H. exists j, q. auto.
Qed.
Lemma at_ref_det s o k a b : at_ref s o k a -> at_ref s o k b -> a = b.
Proof. intros (j & q & A & B & D) (j' & q' & A' & B' & D'). congruence. Qed.
Lemma operation_points_inv s o l : operation_points s o = Ok l -> l <> [] /\ (forall x, In x l <-> defined_by s o x) /\ made s o /\ o_kind o <> KOperation.
Proof.
  unfold operation_points, defined_by, made. destruct (o_kind o) eqn:K; cbn [is_point]; intro H;
    try (destruct (o_vector o) as [v|] eqn:V; [|discriminate H]; injection H as <-; split; [discriminate|]; split;
      [|split; [eauto|discriminate]]; intro x; cbn; split; [intros [<-|[]]; reflexivity|intro E; injection E as <-; auto]).
  - discriminate.
  - inv H a A. inv H b B. destruct a as [a|]; [|discriminate H]. destruct b as [b|]; [|discriminate H]. cbn in H. injection H as <-. apply point_of_inv in A, B.
    split; [discriminate|]. split; [|split; [eauto|discriminate]]. intro x. cbn. split; [intros [<-|[<-|[]]]; auto|].
    intros [E|E]; [left; exact (at_ref_det _ _ _ _ _ A E)|right; left; exact (at_ref_det _ _ _ _ _ B E)].
  - destruct (o_controls o) as [[p q]|]; [|discriminate H].
    inv H a A. inv H b B. destruct a as [a|]; [|discriminate H]. destruct b as [b|]; [|discriminate H]. cbn in H. injection H as <-. apply point_of_inv in A, B.
    split; [discriminate|]. split; [|split; [|discriminate]].
    + intro x. cbn. split; [intros [<-|[<-|[<-|[<-|[]]]]]; eauto 8|].
      intros [E|[E|(p' & q' & E & [->| ->])]]; [left; exact (at_ref_det _ _ _ _ _ A E)|right; right; right; left; exact (at_ref_det _ _ _ _ _ B E)| |]; injection E as <- <-; auto.
    + split; [eauto|]. split; [eauto|discriminate].
Qed.
Lemma point_of_ok s i o k a : on_points s -> nth_error (ops s) i = Some o -> at_ref s o k a -> point_of s o k = Ok (Some a).
Proof.
  intros O I (j & q & A & B & D). unfold point_of. rewrite A, B. destruct (O i o k j I A) as (q' & B' & P). rewrite B in B'. injection B' as <-. rewrite P, D. reflexivity.
Qed.
Lemma name_of_ok s i o k a : on_points s -> nth_error (ops s) i = Some o -> at_ref s o k a -> exists p, name_of s o k = Ok p.
Proof.
  intros O I (j & q & A & B & D). unfold name_of. rewrite A, B. destruct (O i o k j I A) as (q' & B' & P). rewrite B in B'. injection B' as <-. rewrite P. eauto.
Qed.
Lemma operation_points_ok s i o : on_points s -> nth_error (ops s) i = Some o -> made s o -> exists l, operation_points s o = Ok l.
Proof.
  intros O I. unfold made, operation_points. destruct (o_kind o); cbn [is_point]; try (intros (v & ->); eauto); try contradiction.
  - intros ((a & A) & b & B). rewrite (point_of_ok _ _ _ _ _ O I A), (point_of_ok _ _ _ _ _ O I B). cbn. eauto.
  - intros ((a & A) & (b & B) & Q). destruct (o_controls o) as [[p q]|]; [|congruence]. rewrite (point_of_ok _ _ _ _ _ O I A), (point_of_ok _ _ _ _ _ O I B). cbn. eauto.
Qed.

Lemma bunion_in a b x : inside a x \/ inside b x -> inside (bunion a b) x.
Proof.
  unfold inside, bunion. cbn. intro H.
  pose proof (Rmin_l (inf (bx a)) (inf (bx b))). pose proof (Rmin_r (inf (bx a)) (inf (bx b))). pose proof (Rmax_l (sup (bx a)) (sup (bx b))). pose proof (Rmax_r (sup (bx a)) (sup (bx b))).
  pose proof (Rmin_l (inf (by_ a)) (inf (by_ b))). pose proof (Rmin_r (inf (by_ a)) (inf (by_ b))). pose proof (Rmax_l (sup (by_ a)) (sup (by_ b))). pose proof (Rmax_r (sup (by_ a)) (sup (by_ b))).
  lra.
Qed.
Lemma bunion_least a b c : smaller a c -> smaller b c -> smaller (bunion a b) c.
Proof. unfold smaller, bunion. cbn. intros (A & B & D & E) (A' & B' & D' & E'). repeat split; (apply Rmin_glb || apply Rmax_lub); lra. Qed.
Definition least (P : vec -> Prop) (b : option box) : Prop :=
  match b with
  | None => forall x, ~ P x
  | Some b => (forall x, P x -> inside b x) /\ forall c, (forall x, P x -> inside c x) -> smaller b c
  end.
Lemma box_loop_ok s l : forall acc P b, least P acc -> box_loop s l acc = Ok b ->
  least (fun x => P x \/ exists o, In o l /\ defined_by s o x) b /\ (forall o, In o l -> made s o /\ o_kind o <> KOperation) /\ (b = None <-> acc = None /\ l = []).
Proof.
  induction l as [|o l IH]; intros acc P b L H; cbn [box_loop] in H.
  - injection H as <-. split; [|split; [intros o []|tauto]]. destruct acc as [a|]; cbn in *.
    + destruct L as (L1 & L2). split; [intros x [E|(o & [] & _)]; auto|]. intros c E. apply L2. auto.
    + intros x [E|(o & [] & _)]. exact (L x E).
  - inv H ps E. destruct (operation_points_inv _ _ _ E) as (NE & D & MD & NK). destruct (ProofSegment.bounding_box_ok ps NE) as (bb & BB & B1 & B2). rewrite BB in H.
    assert (L' : least (fun x => P x \/ defined_by s o x) (Some match acc with None => bb | Some a => bunion a bb end)).
    { destruct acc as [a|]; cbn in L |- *.
      - destruct L as (L1 & L2). split.
        + intros x [X|X]; apply bunion_in; [left; auto|right; apply B1, D, X].
        + intros c X. apply bunion_least; [apply L2; auto|]. apply B2. intros q Q. apply X. right. apply D, Q.
      - split; [intros x [X|X]; [destruct (L x X)|apply B1, D, X]|]. intros c X. apply B2. intros q Q. apply X. right. apply D, Q. }
    destruct (IH _ _ _ L' H) as (IH1 & IH2 & IH3). split; [|split].
    + destruct b as [b|].
      * destruct IH1 as (Q1 & Q2). split.
        -- intros x [X|(p & [<-|I] & X)]; apply Q1; [auto|auto|right; eauto].
        -- intros c X. apply Q2. intros x [[Y|Y]|(p & I & Y)]; apply X; [auto|right; exists o; cbn; auto|right; exists p; cbn; auto].
      * intros x [X|(p & [<-|I] & X)]; apply (IH1 x); [auto|auto|right; eauto].
    + intros p [<-|I]; [auto|exact (IH2 p I)].
    + split; [intro X; apply IH3 in X as (X & _); discriminate|intros (_ & X); discriminate].
Qed.
Lemma box_loop_defined s l : forall acc, (forall o, In o l -> exists m, operation_points s o = Ok m) -> exists b, box_loop s l acc = Ok b.
Proof.
  induction l as [|o l IH]; intros acc H; cbn [box_loop]; [eauto|]. destruct (H o (or_introl eq_refl)) as (m & E). rewrite E. cbn [bind].
  destruct (operation_points_inv _ _ _ E) as (NE & _). destruct (ProofSegment.bounding_box_ok m NE) as (bb & BB & _). rewrite BB. apply IH. intros p I. apply H. right. exact I.
Qed.

(** ** The whole *)
Section Whole.
Variable rf : text -> result ModelColor.float.
Variable db : ModelColor.database.
Variable black : ModelColor.color.
Hypothesis Hblack : getitem db (lit "black") = Ok black.

Lemma sketch_box_ok s b : sketch_box s = Ok b -> least (fun x => exists o, In o (ops s) /\ defined_by s o x) b /\
  (forall o, In o (ops s) -> made s o /\ o_kind o <> KOperation) /\ (b = None <-> ops s = []).
Proof.
  intro H. destruct (box_loop_ok s (ops s) None (fun _ => False) b (fun _ F => F) H) as (L & K & N). split; [|split; [exact K|tauto]].
  destruct b as [b|]; cbn in *.
  - destruct L as (L1 & L2). split; [intros x X; apply L1; auto|]. intros c X. apply L2. intros x [[]|Y]; auto.
  - intros x X. apply (L x). auto.
Qed.
Lemma scene_drawn s st deco t : named_apart s -> detail_scene rf db s st deco = Ok t ->
  sketch_box s = Ok (t_box t) /\
  exists parts, List.length parts = List.length (ops s) /\ t_items t = concat parts /\
    forall i o, nth_error (ops s) i = Some o -> exists part label l, nth_error parts i = Some part /\
      (is_point (o_kind o) = true -> d_label (deco i) = Some label) /\ pictures s (k_point_size st) label o l /\
      Forall2 (fun e p => e_user e = i /\ shows (cast_position ModelTransformation.identity (t_coordinates t)) (e_shape e) (snd p) /\ dressed db black st (deco i) (fst p) (e_look e)) part l.
Proof.
  intros A H. unfold detail_scene in H. inv H b HB. inv H r HR. injection H as <-. destruct r as (c, m). cbn [t_box t_items t_coordinates fst snd].
  split; [exact HB|]. destruct (sketch_box_ok _ _ HB) as (_ & K & _).
  destruct (detail_loop_ok rf db black Hblack s st deco c m HR A (ops s) 0 [] c m) as (parts & P1 & P2 & P3); [intros k o E; exact E|intros o I; apply K, I|exact HR|].
  exists parts. split; [exact P1|]. split; [exact P2|]. exact P3.
Qed.
Lemma scene_coordinates s st deco t : named_apart s -> detail_scene rf db s st deco = Ok t ->
  forall i o, nth_error (ops s) i = Some o -> is_point (o_kind o) = true -> exists v, o_vector o = Some v /\ ModelMeasure.lookup (t_coordinates t) (lit (o_name o)) = Some v.
Proof.
  intros A H i o I P. unfold detail_scene in H. inv H b HB. inv H r HR. injection H as <-. destruct r as (c, m). cbn [t_box t_items t_coordinates fst snd].
  destruct (name_cast rf db s st deco c m HR A i o I P) as (v & HV & E). exists v. split; [exact HV|]. cbn [cast_position] in E.
  destruct (ModelMeasure.lookup c (lit (o_name o))); [|discriminate]. rewrite ProofSvgTransform.identity_apply in E. injection E as ->. reflexivity.
Qed.

Lemma pictures_made s size label o l : pictures s size label o l -> made s o.
Proof.
  unfold pictures, made. destruct (o_kind o); cbn [is_point]; try contradiction.
  all: try (intros (v & E & _); exists v; exact E).
  - intros (a & b & A & B & _). eauto.
  - intros (a & b & p & q & A & B & C & _). split; [eauto|]. split; [eauto|]. rewrite C. discriminate.
Qed.
Lemma drawable_op s st i o d c : on_points s -> nth_error (ops s) i = Some o -> drawable db s st o d -> exists r, detail_op rf db s st i o d c = Ok r.
Proof.
  intros O I ((label & l & L & P) & D1 & D2). unfold detail_op. unfold pictures in P. destruct (is_point (o_kind o)) eqn:K.
  - destruct P as (v & HV & rest & _ & P). destruct (D1 eq_refl) as (pc & PC). destruct (point_style_ok rf db black Hblack st pc PC) as (dk & DK).
    destruct (label_style_ok rf db black Hblack st) as (ar & AR). specialize (L eq_refl). rewrite HV, DK, L, AR. cbn [bind].
    destruct (o_kind o); try discriminate K; cbn [construction]; try (eexists; reflexivity).
    all: destruct (D2 Logic.I) as ((x & X) & y & Y); destruct (operation_style_ok rf db black Hblack d (k_construction_width st) x y X Y) as (sy & SY); rewrite SY; cbn [bind];
      destruct P as (a & A & _); destruct (name_of_ok _ _ _ _ _ O I A) as (pn & PN); rewrite PN; eexists; reflexivity.
  - destruct (o_kind o); try discriminate K; try (eexists; reflexivity).
    + destruct P as (a & b & A & B & _).
      destruct (D2 Logic.I) as ((x & X) & y & Y); destruct (operation_style_ok rf db black Hblack d (k_line_width st) x y X Y) as (sy & SY); rewrite SY; cbn [bind].
      destruct (name_of_ok _ _ _ _ _ O I A) as (pn & PN); rewrite PN; cbn [bind]. destruct (name_of_ok _ _ _ _ _ O I B) as (qn & QN); rewrite QN. eexists; reflexivity.
    + destruct P as (a & b & p & q & A & B & C & _).
      destruct (D2 Logic.I) as ((x & X) & y & Y); destruct (operation_style_ok rf db black Hblack d (k_line_width st) x y X Y) as (sy & SY); rewrite SY; cbn [bind].
      destruct (name_of_ok _ _ _ _ _ O I A) as (pn & PN); rewrite PN; cbn [bind]. destruct (name_of_ok _ _ _ _ _ O I B) as (qn & QN); rewrite QN. cbn [bind]. rewrite C. eexists; reflexivity.
Qed.
Lemma drawable_loop s st deco l : on_points s -> forall i c, (forall k o, nth_error l k = Some o -> nth_error (ops s) (i + k) = Some o /\ drawable db s st o (deco (i + k)%nat)) ->
  exists r, detail_loop rf db s st deco i l c = Ok r.
Proof.
  intro O. induction l as [|o l IH]; intros i c H; cbn [detail_loop]; [eauto|].
  destruct (H 0%nat o eq_refl) as (A & B). rewrite Nat.add_0_r in A, B. destruct (drawable_op s st i o (deco i) c O A B) as (r & E). rewrite E. cbn [bind].
  destruct (IH (S i) (fst r)) as (t & T); [|rewrite T; cbn [bind]; eauto]. intros k p K. specialize (H (S k) p K). rewrite Nat.add_succ_r in H. exact H.
Qed.
(** Conversely, what is drawn was drawable *)
Lemma op_drawable s st i o d c r : detail_op rf db s st i o d c = Ok r -> made s o -> 
  (forall k, construction (o_kind o) = true -> k = 0%nat -> exists a, at_ref s o k a) -> drawable db s st o d.
Proof.
  intros H M R. unfold detail_op in H. unfold drawable, pictures. unfold made in M. destruct (is_point (o_kind o)) eqn:K.
  - destruct M as (v & HV). rewrite HV in H.
    assert (H' : exists dk x, point_style rf db st = Ok dk /\ d_label d = Some x /\ (construction (o_kind o) = true -> exists p, operation_style rf db d (k_construction_width st) = Ok p)).
    { destruct (o_kind o); try discriminate K; cbn [construction] in *; inv H dk D; destruct (d_label d) as [x|]; try discriminate H; inv H ar A; exists dk, x;
       (split; [exact D|]); (split; [reflexivity|]); try discriminate; inv H sy SY; eauto. }
    destruct H' as (dk & x & D & L & S). apply (point_style_inv rf db black Hblack) in D. cbn [dressed] in D. destruct D as (D & _). split; [|split; [eauto|]].
    + exists x. destruct (construction (o_kind o)) eqn:Z.
      * destruct (R 0%nat eq_refl eq_refl) as (a & A). eexists. split; [auto|]. exists v. split; [exact HV|]. exists [(RConstruction, Stroke a v)]. split; [reflexivity|].
        destruct (o_kind o); try discriminate Z; exists a; auto.
      * eexists. split; [auto|]. exists v. split; [exact HV|]. exists []. split; [reflexivity|]. destruct (o_kind o); try discriminate Z; reflexivity.
    + intro Q. assert (Z : construction (o_kind o) = true) by (destruct (o_kind o); try contradiction; try discriminate K; reflexivity).
      destruct (S Z) as (p & P). apply (operation_style_inv rf db black Hblack) in P as (P1 & P2 & _). eauto.
  - split; [|split; [discriminate|]].
    + exists (V 0 0). destruct (o_kind o); try discriminate K; try contradiction.
      * destruct M as ((a & A) & b & B). eexists. split; [discriminate|]. exists a, b. split; [exact A|]. split; [exact B|reflexivity].
      * destruct M as ((a & A) & (b & B) & C). destruct (o_controls o) as [[p q]|]; [|congruence]. eexists. split; [discriminate|]. exists a, b, p, q. split; [exact A|]. split; [exact B|]. split; reflexivity.
    + intros _. destruct (o_kind o); try discriminate K; try contradiction.
      all: inv H sy SY; apply (operation_style_inv rf db black Hblack) in SY as (P1 & P2 & _); eauto.
Qed.
Lemma loop_drawable s st deco l : forall i c r, detail_loop rf db s st deco i l c = Ok r ->
  (forall k o, nth_error l k = Some o -> made s o /\ (construction (o_kind o) = true -> exists a, at_ref s o 0 a)) ->
  forall k o, nth_error l k = Some o -> drawable db s st o (deco (i + k)%nat).
Proof.
  induction l as [|o l IH]; intros i c r H M [|k] p E; try discriminate E; cbn [detail_loop] in H; inv H r1 HR; inv H t HT.
  - injection E as <-. rewrite Nat.add_0_r. destruct (M 0%nat o eq_refl) as (A & B). apply (op_drawable s st i o (deco i) c r1 HR A). intros k Q ->. exact (B Q).
  - rewrite Nat.add_succ_r. apply (IH (S i) (fst r1) t HT); [|exact E]. intros k' q K'. exact (M (S k') q K').
Qed.
Lemma loop_named s st deco p : construction (o_kind p) = true -> forall l i c r k, detail_loop rf db s st deco i l c = Ok r -> nth_error l k = Some p -> exists q, name_of s p 0 = Ok q.
Proof.
  intro Q. induction l as [|o l IH]; intros i c r [|k] H E; try discriminate E; cbn [detail_loop] in H; inv H r1 HR; inv H t HT; [|exact (IH _ _ _ _ HT E)].
  injection E as ->. unfold detail_op in HR. destruct (o_kind p); try discriminate Q; destruct (o_vector p) as [v|]; try discriminate HR; inv HR dk D; destruct (d_label (deco i)) as [x|]; try discriminate HR;
    inv HR ar A; cbn [construction] in HR; inv HR sy SY; inv HR q HQ; eauto.
Qed.
Lemma scene_defined s st deco : on_points s -> (exists t, detail_scene rf db s st deco = Ok t) <-> forall i o, nth_error (ops s) i = Some o -> drawable db s st o (deco i).
Proof.
  intro O. unfold detail_scene. split.
  - intros (t & H). inv H b HB. inv H r HR. destruct (sketch_box_ok _ _ HB) as (_ & K & _). intros i o I. refine (loop_drawable s st deco (ops s) 0 [] r HR _ i o I).
    intros k p P. split; [apply K; eapply nth_error_In, P|]. intro Q. destruct (loop_named s st deco p Q (ops s) 0 [] r k HR P) as (q & NQ).
    destruct (name_of_inv _ _ _ _ NQ) as (j & o' & J & O' & PO & _). destruct (K o' (nth_error_In _ _ O')) as (MO & _). unfold made in MO. rewrite PO in MO. destruct MO as (v & HV).
    exists v, j, o'. auto.
  - intro D. destruct (box_loop_defined s (ops s) None) as (b & B).
    { intros o I. apply In_nth_error in I as (i & I). destruct (D i o I) as ((label & l & _ & P) & _). exact (operation_points_ok s i o O I (pictures_made _ _ _ _ _ P)). }
    unfold sketch_box. rewrite B. cbn [bind]. destruct (drawable_loop s st deco (ops s) O 0 []) as (r & R); [intros k o K; split; [exact K|exact (D k o K)]|]. rewrite R. cbn [bind]. eauto.
Qed.
End Whole.

(** ** The box holds what is made *)
Lemma convex3 t a b c d : 0 <= t <= 1 -> forall lo hi, lo <= a <= hi -> lo <= b <= hi -> lo <= c <= hi -> lo <= d <= hi ->
  lo <= (1 - t) ^ 3 * a + 3 * (1 - t) ^ 2 * t * b + 3 * (1 - t) * t ^ 2 * c + t ^ 3 * d <= hi.
Proof.
  intros T lo hi A B C D.
  assert (P1 : 0 <= (1 - t) ^ 3) by (apply pow_le; lra). assert (P4 : 0 <= t ^ 3) by (apply pow_le; lra).
  assert (P2 : 0 <= 3 * (1 - t) ^ 2 * t) by (apply Rmult_le_pos; [apply Rmult_le_pos; [lra|apply pow_le; lra]|lra]).
  assert (P3 : 0 <= 3 * (1 - t) * t ^ 2) by (apply Rmult_le_pos; [lra|apply pow_le; lra]).
  assert (S : (1 - t) ^ 3 + 3 * (1 - t) ^ 2 * t + 3 * (1 - t) * t ^ 2 + t ^ 3 = 1) by ring.
  set (k1 := (1 - t) ^ 3) in *. set (k2 := 3 * (1 - t) ^ 2 * t) in *. set (k3 := 3 * (1 - t) * t ^ 2) in *. set (k4 := t ^ 3) in *. clearbody k1 k2 k3 k4.
  split.
  - replace lo with (k1 * lo + k2 * lo + k3 * lo + k4 * lo) by (rewrite <- !Rmult_plus_distr_r, S; ring).
    repeat apply Rplus_le_compat; apply Rmult_le_compat_l; lra.
  - replace hi with (k1 * hi + k2 * hi + k3 * hi + k4 * hi) by (rewrite <- !Rmult_plus_distr_r, S; ring).
    repeat apply Rplus_le_compat; apply Rmult_le_compat_l; lra.
Qed.
Lemma convex1 t a b : 0 <= t <= 1 -> forall lo hi, lo <= a <= hi -> lo <= b <= hi -> lo <= (1 - t) * a + t * b <= hi.
Proof.
  intros T lo hi A B. split.
  - replace lo with ((1 - t) * lo + t * lo) by ring. apply Rplus_le_compat; apply Rmult_le_compat_l; lra.
  - replace hi with ((1 - t) * hi + t * hi) by ring. apply Rplus_le_compat; apply Rmult_le_compat_l; lra.
Qed.
Lemma made_inside s o b : (forall x, defined_by s o x -> inside b x) -> forall x, made_of s o x -> inside b x.
Proof.
  unfold defined_by, made_of. intros H x. destruct (is_point (o_kind o)); [apply H|]. destruct (o_kind o); try contradiction.
  - intros (p & q & P & Q & t & T & ->). pose proof (H p (or_introl P)) as (A & B). pose proof (H q (or_intror Q)) as (A' & B'). unfold inside. cbn [vx vy].
    split; apply convex1; assumption.
  - intros (a & d & p & q & A & D & E & t & T & ->).
    pose proof (H a (or_introl A)) as (A1 & A2). pose proof (H d (or_intror (or_introl D))) as (D1 & D2).
    destruct (H p) as (P1 & P2); [right; right; exists p, q; auto|]. destruct (H q) as (Q1 & Q2); [right; right; exists p, q; auto|].
    unfold inside. cbn [vx vy]. split; apply convex3; assumption.
Qed.
(** The defining points which are not control points are made *)
Lemma made_defined s o x : made s o -> o_kind o <> KSpline -> defined_by s o x -> made_of s o x.
Proof.
  unfold made, defined_by, made_of. destruct (is_point (o_kind o)); [auto|]. intros M N D. destruct (o_kind o); try contradiction.
  destruct M as ((a & A) & b & B), D as [E|E].
  - exists x, b. split; [exact E|]. split; [exact B|]. exists 0. split; [lra|]. destruct x; cbn. f_equal; lra.
  - exists a, x. split; [exact A|]. split; [exact E|]. exists 1. split; [lra|]. destruct x; cbn. f_equal; lra.
Qed.
Lemma box_ok s b : sketch_box s = Ok b -> match b with
  | None => ops s = []
  | Some b => ops s <> [] /\ (forall o x, In o (ops s) -> made_of s o x -> inside b x) /\
      (forall c, (forall o x, In o (ops s) -> defined_by s o x -> inside c x) -> smaller b c) /\
      ((forall o, In o (ops s) -> o_kind o <> KSpline) -> forall c, (forall o x, In o (ops s) -> made_of s o x -> inside c x) -> smaller b c)
  end.
Proof.
  intro H. destruct (sketch_box_ok s b H) as (L & K & N). destruct b as [b|]; [|apply N; reflexivity].
  destruct L as (L1 & L2). split; [intro E; apply N in E; discriminate|]. split; [|split].
  - intros o x I M. apply (made_inside s o b); [|exact M]. intros y Y. apply L1. eauto.
  - intros c Y. apply L2. intros x (o & I & D). exact (Y o x I D).
  - intros NS c Y. apply L2. intros x (o & I & D). apply (Y o x I). apply made_defined; [apply K, I|apply NS, I|exact D].
Qed.
Lemma box_defined s : on_points s -> (exists b, sketch_box s = Ok b) <-> forall o, In o (ops s) -> made s o.
Proof.
  intro O. split.
  - intros (b & H) o I. apply (sketch_box_ok s b H), I.
  - intro H. apply box_loop_defined. intros o I. pose proof (H o I) as M. apply In_nth_error in I as (i & I). exact (operation_points_ok s i o O I M).
Qed.
