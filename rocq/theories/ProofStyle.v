From Coq Require Import String Ascii List Bool Arith ZArith Lia.
From Flocq Require Import Core BinarySingleNaN.
From Verif Require Import Base ModelFormula ModelMeasure ModelXml ModelStyle SpecStyle ProofMeasure.
From Verif Require ModelColor.
Import ModelColor(float, color, c_name, argument, AInt, AFloat, AText, AColor, AOther, database, getitem, ensure_color, of_int).
Import ListNotations.

Lemma Ok_inj {A} (a b : A) : Ok a = Ok b -> a = b.
Proof. congruence. Qed.
Section Style.
Variable read_float : text -> result float.
Variable db : database.
Variable black : color.
Hypothesis Hblack : getitem db (lit "black") = Ok black.
Notation new_style := (new_style read_float db).
Notation clone_style := (clone_style read_float db).
Notation new_bezier_style := (new_bezier_style read_float db).
Notation clone_bezier_style := (clone_bezier_style read_float db).

Lemma given_get {A} k name (d : value) (x dx : A) (reads : value -> result A) : reads d = Ok dx -> reads (get k name d) = Ok x <-> given k name dx reads x.
Proof.
  intro D. unfold get, given. destruct (lookup k name) as [v|].
  - split; [intro H; split; [intros w E; injection E as <-; exact H|discriminate]|]. intros (H & _). apply H. reflexivity.
  - rewrite D. split; [intro H; injection H as ->; split; [discriminate|reflexivity]|]. intros (_ & H). rewrite H; reflexivity.
Qed.
Lemma bind_some {A B} (r : result A) (k : A -> result B) b : bind r k = Ok b -> exists a, r = Ok a /\ k a = Ok b.
Proof. destruct r; [eauto|discriminate]. Qed.
Lemma color_color c : to_color db (of_color c) = Ok c.
Proof. destruct c; reflexivity. Qed.
Lemma made_ok k s : new_style k = Ok s <-> made_of read_float db black k s.
Proof.
  unfold ModelStyle.new_style, made_of. rewrite Hblack.
  rewrite <- (given_get k (lit "stroke_style") (PStroke SolidLine)) by reflexivity.
  rewrite <- (given_get k (lit "line_width") (PArg (AFloat (of_int 1)))) by reflexivity.
  rewrite <- (given_get k (lit "stroke_color") (PArg (AColor black))) by reflexivity.
  rewrite <- (given_get k (lit "stroke_alpha") (PArg (AFloat (of_int 1)))) by reflexivity.
  rewrite <- (given_get k (lit "fill_color") PNone) by reflexivity.
  rewrite <- (given_get k (lit "fill_alpha") (PArg (AFloat (of_int 1)))) by reflexivity.
  rewrite <- (given_get k (lit "cap_style") (PCap SquareCap)) by reflexivity.
  rewrite <- (given_get k (lit "join_style") (PJoin BevelJoin)) by reflexivity.
  cbn [bind]. split.
  - intro H. apply bind_some in H as (a & A & H). apply bind_some in H as (b & B & H). apply bind_some in H as (c & C & H). apply bind_some in H as (d & D & H).
    apply bind_some in H as (e & E & H). apply bind_some in H as (f & F & H). apply bind_some in H as (g & G & H). injection H as <-. cbn. auto 10.
  - destruct s as [a w b c d e f g]. cbn [s_stroke_style s_line_width s_stroke_color s_stroke_alpha s_fill_color s_fill_alpha s_cap_style s_join_style].
    intros (A & W & B & C & D & E & F & G). rewrite A. cbn [bind]. rewrite B. cbn [bind]. rewrite C. cbn [bind]. rewrite D. cbn [bind]. rewrite E. cbn [bind]. rewrite F. cbn [bind]. rewrite G. cbn [bind].
    apply Ok_inj in W. rewrite W. reflexivity.
Qed.
Lemma clone_path_ok s : clone_style s = Ok (PathStyle (s_stroke_style s) (s_line_width s) (s_stroke_color s) (of_int 1) (s_fill_color s) (of_int 1) SquareCap BevelJoin).
Proof.
  unfold ModelStyle.clone_style, ModelStyle.new_style, style_dict, get.
  change (lookup ?l (lit "stroke_style")) with (Some (PStroke (s_stroke_style s))). change (lookup ?l (lit "line_width")) with (Some (s_line_width s)).
  change (lookup ?l (lit "stroke_color")) with (Some (of_color (s_stroke_color s))). change (lookup ?l (lit "fill_color")) with (Some (of_color (s_fill_color s))).
  change (lookup ?l (lit "stroke_alpha")) with (@None value). change (lookup ?l (lit "fill_alpha")) with (@None value).
  change (lookup ?l (lit "cap_style")) with (@None value). change (lookup ?l (lit "join_style")) with (@None value).
  rewrite Hblack, !color_color. reflexivity.
Qed.
Lemma clone_path_same s : clone_style s = Ok s <-> s_stroke_alpha s = of_int 1 /\ s_fill_alpha s = of_int 1 /\ s_cap_style s = SquareCap /\ s_join_style s = BevelJoin.
Proof.
  rewrite clone_path_ok. destruct s as [a w b c d e f g]. cbn [s_stroke_style s_line_width s_stroke_color s_stroke_alpha s_fill_color s_fill_alpha s_cap_style s_join_style]. split.
  - intro H. injection H as <- <- <- <-. auto.
  - intros (-> & -> & -> & ->). reflexivity.
Qed.
Definition default_style : path_style := PathStyle SolidLine (PArg (AFloat (of_int 1))) (Some black) (of_int 1) None (of_int 1) SquareCap BevelJoin.
Lemma clone_bezier_ok s : clone_bezier_style s = Ok (BezierStyle default_style (b_show_control s) (b_control_color s)).
Proof.
  unfold ModelStyle.clone_bezier_style, ModelStyle.new_bezier_style, ModelStyle.new_style, bezier_dict, get.
  change (lookup ?l (lit "stroke_style")) with (@None value). change (lookup ?l (lit "line_width")) with (@None value).
  change (lookup ?l (lit "stroke_color")) with (@None value). change (lookup ?l (lit "fill_color")) with (@None value).
  change (lookup ?l (lit "stroke_alpha")) with (@None value). change (lookup ?l (lit "fill_alpha")) with (@None value).
  change (lookup ?l (lit "cap_style")) with (@None value). change (lookup ?l (lit "join_style")) with (@None value).
  change (lookup ?l (lit "show_control")) with (Some (PBool (b_show_control s))). change (lookup ?l (lit "control_color")) with (Some (of_color (b_control_color s))).
  rewrite Hblack, !color_color. reflexivity.
Qed.
Lemma clone_bezier_same s : clone_bezier_style s = Ok s <-> b_path s = default_style.
Proof.
  rewrite clone_bezier_ok. destruct s as [p b c]. cbn [b_path b_show_control b_control_color]. split; [intro H; injection H as <-; reflexivity|intros ->; reflexivity].
Qed.
Lemma bezier_made k s : new_bezier_style k = Ok s <->
  made_of read_float db black k (b_path s) /\ given k (lit "show_control") false (fun v => Ok (to_bool v)) (b_show_control s) /\ given k (lit "control_color") None (to_color db) (b_control_color s).
Proof.
  unfold ModelStyle.new_bezier_style. rewrite <- (given_get k (lit "show_control") (PBool false)) by reflexivity. rewrite <- (given_get k (lit "control_color") PNone) by reflexivity.
  rewrite <- made_ok. split.
  - intro H. apply bind_some in H as (p & P & H). cbv zeta in H. apply bind_some in H as (c & C & H). injection H as <-. auto.
  - destruct s as [p b c]. cbn [b_path b_show_control b_control_color]. intros (P & B & C). rewrite P. cbn [bind]. cbv zeta. rewrite C. cbn [bind]. apply Ok_inj in B. rewrite B. reflexivity.
Qed.
(** TikZ *)
Variable str : value -> text.
Lemma tikz_dash s : s_stroke_style s = DashDotDotLine -> tikz_style str s = Raise KeyError.
Proof. intro E. unfold tikz_style. rewrite E. reflexivity. Qed.
Lemma tikz_nameless st w al f fa ca jo c d : c_name c = None -> c_name d = None ->
  tikz_style str (PathStyle st w (Some c) al f fa ca jo) = tikz_style str (PathStyle st w (Some d) al f fa ca jo).
Proof. intros C D. unfold tikz_style. cbn [s_stroke_style s_stroke_color s_line_width]. rewrite C, D. reflexivity. Qed.
Lemma tikz_invisible w c al f fa ca jo : tikz_style str (PathStyle NoPen w (Some c) al f fa ca jo) =
  Ok (join (lit ", ") ((lit "line width=" ++ str w) :: match c_name c with Some n => [n] | None => [] end)).
Proof. reflexivity. Qed.
Lemma tikz_ok s c : s_stroke_style s <> DashDotDotLine -> s_stroke_color s = Some c ->
  exists t, tikz_style str s = Ok t /\ exists parts, t = join (lit ", ") ((lit "line width=" ++ str (s_line_width s)) :: parts) /\
    (forall n, c_name c = Some n -> In n parts).
Proof.
  intros D C. unfold tikz_style. rewrite C. cbn [bind]. destruct (s_stroke_style s); try contradiction; cbn [tikz_stroke bind];
  (eexists; split; [reflexivity|]; eexists; split; [reflexivity|]; intros n ->; rewrite in_app_iff; right; left; reflexivity).
Qed.
End Style.

Lemma by_number_inv A (l : list A) z x : by_number l z = Ok x -> exists n, z = Z.of_nat (S n) /\ nth_error l n = Some x.
Proof.
  unfold by_number. destruct (z <=? 0)%Z eqn:E; [discriminate|]. apply Z.leb_gt in E.
  destruct (nth_error l (Z.to_nat z - 1)) eqn:N; [|discriminate]. intros [= <-]. exists (Z.to_nat z - 1). split; [lia | auto].
Qed.

Lemma members_ok :
  (forall v s, to_stroke v = Ok s <-> v = PStroke s \/ v = PArg (AInt (stroke_number s))) /\
  (forall v c, to_cap v = Ok c <-> v = PCap c \/ v = PArg (AInt (cap_number c))) /\
  (forall v j, to_join v = Ok j <-> v = PJoin j \/ v = PArg (AInt (join_number j))).
Proof.
  split; [|split]; intros v x; (split; [|intros [-> | ->]; [reflexivity | destruct x; reflexivity]]);
  (destruct v as [|?|?|?|?|[z| | | |]]; simpl; try discriminate; try (intros [= <-]; now left));
  intros H; right; apply by_number_inv in H as (n&->&H);
  repeat (destruct n as [|n]; [simpl in H; injection H as <-; reflexivity|]);
  simpl in H; destruct n; discriminate.
Qed.

Lemma truth_ok v : to_bool v = false <-> falsy v.
Proof.
  split.
  - destruct v as [|[]|?|?|?|[z|f|t| |]]; simpl; try discriminate; try constructor.
    + destruct (Z.eqb_spec z 0); [subst; constructor | discriminate].
    + destruct f; try discriminate. constructor.
    + destruct t; [constructor | discriminate].
  - destruct 1; reflexivity.
Qed.
Lemma of_color_inj x y : of_color x = of_color y -> x = y.
Proof. destruct x, y; cbn; intro H; try discriminate; [injection H as ->|]; reflexivity. Qed.
Lemma setters_ok rf db s a v t : set_style rf db s a v = Ok t <-> converted rf db a v (attribute_of t a) /\ forall b, b <> a -> attribute_of t b = attribute_of s b.
Proof.
  split.
  - destruct s, a; cbn [set_style]; intro H;
    try (match type of H with bind ?r _ = _ => destruct r eqn:E; [|discriminate H] end); cbn [bind] in H; injection H as <-; cbn [converted attribute_of]; cbn;
    (split; [try (eexists; split; [first [eassumption | reflexivity]|reflexivity]); try reflexivity|intros [] N; try reflexivity; now destruct N]).
  - destruct s as [st w c al f fa ca jo], t as [st' w' c' al' f' fa' ca' jo']. intros (C & K).
    pose proof (K SStrokeStyle) as K1. pose proof (K SLineWidth) as K2. pose proof (K SStrokeColor) as K3. pose proof (K SStrokeAlpha) as K4.
    pose proof (K SFillColor) as K5. pose proof (K SFillAlpha) as K6. pose proof (K SCapStyle) as K7. pose proof (K SJoinStyle) as K8. clear K.
    cbn in K1, K2, K3, K4, K5, K6, K7, K8.
    destruct a; cbn in C; cbn [set_style];
    repeat match goal with
    | H : ?a <> ?a -> _ |- _ => clear H
    | H : ?a <> ?b -> _ |- _ => specialize (H ltac:(discriminate))
    | H : PStroke _ = PStroke _ |- _ => injection H as ->
    | H : PCap _ = PCap _ |- _ => injection H as ->
    | H : PJoin _ = PJoin _ |- _ => injection H as ->
    | H : PArg (AFloat _) = PArg (AFloat _) |- _ => injection H as ->
    | H : of_color _ = of_color _ |- _ => apply of_color_inj in H; subst
    end; subst; try reflexivity;
    (destruct C as (x & E & Q); rewrite E; try (apply of_color_inj in Q); try (injection Q as Q); subst; reflexivity).
Qed.
