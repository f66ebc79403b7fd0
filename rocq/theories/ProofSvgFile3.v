From Coq Require Import String Ascii List Bool Arith Reals ZArith Lia Lra.
From Flocq Require Import Core.
From Verif Require Import Base ModelFormula ModelMeasure ModelVector ModelTransformation ModelLine ModelPath ModelSvgPath ModelSvgTransform.
From Verif Require ModelXml SpecXml ModelSvgState SpecSvgState SpecPainter ProofPainter3 SpecPath GluePath ProofPath ProofPath7 ProofVector.
From Verif Require Import ProofMeasure ProofSvgTransform.
From Verif Require ProofXml ProofSvgState.
From Verif Require Import ModelSvgFile SpecSvgFile ProofSvgFile ProofSvgFile2.
Import ListNotations.
Local Open Scope list_scope.
Local Open Scope R_scope.

Section Numbers.
Variable float_str : R -> text.
Variable float_parse : text -> result R.
Variable fuel : nat.
Notation read_value := (read_value float_parse fuel).
Notation means := (means float_parse fuel).

(** ** Lengths *)
Lemma units_shape u : In u units -> exists a b, u = [a; b] /\ is_alpha b = true.
Proof.
  intro H. assert (Q : forallb (fun u => match u with [_; b] => is_alpha b | _ => false end) units = true) by (vm_compute; reflexivity).
  rewrite forallb_forall in Q. specialize (Q u H). destruct u as [|a [|b [|? ?]]]; try discriminate. exists a, b. split; [reflexivity|exact Q].
Qed.
Definition last_letter (s : text) : option ascii := match rev s with c :: _ => Some c | [] => None end.
Lemma two_not_inherit t a b x : float_parse t = Ok x -> float_parse (lit "inher") = Raise ValueError -> t ++ [a; b] <> lit "inherit".
Proof.
  intros E N H. change (lit "inherit") with (lit "inher" ++ [ascii_of_nat 105; ascii_of_nat 116]) in H.
  assert (t = lit "inher"); [|congruence]. apply (f_equal (fun l => rev l)) in H. rewrite !rev_app_distr in H. cbn [rev app] in H. injection H as _ _ H.
  rewrite <- (rev_involutive t), H. reflexivity.
Qed.
Lemma length_number t x : float_parse t = Ok x -> float_parse (lit "inher") = Raise ValueError ->
  (forall u, In u units -> exists v, read_value KLength (t ++ u) = Ok v /\ float_of float_parse v = Ok x) /\
  (exists v, read_value KLength (t ++ lit "%") = Ok v /\ float_of float_parse v = Ok (x / 100)) /\
  (forall c, last_char t c -> is_alpha c = false -> c <> "%"%char -> read_value KLength t = Ok (VNumber x)).
Proof.
  intros E N. split; [|split].
  - intros u U. destruct (units_shape u U) as (a & b & -> & A). exists (VUnit x [a]). split; [|reflexivity].
    apply value_means. right. split; [exact (two_not_inherit t a b x E N)|]. right. right. exists t, a, b, x. repeat split; assumption.
  - exists (VPercent (x / 100)). split; [|reflexivity]. apply value_means. right. split.
    + intro H. change (lit "%") with ["%"%char] in H. apply (f_equal (fun l => last l "0"%char)) in H. rewrite last_last in H. discriminate.
    + right. left. exists t, x. repeat split. exact E.
  - intros c L A P. apply value_means. right. split.
    + intros ->. destruct L as (r & L). apply (f_equal (fun l => last l "0"%char)) in L. rewrite last_last in L. vm_compute in L. subst c. discriminate A.
    + left. exists c, x. repeat split; assumption.
Qed.
Lemma unit_lost t x : float_parse t = Ok x -> float_parse (lit "inher") = Raise ValueError ->
  read_value KLength (t ++ lit "pt") = read_value KLength (t ++ lit "px") /\ is_ok (read_value KLength (t ++ lit "px")) /\ read_value KLength (t ++ lit "pt") = read_value KLength (t ++ lit "pc") /\
  read_value KLength (t ++ lit "em") = read_value KLength (t ++ lit "ex").
Proof.
  intros E N.
  assert (Q : forall a b, is_alpha b = true -> read_value KLength (t ++ [a; b]) = Ok (VUnit x [a])).
  { intros a b A. apply value_means. right. split; [exact (two_not_inherit t a b x E N)|]. right. right. exists t, a, b, x. repeat split; assumption. }
  unfold lit. cbn [list_ascii_of_string]. rewrite !Q by reflexivity. repeat split. eexists. reflexivity.
Qed.
Lemma unit_written t x u : float_parse t = Ok x -> float_parse (lit "inher") = Raise ValueError -> In u units ->
  exists v s, read_value KLength (t ++ u) = Ok v /\ write_value float_str KLength v = Ok s /\ read_value KLength s = Raise IndexError.
Proof.
  intros E N U. assert (Q : forallb (fun u => match u with [a; b] => is_alpha a && is_alpha b && negb (Ascii.eqb a "%") | _ => false end) units = true) by (vm_compute; reflexivity).
  rewrite forallb_forall in Q. specialize (Q u U). destruct u as [|a [|b [|? ?]]]; try discriminate. apply andb_prop in Q. destruct Q as [Q Q3]. apply andb_prop in Q. destruct Q as [Q1 Q2].
  exists (VUnit x [a]), [a]. split; [|split; [reflexivity|]].
  - apply value_means. right. split; [exact (two_not_inherit t a b x E N)|]. right. right. exists t, a, b, x. repeat split; assumption.
  - cbn [ModelSvgFile.read_value]. destruct (text_eqb_spec [a] (lit "inherit")) as [H|_]; [discriminate H|]. unfold read_length. cbn [rev app].
    destruct (Ascii.eqb a "%"); [discriminate Q3|]. rewrite Q1. reflexivity.
Qed.
Lemma percent_written t x : float_parse t = Ok x -> exists v s, read_value KLength (t ++ lit "%") = Ok v /\ write_value float_str KLength v = Ok s /\
  s = lit "<Patro.FileFormat.Svg.SvgFormat.PercentValue object>".
Proof.
  intro E. exists (VPercent (x / 100)). eexists. split; [|split; reflexivity]. apply value_means. right. split.
  - intro H. change (lit "%") with ["%"%char] in H. apply (f_equal (fun l => last l "0"%char)) in H. rewrite last_last in H. discriminate.
  - right. left. exists t, x. repeat split. exact E.
Qed.

(** ** The box *)
Lemma box_exact tag a children f s l : read_file float_parse fuel (Element tag a children) = Ok f -> lookup a (lit "viewBox") = Some s -> s <> lit "none" ->
  numbers_of float_parse s l -> exists x y w h, l = [x; y; w; h] /\ f_view_box f = Box (Itv x w) (Itv y h) /\ (view_box l (f_view_box f) <-> x = 0 /\ y = 0).
Proof.
  intros F V NN NL. destruct (file_read float_parse fuel _ f F) as (tag' & a' & ch & svg & sh & x & y & x' & y' & E & _ & G & L & B & _).
  injection E as <- <- <-. destruct (G (attr "view_box" "viewBox" KFloatList)) as (v & W & M); [cbn; tauto|]. cbn [attr a_py a_xml a_kind] in W, M.
  rewrite L in W. injection W as <-. rewrite V in M. apply value_means in M. apply (proj2 (list_means float_parse fuel s l NN)) in NL. rewrite NL in M. injection M as ->.
  exists x, y, x', y'. split; [reflexivity|]. split; [exact B|]. rewrite B. split.
  - intros (p & q & w & h & E1 & E2). injection E1 as <- <- <- <-. injection E2 as H1 H2. lra.
  - intros [-> ->]. exists 0, 0, x', y'. split; [reflexivity|]. f_equal; f_equal; ring.
Qed.
Lemma comma_space s a tag children : lookup a (lit "viewBox") = Some s -> s = lit "0, 0, 100, 100" -> float_parse (lit "0,") = Raise ValueError ->
  ~ is_ok (read_file float_parse fuel (Element tag a children)).
Proof.
  intros V E N [f F]. destruct (file_read float_parse fuel _ f F) as (tag' & a' & ch & svg & sh & x & y & x' & y' & E' & _ & G & L & B & _).
  injection E' as <- <- <-. destruct (G (attr "view_box" "viewBox" KFloatList)) as (v & W & M); [cbn; tauto|]. cbn [attr a_py a_xml a_kind] in W, M.
  rewrite V in M. apply value_means in M. subst s. cbn [ModelSvgFile.read_value] in M.
  change (text_eqb (lit "0, 0, 100, 100") (lit "none")) with false in M. change (ModelXml.contains " " (lit "0, 0, 100, 100")) with true in M. cbn iota in M.
  change (split " " (lit "0, 0, 100, 100")) with [lit "0,"; lit "0,"; lit "100,"; lit "100"] in M. cbn [traverse] in M. rewrite N in M. discriminate.
Qed.

(** ** Rectangles *)
Lemma get_has o n v : has o n v -> get o (lit n) = Ok v.
Proof. unfold has, get. intros ->. reflexivity. Qed.
Section Rect.
Variables (o : object) (x y w h : R) (vw vh vrx : value).
Hypotheses (Hw : has o "width" vw) (Ew : float_of float_parse vw = Ok w) (Hh : has o "height" vh) (Eh : float_of float_parse vh = Ok h)
  (Hx : has o "x" (VNumber x)) (Hy : has o "y" (VNumber y)) (Hrx : has o "rx" vrx).
Lemma rect_path vr r : has o "ry" vr -> match vr with VNumber r => (if Reqb r 0 then None else Some r) | _ => None end = r ->
  rect_geometry float_parse o = rounded_rectangle (V x y) w h r.
Proof.
  intros Hr <-. unfold rect_geometry. rewrite (get_has _ _ _ Hw). cbn [bind]. rewrite Ew. cbn [bind]. rewrite (get_has _ _ _ Hh). cbn [bind]. rewrite Eh. cbn [bind].
  rewrite (get_has _ _ _ Hrx). cbn [bind]. rewrite (get_has _ _ _ Hr). cbn [bind].
  destruct vr; cbn [bind]; rewrite (get_has _ _ _ Hx); cbn [bind]; rewrite (get_has _ _ _ Hy); reflexivity.
Qed.
Lemma rect_rounded r : has o "ry" (VNumber r) -> 0 < r -> 0 < w -> 0 < h ->
  exists p, rect_geometry float_parse o = Ok p /\ closed p = true /\ List.length (parts p) = 4%nat /\
  forall i c s e, nth_error [(V (x + r) (y + r), V x (y + r), V (x + r) y); (V (x + (w - r)) (y + r), V (x + (w - r)) y, V (x + w) (y + r));
      (V (x + (w - r)) (y + (h - r)), V (x + w) (y + (h - r)), V (x + (w - r)) (y + h)); (V (x + r) (y + (h - r)), V (x + r) (y + h), V x (y + (h - r)))] i = Some (c, s, e) ->
    GluePath.rounded p i r /\ fst (bulge_center i p) = Ok c /\ fst (bulge_start_point i p) = Ok s /\ fst (bulge_stop_point i p) = Ok e.
Proof.
  intros Hr R0 W0 H0. rewrite (rect_path (VNumber r) (Some r) Hr).
  2: { unfold Reqb. destruct (Req_EM_T r 0); [lra|reflexivity]. }
  destruct (ProofPath7.rectangle_ok (V x y) w h r R0 W0 H0) as (p & P & C & L & G). exists p. refine (conj P (conj C (conj L _))).
  intros i c s e Hn. apply G. rewrite <- Hn. unfold ProofPath7.rectangle_arcs. cbv zeta beta. cbn [vx vy]. replace (x + 0) with x by ring. replace (y + 0) with y by ring. reflexivity.
Qed.
Lemma rect_sharp vr : has o "ry" vr -> (vr = VNone \/ vr = VNumber 0) ->
  exists p, rect_geometry float_parse o = Ok p /\ closed p = true /\ GluePath.sharp p /\ List.length (parts p) = 4%nat /\
  forall i a b, nth_error [(V x y, V (x + w) y); (V (x + w) y, V (x + w) (y + h)); (V (x + w) (y + h), V x (y + h)); (V x (y + h), V x y)] i = Some (a, b) ->
    start_point p i = Ok a /\ stop_point p i = Ok b.
Proof.
  intros Hr K. rewrite (rect_path vr None Hr).
  2: { destruct K as [->| ->]; [reflexivity|]. unfold Reqb. destruct (Req_EM_T 0 0); [reflexivity|lra]. }
  eexists. split; [reflexivity|]. split; [reflexivity|]. split.
  { intros i r HR. unfold GluePath.rounded in HR. cbn in HR. destruct i as [|[|[|[|i]]]]; cbn in HR; destruct HR as (s & c & E & Q); try (injection E as <- <-; cbn in Q; discriminate Q). destruct i; discriminate E. }
  split; [reflexivity|].
  assert (D : Forall GluePath.drawable [HorizontalTo w None false; VerticalTo h None false; HorizontalTo (- w) None false; Close None None]) by repeat constructor.
  destruct (ProofPath.draw_follows (V x y) _ _ D eq_refl) as [_ F].
  intros i a b E. apply (F i). rewrite <- E. cbn [map GluePath.pen SpecPath.trace SpecPath.arrive]. destruct i as [|[|[|[|i]]]]; cbn; try (destruct i; reflexivity); f_equal; apply pair_equal_spec; split; apply ProofVector.vec_eq; cbn; ring.
Qed.
End Rect.
End Numbers.
