(** Writing an operation. *)
From Coq Require Import String Ascii List Bool Arith ZArith Lia.
From Verif Require Import Base ModelFormula ModelMeasure ProofMeasure SpecXml SpecColor.
From Verif Require ModelXml ProofXml ModelColor ProofColor ModelStyle ModelSketch.
From Verif Require Import ModelValentina SpecValentina ProofValentina ProofValentina2.
Import ModelColor(color, color_str, database, ensure_color, AText, AColor, new_color, color_eq).
Import ModelStyle(stroke_style, NoPen, SolidLine, DashLine, DotLine, DashDotLine, DashDotDotLine).
Import ModelXml(int_parse, int_str, xml_char).
Import ModelSketch(kind, KOperation, KPoint, KSingle, KAlong, KEnd, KIntersect, KNormal, KContact, KIntersection, KLine, KSpline, is_point,
  expr, ops, o_kind, o_id, o_name, o_refs).
Import ListNotations.
Local Open Scope result_scope.

Lemma rgb_xml r g b : xml_text (rgb_text r g b).
Proof.
  assert (N : forall z, 32 <= nat_of_ascii (nibble z)).
  { intro z. unfold nibble. generalize (Z.to_nat z) as n. intro n. do 16 (destruct n as [|n]; [cbn; lia|]). destruct n; cbn; lia. }
  intros c C. left. unfold rgb_text, byte_text in C. cbn [app In] in C.
  repeat (destruct C as [<-|C]; [first [apply N|cbn; lia]|]). destruct C.
Qed.
Lemma int_xml z : xml_text (int_str z).
Proof. intros c C. left. apply ProofXml.int_str_chars in C. lia. Qed.
Lemma lit_xml s : forallb xml_char s = true -> xml_text s.
Proof.
  intros H c C. rewrite forallb_forall in H. specialize (H c C). unfold xml_char in H. cbn [In].
  apply orb_true_iff in H. destruct H as [H|H]; [|apply Nat.eqb_eq in H; rewrite H; auto].
  apply orb_true_iff in H. destruct H as [H|H]; [|apply Nat.eqb_eq in H; rewrite H; auto].
  apply orb_true_iff in H. destruct H as [H|H]; [|apply Nat.eqb_eq in H; rewrite H; auto].
  apply Nat.leb_le in H. left. exact H.
Qed.
Lemma ordinary_back db c : ordinary c -> exists t c', color_str c = Ok t /\ xml_text t /\
  ensure_color db (Some (AText t)) = Ok (Some c') /\ color_eq c c' = Ok true.
Proof.
  intros (r & g & b & R & G & B & E).
  destruct (ProofColor.text_ok (rgb_text r g b) r g b None R G B (ProofColor.rgb_spelled r g b)) as (d & D1 & _ & D2 & _).
  exists (rgb_text r g b), d. split; [exact E|]. split; [apply rgb_xml|]. split.
  - unfold ensure_color. change (starts (lit "#") (rgb_text r g b)) with true. rewrite D1. reflexivity.
  - unfold color_eq. rewrite E, D2. cbn [bind]. rewrite self_eqb. reflexivity.
Qed.

Section Write.
Context {float : Type} (float_str : float -> text) (float_parse : text -> result float) (db : database) (black : color)
  (parse : text -> expr).
Hypothesis Hf : faithful float_str float_parse.
Notation pyval := (pyval float).
Notation from := (from_xml float float_str float_parse db).
Notation description := (@description float).
Notation state := (state float).
Notation write := (write float float_str float_parse db).
Notation as_text := (as_text float_str).

Section One.
Variable d : description.
Variables (sty : stroke_style) (gcol : pyval) (xcol : option text) (tmx tmy : text).
Hypothesis W : writable d.
Hypothesis Hl : labelled (d_kind d) -> from AFloat (d_mx d) = Ok (d_mx d) /\ as_text (d_mx d) (Some tmx) /\
  from AFloat (d_my d) = Ok (d_my d) /\ as_text (d_my d) (Some tmy).
Hypothesis Hd : drawn (d_kind d) -> d_style d = PStroke _ sty /\ from AColour (d_color d) = Ok gcol /\ as_text gcol xcol.
Hypothesis Hs : d_kind d = KSpline -> from AString (d_color d) = Ok gcol /\ as_text gcol xcol.

(** The attributes of the operation, then those of the calculation *)
Definition before_ (name : text) : pyval :=
  if text_eqb name (lit "id") then PInt _ (d_id d)
  else if text_eqb name (lit "name") then PText _ (d_name d)
  else if text_eqb name (lit "mx") then d_mx d
  else if text_eqb name (lit "my") then d_my d
  else if text_eqb name (lit "line_style") then d_style d
  else if text_eqb name (lit "line_color") then d_color d
  else
    match position (point_names (d_kind d)) name with
    | Some j => POp _ (nth j (d_points d) 0%Z)
    | None => PExpr _ (match position (expression_names (d_kind d)) name with Some j => nth j (d_formulas d) [] | None => [] end)
    end.
Definition after_ (name : text) : pyval :=
  if text_eqb name (lit "id") then PInt _ (d_id d)
  else if text_eqb name (lit "name") then PText _ (d_name d)
  else if text_eqb name (lit "mx") then d_mx d
  else if text_eqb name (lit "my") then d_my d
  else if text_eqb name (lit "line_style") then PText _ (stroke_text sty)
  else if text_eqb name (lit "line_color") then gcol
  else
    match position (point_names (d_kind d)) name with
    | Some j => PInt _ (nth j (d_points d) 0%Z)
    | None => PText _ (match position (expression_names (d_kind d)) name with Some j => nth j (d_formulas d) [] | None => [] end)
    end.
(** The texts of the XML attributes *)
Definition texts_ (name : text) : option text :=
  if text_eqb name (lit "id") then Some (int_str (d_id d))
  else if text_eqb name (lit "name") then Some (d_name d)
  else if text_eqb name (lit "mx") then Some tmx
  else if text_eqb name (lit "my") then Some tmy
  else if text_eqb name (lit "typeLine") then Some (stroke_text sty)
  else if text_eqb name (lit "lineColor") then xcol
  else if text_eqb name (lit "color") then xcol
  else
    match position (map lit (point_attributes (d_kind d))) name with
    | Some j => Some (int_str (nth j (d_points d) 0%Z))
    | None => match position (map lit (formula_attributes (d_kind d))) name with Some j => Some (nth j (d_formulas d) []) | None => None end
    end.

Ltac lists := repeat match goal with
  | H : length ?l = S _ |- _ => destruct l; [discriminate H|cbn [length] in H; injection H as H]
  | H : length ?l = 0 |- _ => destruct l; [clear H|discriminate H]
  end.
Lemma attribute_ok a : In a (canonical (d_kind d)) ->
  from (a_kind a) (before_ (a_py a)) = Ok (after_ (a_py a)) /\ as_text (after_ (a_py a)) (texts_ (a_xml a)).
Proof.
  intro Ha. pose proof (w_points _ W) as Pn. pose proof (w_formulas _ W) as Fn. pose proof (w_kind _ W) as Wk. unfold before_, after_, texts_. revert Hl Hd Hs Ha. clear W.
  destruct d as [k id name pts fml mx' my' style col]. cbn [d_kind d_id d_name d_points d_formulas d_mx d_my d_style d_color] in *. intros Hl Hd Hs Ha.
  unfold canonical in Ha.
  apply in_app_or in Ha. destruct Ha as [[<-|[]]|Ha]; [split; [reflexivity|split; [discriminate|reflexivity]]|].
  apply in_app_or in Ha. destruct Ha as [Ha|Ha].
  { assert (L : labelled k) by (destruct k; cbn in Ha; first [exact I|contradiction|destruct Wk; reflexivity]). destruct (Hl L) as (X1 & X2 & Y1 & Y2).
    destruct (is_point k); [|destruct Ha]. destruct Ha as [<-|[<-|[<-|[]]]]; [split; [reflexivity|split; [discriminate|reflexivity]]|split; [exact X1|exact X2]|split; [exact Y1|exact Y2]]. }
  apply in_app_or in Ha. destruct Ha as [Ha|Ha].
  { assert (D : drawn k \/ k = KSpline) by (destruct k; cbn in Ha; first [left; exact I|right; reflexivity|contradiction]).
    destruct D as [D| ->].
    - destruct (Hd D) as (-> & C & T). assert (Ha' : In a a_line) by (destruct k; first [exact Ha|destruct D]). clear Ha.
      destruct Ha' as [<-|[<-|[]]].
      + split; [exact C|exact T].
      + split; [reflexivity|split; [discriminate|reflexivity]].
    - destruct (Hs eq_refl) as (C & T). destruct Ha as [<-|[]]. split; [exact C|exact T]. }
  clear Hl Hd Hs. 
  destruct k; cbn [point_names expression_names point_attributes formula_attributes combine map length] in *; lists; cbn [app In] in Ha;
  repeat (destruct Ha as [<-|Ha]; [split; [reflexivity|split; [discriminate|reflexivity]]|]); destruct Ha.
Qed.

Lemma field_ok st i name : is_operation parse st i d -> In name (map a_py (canonical (d_kind d))) -> ~ In name mxmy ->
  field float st i name = Ok (before_ name).
Proof.
  intros (o & x & O & X & K1 & K2 & K3 & K4 & K5 & _ & K6 & K7 & K8 & K9) N NX. unfold field, before_. rewrite O, X.
  rewrite K1, K2, K3, K5, K8, K9.
  pose proof (w_points _ W) as Pn. pose proof (w_formulas _ W) as Fn. pose proof (w_kind _ W) as Wk. revert N. clear Hl Hd Hs W K1 K2 K3 K5 K6 K7 K8 K9 X O.
  destruct d as [k id nm pts fml mx' my' style col]. cbn [d_kind d_id d_name d_points d_formulas d_mx d_my d_style d_color] in *. intros N.
  destruct k; cbn [spelled] in Wk; try congruence; clear Wk;
  cbn [point_names expression_names point_attributes formula_attributes length] in *; lists;
  repeat match goal with
  | H : Forall2 _ _ (_ :: _) |- _ => inversion H as [|? ? ? ? [? [? ?]] ?]; clear H; subst
  | H : Forall2 _ _ [] |- _ => inversion H; clear H; subst
  end;
  cbn in N;
  repeat (destruct N as [<-|N];
    [first [reflexivity
           | exfalso; apply NX; vm_compute; tauto
           | cbn; repeat match goal with H : nth_error _ _ = Some _ |- _ => rewrite H; clear H end; reflexivity]|]); destruct N.
Qed.

Lemma written st i : is_operation parse st i d ->
  (forall t, xcol = Some t -> xml_text t) -> xml_text tmx -> xml_text tmy ->
  exists e, write st i = Ok e /\ e_tag e = tag_of (d_kind d) /\
    (forall n, In n (map a_xml (canonical (d_kind d))) -> lookup (e_attrib e) n = texts_ n) /\
    (forall s, type_of (d_kind d) = Some s -> lookup (e_attrib e) (lit "type") = Some s).
Proof.
  intros Op Xc Xx Xy. pose proof Op as (o & x & O & X & K1 & K2 & K3 & K4 & K5 & _ & K6 & K7 & K8 & K9).
  unfold ModelValentina.write. rewrite O, X, K1.
  pose proof (w_kind _ W) as Wk.
  destruct (table (d_kind d)) as [t|err] eqn:T; [|destruct (d_kind d); cbn in T, Wk; congruence]. cbn [bind].
  pose proof (table_canonical _ _ T) as TC.
  assert (Kw : exists kwargs, (if is_point (d_kind d) then
      bind (get_dict float t (field float st i) mxmy []) (fun k => Ok (set_item (set_item k (lit "mx") (x_mx _ x)) (lit "my") (x_my _ x)))
    else get_dict float t (field float st i) [] []) = Ok kwargs /\
    forall a, In a t -> lookup kwargs (a_py a) = Some (before_ (a_py a))).
  { assert (Gf : forall a, In a t -> ~ In (a_py a) mxmy -> field float st i (a_py a) = Ok (before_ (a_py a))).
    { intros a A NX. apply field_ok; [exact Op|apply in_map, TC, A|exact NX]. }
    destruct (is_point (d_kind d)) eqn:Pk.
    - destruct (get_dict_ok before_ (field float st i) mxmy t Gf []) as (k & Ek & Lk & Nk & _). rewrite Ek. cbn [bind].
      eexists. split; [reflexivity|]. intros a A. rewrite !lookup_set.
      destruct (text_eqb_spec (lit "my") (a_py a)) as [E|E1].
      + rewrite K7, <- E. reflexivity.
      + destruct (text_eqb_spec (lit "mx") (a_py a)) as [E|E2].
        * rewrite K6, <- E. reflexivity.
        * apply Lk; [exact A|]. intros [E|[E|[]]]; congruence.
    - assert (Fx : forall a, In a t -> ~ In (a_py a) mxmy).
      { intros a A Y. apply TC in A. clear - A Y Pk Wk. destruct (d_kind d); cbn in Pk, Wk; try congruence; cbn in A;
          repeat (destruct A as [<-|A]; [vm_compute in Y; repeat (destruct Y as [Y|Y]; [discriminate|]); exact Y|]); exact A. }
      destruct (get_dict_ok before_ (field float st i) [] t (fun a A _ => Gf a A (Fx a A)) []) as (k & Ek & Lk & _).
      exists k. split; [exact Ek|]. intros a A. apply Lk; [exact A|intros []]. }
  destruct Kw as (kwargs & Ek & Lk). rewrite Ek. cbn [bind].
  destruct (init_kwargs_ok float_str float_parse db after_ kwargs t) with (i := @nil (text * pyval)) as (inst & Ei & Li).
  { intros a A. rewrite (Lk a A). apply attribute_ok, TC, A. }
  rewrite Ei. cbn [bind].
  destruct (attrs_ok float_str texts_ inst t) with (e := @nil (text * text)) as (e & Ee & Le & Ne & Me).
  { intros a A. exists (after_ (a_py a)). split; [exact (Li a A)|]. apply attribute_ok, TC, A. }
  rewrite Ee. cbn [bind].
  set (e' := match type_of (d_kind d) with Some s => set_item e (lit "type") s | None => e end).
  assert (Ck : check_attributes e' = Ok e').
  { unfold check_attributes. replace (forallb (fun p => forallb xml_char (snd p)) e') with true; [reflexivity|]. symmetry. apply forallb_forall.
    assert (Xe : forall p, In p e -> xml_text (snd p)).
    { intros p P. destruct (Me p P) as [[]|(a & s & A & Ea & ->)]. apply TC in A. clear - A Ea Xc Xx Xy W.
      assert (Ws : xml_text (stroke_text sty)) by (destruct sty; apply lit_xml; reflexivity).
      assert (Fm : forall j, xml_text (nth j (d_formulas d) [])).
      { intro j. destruct (Nat.lt_ge_cases j (length (d_formulas d))) as [L|L]; [apply (w_texts _ W), nth_In, L|].
        rewrite nth_overflow by exact L. intros c []. }
      assert (Nm : In (lit "name") (map a_xml (canonical (d_kind d))) -> xml_text (d_name d)).
      { intro N. apply (w_label _ W). pose proof (w_kind _ W) as Wk. clear - N Wk. destruct (d_kind d); try (destruct Wk; reflexivity); vm_compute in N; try exact I; repeat (destruct N as [N|N]; [discriminate|]); exact N. }
      apply (in_map a_xml) in A. revert A Ea. generalize (a_xml a) as n. intros n A Ea. unfold texts_ in Ea.
      destruct (text_eqb n (lit "id")); [injection Ea as <-; apply int_xml|].
      destruct (text_eqb_spec n (lit "name")) as [->|_]; [injection Ea as <-; exact (Nm A)|].
      destruct (text_eqb n (lit "mx")); [injection Ea as <-; exact Xx|].
      destruct (text_eqb n (lit "my")); [injection Ea as <-; exact Xy|].
      destruct (text_eqb n (lit "typeLine")); [injection Ea as <-; exact Ws|].
      destruct (text_eqb n (lit "lineColor")); [exact (Xc s Ea)|].
      destruct (text_eqb n (lit "color")); [exact (Xc s Ea)|].
      destruct (position _ n); [injection Ea as <-; apply int_xml|].
      destruct (position (map lit (formula_attributes (d_kind d))) n); [injection Ea as <-; apply Fm|discriminate]. }
    intros p P. apply ProofXml.xml_char_spec. unfold e' in P. destruct (type_of (d_kind d)) as [s|] eqn:Ty; [|exact (Xe p P)].
    destruct (set_in _ _ _ _ P) as [Q| ->]; [exact (Xe p Q)|].
    destruct (d_kind d); cbn in Ty; try discriminate; injection Ty as <-; apply lit_xml; reflexivity. }
  rewrite Ck. cbn [bind]. eexists. split; [reflexivity|]. cbn [e_tag e_attrib]. split; [reflexivity|]. split.
  - intros n N. assert (NT : text_eqb (lit "type") n = false).
    { clear - N. destruct (text_eqb_spec (lit "type") n) as [<-|]; [|reflexivity]. exfalso.
      destruct (d_kind d); vm_compute in N; repeat (destruct N as [N|N]; [discriminate|]); exact N. }
    assert (Q : lookup e n = texts_ n).
    { apply in_map_iff in N. destruct N as (a & <- & A). apply TC in A. destruct (texts_ (a_xml a)) as [s|] eqn:E.
      - rewrite <- E. apply Le; [exact A|]. rewrite E. discriminate.
      - rewrite Ne; [reflexivity|]. intros b B Eb. exact E. }
    unfold e'. destruct (type_of (d_kind d)); [rewrite lookup_set, NT; exact Q|exact Q].
  - intros s Ty. unfold e'. rewrite Ty, lookup_set, self_eqb. reflexivity.
Qed.
End One.

Lemma style_listed s : exists t, In (t, s) styles /\ stroke_text s = lit t.
Proof. destruct s; [exists "none"%string|exists "hair"%string|exists "dashLine"%string|exists "dotLine"%string|exists "dashDotLine"%string|exists "dashDotDotLine"%string]; (split; [vm_compute; tauto|reflexivity]). Qed.

Lemma position_lit l : forall j n, nth_error l j = Some n -> NoDup (map lit l) -> position (map lit l) (lit n) = Some j.
Proof.
  induction l as [|m l IH]; intros j n H D; [destruct j; discriminate|]. cbn [map position]. inversion D as [|? ? D1 D2]; subst.
  destruct j as [|j]; cbn in H.
  - injection H as ->. rewrite self_eqb. reflexivity.
  - destruct (text_eqb_spec (lit m) (lit n)) as [E|_]; [|rewrite (IH j n H D2); reflexivity].
    exfalso. apply D1. rewrite E. apply in_map. exact (nth_error_In _ _ H).
Qed.
Lemma write_says st i d : is_operation parse st i d -> writable d ->
  exists e d', write st i = Ok e /\ says float_parse db e d' /\ same d d' /\
    (d_kind d = KSpline -> exists t, d_color d' = PText _ t /\ py_str _ float_str (d_color d) = Ok t).
Proof.
  intros Op W.
  assert (M : exists tmx tmy, xml_text tmx /\ xml_text tmy /\ (labelled (d_kind d) -> from AFloat (d_mx d) = Ok (d_mx d) /\ as_text (d_mx d) (Some tmx) /\
     from AFloat (d_my d) = Ok (d_my d) /\ as_text (d_my d) (Some tmy) /\
     from AFloat (PText _ tmx) = Ok (d_mx d) /\ from AFloat (PText _ tmy) = Ok (d_my d) /\
     exists x y, float_parse tmx = Ok x /\ d_mx d = PFloat _ x /\ float_parse tmy = Ok y /\ d_my d = PFloat _ y)).
  { assert (Dc : labelled (d_kind d) \/ ~ labelled (d_kind d)) by (destruct (d_kind d); cbn; tauto). destruct Dc as [L|L].
    - destruct (w_label _ W L) as (_ & (x & X) & (y & Y)). exists (float_str x), (float_str y).
      assert (Wf : forall z, xml_text (float_str z)) by (intros z c C; left; apply (f_word _ _ Hf) in C; lia).
      split; [apply Wf|]. split; [apply Wf|]. intros _. rewrite X, Y. cbn [from_xml]. rewrite !(f_back _ _ Hf).
      repeat (split; [first [reflexivity|split; [discriminate|reflexivity]]|]). exists x, y. repeat (split; [first [reflexivity|apply (f_back _ _ Hf)]|]). reflexivity.
    - exists [], []. split; [intros c []|]. split; [intros c []|]. intro H. contradiction. }
  destruct M as (tmx & tmy & Xx & Xy & M).
  assert (C : exists sty gcol xcol col', (forall t, xcol = Some t -> xml_text t) /\
     (drawn (d_kind d) -> d_style d = PStroke _ sty /\ from AColour (d_color d) = Ok gcol /\ as_text gcol xcol /\ same_paint (d_color d) col' /\
        (xcol = None /\ col' = PNone _ \/ exists t c, xcol = Some t /\ ensure_color db (Some (AText t)) = Ok (Some c) /\ col' = PColor _ c)) /\
     (d_kind d = KSpline -> from AString (d_color d) = Ok gcol /\ as_text gcol xcol /\ exists t, py_str _ float_str (d_color d) = Ok t /\ xcol = Some t /\ col' = PText _ t)).
  { assert (Dc : drawn (d_kind d) \/ d_kind d = KSpline \/ ~ drawn (d_kind d) /\ d_kind d <> KSpline) by (destruct (d_kind d); cbn; (tauto || (right; right; split; [tauto|discriminate]))).
    destruct Dc as [D|[D|[D1 D2]]].
    - destruct (w_drawn _ W D) as ((s & Es) & P). assert (Ns : d_kind d <> KSpline) by (intro H; rewrite H in D; exact D).
      destruct P as [P|(c & P & Oc)].
      + exists s, (PNone _), None, (PNone _). split; [discriminate|]. split; [|intro; contradiction]. intros _. rewrite P.
        repeat (split; [first [exact Es|reflexivity|left; split; reflexivity]|]). left. split; reflexivity.
      + destruct (ordinary_back db c Oc) as (t & c' & E1 & E2 & E3 & E4). exists s, (PColor _ c), (Some t), (PColor _ c').
        split; [intros t' H; injection H as <-; exact E2|]. split; [|intro; contradiction]. intros _. rewrite P.
        split; [exact Es|]. split; [reflexivity|]. split; [split; [discriminate|exact E1]|].
        split; [right; exists c, c'; auto|]. right. exists t, c'. auto.
    - assert (T : exists t, py_str _ float_str (d_color d) = Ok t /\ xml_text t).
      { destruct (w_spline _ W D) as [[P|(c & P & Oc)]|(t & P & X)]; rewrite P.
        - exists (lit "None"). split; [reflexivity|]. apply lit_xml. reflexivity.
        - destruct (ordinary_back db c Oc) as (t & c' & E1 & E2 & _). exists t. auto.
        - exists t. auto. }
      destruct T as (t & T & X). exists SolidLine, (PText _ t), (Some t), (PText _ t). split; [intros t' H; injection H as <-; exact X|].
      split; [intro H; rewrite D in H; destruct H|]. intros _. cbn [from_xml]. rewrite T. split; [reflexivity|]. split; [split; [discriminate|reflexivity]|]. exists t. auto.
    - exists SolidLine, (PNone _), None, (PNone _). split; [discriminate|]. split; intro H; contradiction. }
  destruct C as (sty & gcol & xcol & col' & Xc & Hd & Hs).
  assert (Hl1 : labelled (d_kind d) -> from AFloat (d_mx d) = Ok (d_mx d) /\ as_text (d_mx d) (Some tmx) /\ from AFloat (d_my d) = Ok (d_my d) /\ as_text (d_my d) (Some tmy))
    by (intro L; destruct (M L) as (A1 & A2 & A3 & A4 & _); auto).
  assert (Hd1 : drawn (d_kind d) -> d_style d = PStroke _ sty /\ from AColour (d_color d) = Ok gcol /\ as_text gcol xcol)
    by (intro L; destruct (Hd L) as (A1 & A2 & A3 & _); auto).
  assert (Hs1 : d_kind d = KSpline -> from AString (d_color d) = Ok gcol /\ as_text gcol xcol)
    by (intro L; destruct (Hs L) as (A1 & A2 & _); auto).
  destruct (written d sty gcol xcol tmx tmy W Hl1 Hd1 Hs1 st i Op Xc Xx Xy) as (e & E & Et & Ea & Ety).
  set (lab := is_point (d_kind d)).
  exists e, (Build_description (d_kind d) (d_id d) (if lab then d_name d else []) (d_points d) (d_formulas d)
    (if lab then d_mx d else PNone _) (if lab then d_my d else PNone _)
    (match d_kind d with KAlong | KEnd | KNormal | KLine => d_style d | KSpline => PStroke _ SolidLine | _ => PNone _ end)
    (match d_kind d with KAlong | KEnd | KNormal | KLine | KSpline => col' | _ => PNone _ end)).
  split; [exact E|]. pose proof (w_kind _ W) as Wk. split; [|split].
  - assert (Hp : forall j n z, nth_error (point_attributes (d_kind d)) j = Some n -> nth_error (d_points d) j = Some z -> number e n z).
    { intros j n z N Z. exists (int_str z). split; [|apply ProofXml.int_back]. unfold has. rewrite Ea.
      - unfold texts_. rewrite (position_lit _ j n N) by (destruct (d_kind d); vm_compute; repeat constructor; cbn; intuition discriminate).
        rewrite (nth_error_nth _ _ 0%Z Z). clear - N. destruct (d_kind d); cbn in N; repeat (destruct j as [|j]; cbn in N; [injection N as <-; reflexivity|]); try discriminate; destruct j; discriminate.
      - clear - N. destruct (d_kind d); cbn in N; repeat (destruct j as [|j]; cbn in N; [injection N as <-; vm_compute; tauto|]); try discriminate; destruct j; discriminate. }
    assert (Hq : forall j n t, nth_error (formula_attributes (d_kind d)) j = Some n -> nth_error (d_formulas d) j = Some t -> has e n t).
    { intros j n t N T. unfold has. rewrite Ea.
      - assert (PN : position (map lit (point_attributes (d_kind d))) (lit n) = None)
          by (clear - N; destruct (d_kind d); cbn in N; repeat (destruct j as [|j]; cbn in N; [injection N as <-; reflexivity|]); try discriminate; destruct j; discriminate).
        unfold texts_. rewrite PN, (position_lit _ j n N) by (destruct (d_kind d); vm_compute; repeat constructor; cbn; intuition discriminate).
        pose proof (nth_error_nth (d_formulas d) j (@nil Ascii.ascii) T) as Tn; cbn beta iota; rewrite Tn. clear - N. destruct (d_kind d); cbn in N; repeat (destruct j as [|j]; cbn in N; [injection N as <-; reflexivity|]); try discriminate; destruct j; discriminate.
      - clear - N. destruct (d_kind d); cbn in N; repeat (destruct j as [|j]; cbn in N; [injection N as <-; vm_compute; tauto|]); try discriminate; destruct j; discriminate. }
    assert (F2 : forall {A B} (R : A -> B -> Prop) l m, length m = length l -> (forall j a b, nth_error l j = Some a -> nth_error m j = Some b -> R a b) -> Forall2 R l m).
    { clear. intros A B R l. induction l as [|a l IH]; intros [|b m] H K; try discriminate; constructor.
      - exact (K 0 a b eq_refl eq_refl).
      - apply IH; [injection H; auto|]. intros j x y. exact (K (S j) x y). }
    constructor; cbn [d_kind d_id d_name d_points d_formulas d_mx d_my d_style d_color].
    + unfold has. destruct (d_kind d); cbn [spelled] in *; try congruence; try (split; [exact Et|exact (Ety _ eq_refl)]). exact Et.
    + exists (int_str (d_id d)). split; [|apply ProofXml.int_back]. unfold has. rewrite Ea; [reflexivity|]. left. reflexivity.
    + apply F2; [exact (w_points _ W)|exact Hp].
    + apply F2; [exact (w_formulas _ W)|exact Hq].
    + intro L. assert (Pk : lab = true) by (unfold lab; destruct (d_kind d); first [reflexivity|destruct L]). rewrite Pk.
      destruct (M L) as (_ & _ & _ & _ & _ & _ & x & y & A1 & A2 & A3 & A4).
      assert (In3 : forall n, In n [lit "name"; lit "mx"; lit "my"] -> In n (map a_xml (canonical (d_kind d)))).
      { intros n N. clear - N L. destruct (d_kind d); try destruct L; vm_compute in N |- *; tauto. }
      split; [unfold has; rewrite Ea; [reflexivity|apply In3; left; reflexivity]|]. split.
      * exists tmx, x. split; [unfold has; rewrite Ea; [reflexivity|apply In3; right; left; reflexivity]|auto].
      * exists tmy, y. split; [unfold has; rewrite Ea; [reflexivity|apply In3; right; right; left; reflexivity]|auto].
    + intro D. destruct (Hd D) as (A1 & A2 & A3 & A4 & A5).
      assert (In2 : In (lit "typeLine") (map a_xml (canonical (d_kind d))) /\ In (lit "lineColor") (map a_xml (canonical (d_kind d)))).
      { clear - D. destruct (d_kind d); try destruct D; vm_compute; tauto. }
      replace (match d_kind d with KAlong | KEnd | KNormal | KLine => d_style d | KSpline => PStroke _ SolidLine | _ => PNone _ end) with (d_style d)
        by (destruct (d_kind d); first [reflexivity|destruct D]).
      replace (match d_kind d with KAlong | KEnd | KNormal | KLine | KSpline => col' | _ => PNone _ end) with col'
        by (destruct (d_kind d); first [reflexivity|destruct D]).
      split.
      * destruct (style_listed sty) as (t & T1 & T2). exists t, sty. split; [exact T1|]. split; [|exact A1].
        unfold has. rewrite Ea by apply In2. rewrite <- T2. reflexivity.
      * destruct A5 as [[B1 B2]|(t & c & B1 & B2 & B3)]; [left|right; exists t, c].
        -- split; [|exact B2]. unfold hasn't. rewrite Ea by apply In2. exact B1.
        -- split; [|auto]. unfold has. rewrite Ea by apply In2. exact B1.
    + intro D. destruct (Hs D) as (A1 & A2 & t & A3 & A4 & A5). rewrite D. split; [reflexivity|]. exists t. split; [|exact A5].
      unfold has. rewrite Ea; [exact A4|]. rewrite D. vm_compute. tauto.
    + intro L. assert (Pk : lab = false) by (unfold lab; destruct (d_kind d); cbn in *; first [reflexivity|tauto|congruence]). rewrite Pk. auto.
    + intros D1 D2. destruct (d_kind d); cbn in D1; try tauto; auto.
  - constructor; cbn [d_kind d_id d_name d_points d_formulas d_mx d_my d_style d_color]; try reflexivity.
    + intro L. assert (Pk : lab = true) by (unfold lab; destruct (d_kind d); first [reflexivity|destruct L]). rewrite Pk. auto.
    + intro D. destruct (Hd D) as (_ & _ & _ & A4 & _). destruct (d_kind d); try destruct D; auto.
  - intro D. destruct (Hs D) as (_ & _ & t & A3 & A4 & A5). exists t. cbn [d_color]. rewrite D. auto.
Qed.
End Write.
