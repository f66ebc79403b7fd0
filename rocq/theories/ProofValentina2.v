(** The operation made from an element. *)
From Coq Require Import String Ascii List Bool Arith ZArith Lia.
From Verif Require Import Base ModelFormula ModelMeasure ProofMeasure SpecXml.
From Verif Require ModelXml ProofXml ModelColor ModelStyle ModelSketch.
From Verif Require Import ModelValentina SpecValentina ProofValentina.
Import ModelColor(color, color_str, database, ensure_color, AText, AColor).
Import ModelStyle(stroke_style, NoPen, SolidLine, DashLine, DotLine, DashDotLine, DashDotDotLine).
Import ModelXml(int_parse, int_str, xml_char).
Import ModelSketch(kind, KOperation, KPoint, KSingle, KAlong, KEnd, KIntersect, KNormal, KContact, KIntersection, KLine, KSpline, is_point,
  expr, Args, RId, add_op).
Import ListNotations.
Local Open Scope result_scope.

Definition named (k : akind) (p : text * string) : attribute := Attr (fst p) (lit (snd p)) k.
Definition canonical (k : kind) : list attribute :=
  [attr "id" AInt] ++ (if is_point k then [attr "name" AString; attr "mx" AFloat; attr "my" AFloat] else []) ++
  match k with KAlong | KEnd | KNormal | KLine => a_line | KSpline => [attr2 "line_color" "color" AString] | _ => [] end ++
  map (named AInt) (combine (point_names k) (point_attributes k)) ++
  map (named AString) (combine (expression_names k) (formula_attributes k)).
Definition covered (l m : list attribute) : bool := forallb (fun a => existsb (attr_eqb a) m) l.
Lemma covered_in l m a : covered l m = true -> In a l -> In a m.
Proof.
  intros C H. unfold covered in C. rewrite forallb_forall in C. specialize (C a H). apply existsb_exists in C.
  destruct C as (b & B & E). apply attr_eqb_true in E. subst b. exact B.
Qed.
Lemma table_canonical k t : table k = Ok t -> forall a, In a t <-> In a (canonical k).
Proof.
  intros T a. assert (C : covered t (canonical k) = true /\ covered (canonical k) t = true).
  { destruct k; cbn [table] in T; try discriminate; injection T as <-; split; vm_compute; reflexivity. }
  split; apply covered_in; apply C.
Qed.

Section Read.
Context {float : Type} (float_str : float -> text) (float_parse : text -> result float) (db : database) (black : color)
  (parse : text -> expr).
Notation pyval := (pyval float).
Notation from := (from_xml float float_str float_parse db).
Notation says := (says float_parse db).
Notation description := (@description float).

Definition value_of (d : description) (name : text) : pyval :=
  if text_eqb name (lit "id") then PInt _ (d_id d)
  else if text_eqb name (lit "name") then PText _ (d_name d)
  else if text_eqb name (lit "mx") then d_mx d
  else if text_eqb name (lit "my") then d_my d
  else if text_eqb name (lit "line_style") then d_style d
  else if text_eqb name (lit "line_color") then d_color d
  else
    match position (point_names (d_kind d)) name with
    | Some j => PInt _ (nth j (d_points d) 0%Z)
    | None =>
        match position (expression_names (d_kind d)) name with
        | Some j => PText _ (nth j (d_formulas d) [])
        | None => PNone _
        end
    end.

Lemma style_found t s : In (t, s) styles -> lookup stroke_texts (lit t) = Some s.
Proof. intro H. cbn [In styles] in H. repeat (destruct H as [E|H]; [injection E as <- <-; reflexivity|]). destruct H. Qed.

Lemma says_dispatch e d : says e d -> dispatch e = Ok (d_kind d).
Proof.
  intro Hs. pose proof (s_tag _ _ _ _ Hs) as T. unfold dispatch, has in *. destruct (d_kind d); cbn [spelled] in T; try contradiction;
  try (destruct T as [-> T]; cbn [tags]; rewrite T; reflexivity). rewrite T. reflexivity.
Qed.

Lemma number_value e n z : number e n z -> match lookup (e_attrib e) (lit n) with Some s => from AInt (PText _ s) | None => Ok (PNone _) end = Ok (PInt _ z).
Proof. intros (t & H & P). unfold has in H. rewrite H. cbn [from_xml]. rewrite P. reflexivity. Qed.
Lemma formula_value e n t : has e n t -> match lookup (e_attrib e) (lit n) with Some s => from AString (PText _ s) | None => Ok (PNone _) end = Ok (PText _ t).
Proof. intro H. unfold has in H. rewrite H. reflexivity. Qed.
Lemma length_value e n v : length_ float_parse e n v -> match lookup (e_attrib e) (lit n) with Some s => from AFloat (PText _ s) | None => Ok (PNone _) end = Ok v.
Proof. intros (t & x & H & P & ->). unfold has in H. rewrite H. cbn [from_xml]. rewrite P. reflexivity. Qed.

Lemma says_values e d a : says e d -> In a (canonical (d_kind d)) ->
  match lookup (e_attrib e) (a_xml a) with Some s => from (a_kind a) (PText _ s) | None => Ok (PNone _) end = Ok (value_of d (a_py a)).
Proof.
  intros Hs Ha. destruct Hs as [Tag Id Pts Fml Lab Drw Spl _ _]. destruct d as [k id name pts fml mx my style col].
  cbn [d_kind d_id d_name d_points d_formulas d_mx d_my d_style d_color] in *.
  unfold canonical in Ha.
  apply in_app_or in Ha. destruct Ha as [[<-|[]]|Ha]; [exact (number_value _ _ _ Id)|].
  apply in_app_or in Ha. destruct Ha as [Ha|Ha].
  { assert (L : labelled k) by (destruct k; cbn in Ha; first [exact I|contradiction]). destruct (Lab L) as (N & X & Y).
    destruct (is_point k); [|destruct Ha]. destruct Ha as [<-|[<-|[<-|[]]]].
    - exact (formula_value _ _ _ N).
    - exact (length_value _ _ _ X).
    - exact (length_value _ _ _ Y). }
  apply in_app_or in Ha. destruct Ha as [Ha|Ha].
  { assert (D : drawn k \/ k = KSpline) by (destruct k; cbn in Ha; first [left; exact I|right; reflexivity|contradiction]).
    destruct D as [D| ->].
    - destruct (Drw D) as ((t & s & T & Ht & ->) & C). assert (Ha' : In a a_line) by (destruct k; first [exact Ha|destruct D]). clear Ha.
      destruct Ha' as [<-|[<-|[]]]; cbn [attr2 a_xml a_kind a_py].
      + unfold hasn't, has in C. destruct C as [[H ->]|(t' & c & H & E & ->)]; rewrite H; [reflexivity|]. cbn [from_xml]. rewrite E. reflexivity.
      + unfold has in Ht. rewrite Ht. cbn [from_xml]. rewrite (style_found t s T). reflexivity.
    - destruct (Spl eq_refl) as (_ & t & H & ->). destruct Ha as [<-|[]]. exact (formula_value _ _ _ H). }
  clear Tag Id Lab Drw Spl.
  destruct k; cbn [point_names expression_names point_attributes formula_attributes combine map] in *;
  repeat match goal with
  | H : Forall2 _ (_ :: _) _ |- _ => inversion H; clear H; subst
  | H : Forall2 _ [] _ |- _ => inversion H; clear H; subst
  end; cbn [app In] in Ha;
  repeat (destruct Ha as [<-|Ha]; [first [eapply number_value; eassumption | eapply formula_value; eassumption]|]); destruct Ha.
Qed.

Lemma traverse_required (V : text -> pyval) kwargs l : (forall n, In n l -> lookup kwargs n = Some (V n)) ->
  traverse (required float kwargs) l = Ok (map V l).
Proof.
  induction l as [|n l IH]; intro H; [reflexivity|]. cbn [traverse map_result map]. unfold required at 1. rewrite (H n (or_introl eq_refl)).
  cbn [bind]. rewrite IH by (intros m M; exact (H m (or_intror M))). reflexivity.
Qed.
Lemma traverse_texts l : traverse (py_str float float_str) (map (PText _) l) = Ok l.
Proof. induction l as [|t l IH]; [reflexivity|]. cbn [map traverse map_result]. cbn [py_str bind]. rewrite IH. reflexivity. Qed.

Lemma says_points e d : says e d -> map (value_of d) (point_names (d_kind d)) = map (PInt _) (d_points d).
Proof.
  intro Hs. pose proof (s_points _ _ _ _ Hs) as P. clear Hs. destruct d as [k id name pts fml mx my style col]. cbn in P.
  destruct k; cbn [point_attributes] in P;
  repeat match goal with
  | H : Forall2 _ (_ :: _) _ |- _ => inversion H; clear H; subst
  | H : Forall2 _ [] _ |- _ => inversion H; clear H; subst
  end; reflexivity.
Qed.
Lemma says_formulas e d : says e d -> map (value_of d) (expression_names (d_kind d)) = map (PText _) (d_formulas d).
Proof.
  intro Hs. pose proof (s_formulas _ _ _ _ Hs) as P. clear Hs. destruct d as [k id name pts fml mx my style col]. cbn in P.
  destruct k; cbn [formula_attributes] in P;
  repeat match goal with
  | H : Forall2 _ (_ :: _) _ |- _ => inversion H; clear H; subst
  | H : Forall2 _ [] _ |- _ => inversion H; clear H; subst
  end; reflexivity.
Qed.

Definition made (d : description) : ModelSketch.arguments :=
  Args (d_kind d) (string_of_list_ascii (d_name d)) (groups_of (d_kind d) (map RId (d_points d))) (map parse (d_formulas d)).
Definition extra_of (d : description) : extra float := Extra _ (d_formulas d) (d_mx d) (d_my d) (d_style d) (d_color d).
Notation construct := (construct float float_str black parse).
Notation read := (read float float_str float_parse db black parse).

(** The names of the attributes of a kind, but those of the label *)
Definition names (k : kind) : list text :=
  filter (fun n => negb (excluded mxmy n)) (map a_py (canonical k)).
Lemma construct_ok e d kwargs st : says e d ->
  (forall n, In n (names (d_kind d)) -> lookup kwargs n = Some (value_of d n)) ->
  (forall p, In p kwargs -> In (fst p) (names (d_kind d)) \/ labelled (d_kind d) /\ fst p = lit "label_offset") ->
  construct (d_kind d) kwargs (d_mx d, d_my d) st =
  match add_op (made d) (Some (d_id d)) (st_sketch _ st) with
  | (Ok i, s) => (Ok i, State _ s (st_extra _ st ++ [extra_of d]))
  | (Raise e, s) => (Raise e, State _ s (st_extra _ st))
  end.
Proof.
  intros Hs L K. set (k := d_kind d) in *.
  assert (Tag : spelled k <> None) by (pose proof (s_tag _ _ _ _ Hs) as T; fold k in T; destruct (spelled k); [discriminate|destruct T]).
  unfold ModelValentina.construct.
  replace (forallb (fun p => existsb (text_eqb (fst p)) (parameters k)) kwargs) with true.
  2: { symmetry. apply forallb_forall. intros p P. apply excluded_spec. destruct (K p P) as [H|[H E]].
       - destruct k; cbn in Tag; try congruence; vm_compute in H |- *; tauto.
       - rewrite E. destruct k; cbn in H; try contradiction; vm_compute; tauto. }
  cbn [bind].
  assert (Nm : (if is_point k then v <- required float kwargs (lit "name") ;; py_str float float_str v else Ok []) = Ok (d_name d)).
  { destruct (is_point k) eqn:Pk.
    - unfold required. rewrite L.
      + cbn [bind]. reflexivity.
      + destruct k; cbn in Pk, Tag; try congruence; vm_compute; tauto.
    - pose proof (s_plain _ _ _ _ Hs) as Pl. fold k in Pl. destruct Pl as [-> _]; [|reflexivity]. destruct k; cbn in *; congruence || tauto. }
  rewrite Nm. cbn [bind].
  rewrite (traverse_required (value_of d) kwargs (point_names k)).
  2: { intros n N. apply L. destruct k; cbn in Tag; try congruence; vm_compute in N |- *; tauto. }
  cbn [bind].
  rewrite (traverse_required (value_of d) kwargs (expression_names k)).
  2: { intros n N. apply L. destruct k; cbn in Tag; try congruence; vm_compute in N |- *; tauto. }
  cbn [bind]. pose proof (says_formulas e d Hs) as SF. pose proof (says_points e d Hs) as SP. fold k in SF, SP. rewrite SF, SP, traverse_texts. cbn [bind].
  assert (Id : optional float kwargs (lit "id") (PNone _) = PInt _ (d_id d)).
  { unfold optional. rewrite L; [reflexivity|]. destruct k; cbn in Tag; try congruence; vm_compute; tauto. }
  rewrite Id. unfold made. fold k. rewrite map_map. cbn [fst snd].
  replace (map (fun x => reference_of float (PInt float x)) (d_points d)) with (map RId (d_points d)) by reflexivity.
  assert (St : (if has_line k then optional float kwargs (lit "line_style") (default_style float k) else PNone _) = d_style d).
  { pose proof (s_spline _ _ _ _ Hs) as Sp. pose proof (s_bare _ _ _ _ Hs) as Ba. fold k in Sp, Ba.
    destruct (has_line k) eqn:Hl.
    - unfold optional. destruct k; cbn in Hl; try discriminate; try (rewrite L by (vm_compute; tauto); reflexivity).
      destruct (lookup kwargs (lit "line_style")) as [v|] eqn:E; [|destruct (Sp eq_refl) as [-> _]; reflexivity].
      exfalso. apply lookup_in in E. destruct (K _ E) as [H|[[] _]]. vm_compute in H. repeat (destruct H as [H|H]; [discriminate|]). exact H.
    - destruct Ba as [-> _]; [..|reflexivity]; destruct k; cbn in *; try congruence; try tauto. }
  assert (Co : (if has_line k then optional float kwargs (lit "line_color") (default_color float black k) else PNone _) = d_color d).
  { pose proof (s_bare _ _ _ _ Hs) as Ba. fold k in Ba.
    destruct (has_line k) eqn:Hl.
    - unfold optional. destruct k; cbn in Hl; try discriminate; try (rewrite L by (vm_compute; tauto); reflexivity).
    - destruct Ba as [_ ->]; [..|reflexivity]; destruct k; cbn in *; try congruence; try tauto. }
  rewrite St, Co. reflexivity.
Qed.

Lemma read_says e d st : says e d ->
  read e st =
  match add_op (made d) (Some (d_id d)) (st_sketch _ st) with
  | (Ok i, s) => (Ok (Some i), State _ s (st_extra _ st ++ [extra_of d]))
  | (Raise NotImplementedError, s) => (Ok None, State _ s (st_extra _ st))
  | (Raise x, s) => (Raise x, State _ s (st_extra _ st))
  end.
Proof.
  intro Hs. unfold ModelValentina.read. rewrite (says_dispatch e d Hs). cbn [bind].
  assert (Tag : spelled (d_kind d) <> None) by (pose proof (s_tag _ _ _ _ Hs) as T; destruct (spelled (d_kind d)); [discriminate|destruct T]).
  destruct (table (d_kind d)) as [t|x] eqn:T; [|destruct (d_kind d); cbn in T, Tag; congruence]. cbn [bind].
  pose proof (table_canonical _ _ T) as TC.
  destruct (init_xml_ok float_str float_parse db (value_of d) (e_attrib e) t (fun a A => says_values e d a Hs (proj1 (TC a) A)) []) as (i & E & L & _).
  rewrite E. cbn [bind].
  assert (G : to_operation float float_str black parse (d_kind d) t i st = 
    match add_op (made d) (Some (d_id d)) (st_sketch _ st) with
    | (Ok i, s) => (Ok i, State _ s (st_extra _ st ++ [extra_of d]))
    | (Raise e, s) => (Raise e, State _ s (st_extra _ st))
    end).
  { unfold to_operation, to_dict.
    assert (Gt : forall exclude a, In a t -> ~ In (a_py a) exclude -> get_attribute float i (a_py a) = Ok (value_of d (a_py a))).
    { intros exclude a A _. unfold get_attribute. rewrite (L a A). reflexivity. }
    assert (NA : forall n, In n (names (d_kind d)) -> exists a, In a t /\ a_py a = n /\ ~ In n mxmy).
    { intros n N. unfold names in N. apply filter_In in N. destruct N as [N X]. apply in_map_iff in N. destruct N as (a & <- & A).
      exists a. split; [apply TC, A|]. split; [reflexivity|]. rewrite <- excluded_spec. destruct (excluded mxmy (a_py a)); [discriminate|congruence]. }
    assert (AN : forall a, In a t -> ~ In (a_py a) mxmy -> In (a_py a) (names (d_kind d))).
    { intros a A X. unfold names. apply filter_In. split; [apply in_map, TC, A|]. rewrite <- excluded_spec in X. destruct (excluded mxmy (a_py a)); [congruence|reflexivity]. }
    destruct (is_point (d_kind d)) eqn:Pk.
    - destruct (get_dict_ok (value_of d) (get_attribute float i) mxmy t (Gt mxmy) []) as (k & Ek & Lk & Nk & Mk).
      rewrite Ek. cbn [bind].
      assert (Lm : forall n, In n mxmy -> get_attribute float i n = Ok (value_of d n)).
      { intros n N. unfold get_attribute. assert (A : exists a, In a t /\ a_py a = n).
        { destruct N as [<-|[<-|[]]]; [exists (attr "mx" AFloat)|exists (attr "my" AFloat)]; (split; [apply TC; unfold canonical; rewrite Pk; cbn; tauto|reflexivity]). }
        destruct A as (a & A & <-). rewrite (L a A). reflexivity. }
      rewrite (Lm (lit "mx")) by (left; reflexivity). cbn [bind]. rewrite (Lm (lit "my")) by (right; left; reflexivity). cbn [bind].
      change (value_of d (lit "mx")) with (d_mx d). change (value_of d (lit "my")) with (d_my d).
      apply (construct_ok e); [exact Hs| |].
      + intros n N. destruct (NA n N) as (a & A & <- & X). rewrite lookup_set.
        destruct (text_eqb_spec (lit "label_offset") (a_py a)) as [Q|_]; [|exact (Lk a A X)].
        exfalso. clear - Q N Tag. rewrite <- Q in N. destruct (d_kind d); cbn in Tag; try congruence; vm_compute in N;
          repeat (destruct N as [N|N]; [discriminate|]); exact N.
      + intros p P. destruct (text_eqb_spec (lit "label_offset") (fst p)) as [Q|Q].
        * right. split; [|symmetry; exact Q]. destruct (d_kind d); cbn in *; try congruence; exact I.
        * left. assert (P' : In (fst p) (map fst k)).
          { apply (in_map fst) in P. destruct (in_dec (list_eq_dec ascii_dec) (lit "label_offset") (map fst k)) as [H|H].
            - rewrite set_fst in P by exact H. exact P.
            - rewrite set_new, map_app in P by exact H. apply in_app_or in P. destruct P as [P|[P|[]]]; [exact P|]. destruct Q. exact P. }
          apply in_map_iff in P'. destruct P' as (q & <- & Q'). destruct (Mk q Q') as [[]|(a & A & X & ->)]. exact (AN a A X).
    - destruct (get_dict_ok (value_of d) (get_attribute float i) [] t (Gt [])) with (d := @nil (text * pyval)) as (k & Ek & Lk & Nk & Mk).
      rewrite Ek.
      assert (Pl : d_mx d = PNone _ /\ d_my d = PNone _).
      { apply (s_plain _ _ _ _ Hs). destruct (d_kind d); cbn in *; try congruence; tauto. }
      destruct Pl as [<- Q]. rewrite <- Q at 2. 
      assert (Fx : forall a, In a t -> ~ In (a_py a) mxmy).
      { intros a A X. apply TC in A. clear - A X Pk Tag. destruct (d_kind d); cbn in Pk, Tag; try congruence; cbn in A;
          repeat (destruct A as [<-|A]; [vm_compute in X; repeat (destruct X as [X|X]; [discriminate|]); exact X|]); exact A. }
      replace (d_mx d) with (d_mx d) by reflexivity.
      apply (construct_ok e); [exact Hs| |].
      + intros n N. destruct (NA n N) as (a & A & <- & X). apply (Lk a A). intros [].
      + intros p P. left. destruct (Mk p P) as [[]|(a & A & X & ->)]. exact (AN a A (Fx a A)). }
  rewrite G. destruct (add_op (made d) (Some (d_id d)) (st_sketch _ st)) as [[j|x] s]; [reflexivity|]. destruct x; reflexivity.
Qed.
Lemma read_unsupported e st : unsupported e -> read e st = (Ok None, st).
Proof.
  intro U. assert (D : dispatch e = Raise NotImplementedError).
  { unfold dispatch. destruct U as [(t & H & ->)|(t & u & H & -> & T)].
    - cbn [In unsupported_tags] in H. repeat (destruct H as [<-|H]; [reflexivity|]). destruct H.
    - unfold has in T. cbn [In unsupported_types] in H.
      repeat (destruct H as [E|H]; [injection E as <- <-; cbn [tags]; rewrite T; reflexivity|]). destruct H. }
  unfold ModelValentina.read. rewrite D. reflexivity.
Qed.
End Read.
