From Coq Require Import String Ascii List Bool Arith Reals ZArith Lia Lra.
From Flocq Require Import Core.
From Verif Require Import Base ModelFormula ModelMeasure ModelVector ModelTransformation ModelLine ModelPath ModelSvgPath ModelSvgTransform.
From Verif Require ModelXml SpecXml ModelSvgState SpecSvgState SpecPainter ProofPainter3.
From Verif Require Import ProofMeasure ProofSvgTransform.
From Verif Require ProofXml ProofSvgState.
From Verif Require Import ModelSvgFile SpecSvgFile ProofSvgFile ProofSvgFile2 ProofSvgFile3.
Import ListNotations.
Local Open Scope list_scope.
Local Open Scope R_scope.

(** ** The texts of the numbers *)
Lemma thousandths_digit c s : ProofXml.is_digit c -> thousandths (c :: s) =
  match SpecPainter.whole_part 0 (c :: s) with
  | Some (n, ["."%char; d; u; v]) =>
      match SpecPainter.digit_of d, SpecPainter.digit_of u, SpecPainter.digit_of v with
      | Some d, Some u, Some v => Some (1 * (1000 * n + 100 * d + 10 * u + v))%Z
      | _, _, _ => None
      end
  | _ => None
  end.
Proof. unfold ProofXml.is_digit. destruct c as [[] [] [] [] [] [] [] []]; intros D; try reflexivity. now destruct D. Qed.
Lemma thousandths_sum n : (1000 * (n / 1000) + 100 * (n mod 1000 / 100) + 10 * (n mod 100 / 10) + n mod 10)%Z = n.
Proof. Z.to_euclidean_division_equations. lia. Qed.
Lemma format3_digits n : (0 <= n)%Z -> exists c s, ModelXml.int_str (n / 1000) ++ lit "." ++
    ModelXml.int_str (n mod 1000 / 100) ++ ModelXml.int_str (n mod 100 / 10) ++ ModelXml.int_str (n mod 10) = c :: s /\ ProofXml.is_digit c /\
  exists d u v, SpecPainter.whole_part 0 (c :: s) = Some ((n / 1000)%Z, ["."%char; d; u; v]) /\
    SpecPainter.digit_of d = Some (n mod 1000 / 100)%Z /\ SpecPainter.digit_of u = Some (n mod 100 / 10)%Z /\ SpecPainter.digit_of v = Some (n mod 10)%Z.
Proof.
  intro Hn. assert (H : (0 <= n / 1000)%Z) by (apply Z.div_pos; lia).
  destruct (ProofPainter3.int_str_digits _ H) as (c & s & E & C & W).
  pose proof (Z.mod_pos_bound n 1000 ltac:(lia)). pose proof (Z.mod_pos_bound n 100 ltac:(lia)). pose proof (Z.mod_pos_bound n 10 ltac:(lia)).
  destruct (ProofPainter3.one_digit (n mod 1000 / 100)) as (d & D1 & D2). { split; [apply Z.div_pos; lia|apply Z.div_lt_upper_bound; lia]. }
  destruct (ProofPainter3.one_digit (n mod 100 / 10)) as (u & U1 & U2). { split; [apply Z.div_pos; lia|apply Z.div_lt_upper_bound; lia]. }
  destruct (ProofPainter3.one_digit (n mod 10)) as (v & V1 & V2); [lia|].
  rewrite D1, U1, V1. exists c, (s ++ ["."%char; d; u; v]). split; [rewrite E; reflexivity|]. split; [exact C|]. exists d, u, v. repeat split; try assumption.
  specialize (W ["."%char; d; u; v]). rewrite E in W. apply W. intros c' r' Q. injection Q as <- _. reflexivity.
Qed.
Lemma format3_ok x : decimal (format3 x) x.
Proof.
  unfold decimal, format3. set (n := ZnearestE (Rabs x * 1000)). cbn zeta. assert (A := Rabs_pos x).
  assert (Near : Rabs (Rabs x * 1000 - IZR n) <= / 2) by apply Znearest_half.
  assert (Hn : (0 <= n)%Z). { cut (-1 < n)%Z; [lia|]. apply lt_IZR. apply Rabs_le_inv in Near. lra. }
  destruct (format3_digits n Hn) as (c & s & E & C & d & u & v & W & D & U & V). rewrite E. pose proof (thousandths_sum n) as SUM.
  unfold Rltb. destruct (Rlt_dec x 0).
  - exists (- n)%Z. split.
    + change (lit "-" ++ c :: s) with ("-"%char :: c :: s). unfold thousandths. rewrite W, D, U, V. f_equal. lia.
    + rewrite opp_IZR. rewrite (Rabs_left x) in Near by auto. apply Rabs_le_inv in Near. apply Rabs_le. lra.
  - exists n. split.
    + rewrite app_nil_l, thousandths_digit by exact C. rewrite W, D, U, V. f_equal. lia.
    + rewrite (Rabs_pos_eq x) in Near by lra. apply Rabs_le_inv in Near. apply Rabs_le. lra.
Qed.
(** The characters of the texts *)
Lemma int_str_char z c : In c (ModelXml.int_str z) -> (45 <= nat_of_ascii c)%nat.
Proof. apply ProofXml.int_str_chars. Qed.
Lemma format3_char x c : In c (format3 x) -> (45 <= nat_of_ascii c)%nat.
Proof.
  unfold format3. intro H. repeat (apply in_app_iff in H; destruct H as [H|H]); try (apply int_str_char in H; exact H).
  - destruct (Rltb x 0); [destruct H as [<-|[]]; vm_compute; lia|destruct H].
  - destruct H as [<-|[]]; vm_compute; lia.
Qed.

Section Write.
Variable float_str : R -> text.
Variable float_parse : text -> result R.
Variable fuel : nat.
Notation read_value := (read_value float_parse fuel).
Notation write_value := (write_value float_str).
Notation to_xml := (to_xml float_str).
Notation from_xml := (from_xml float_parse fuel).
Notation write_root := (write_root float_str float_parse fuel).
Notation storable := (storable float_str float_parse).
Notation complete := (complete float_str float_parse).
Notation exact_ := (exact float_str float_parse).
Notation writable := (writable float_str float_parse).

(** ** The page *)
Lemma written_page w h l t x : write_root w h l t = Ok x -> exists a c sw sh, x = Element (lit "svg") a (Comment :: c) /\
  decimal sw w /\ decimal sh h /\ lookup a (lit "width") = Some (sw ++ lit "mm") /\ lookup a (lit "height") = Some (sh ++ lit "mm") /\
  lookup a (lit "viewBox") = Some (lit "0 0 " ++ sw ++ lit " " ++ sh) /\
  exists m, Forall2 (fun o y => to_xml o = Ok y) l m /\
    match t with
    | None => c = m
    | Some t => c = [Element (lit "g") [(lit "transform", transform_to_xml float_str t)] m]
    end.
Proof.
  unfold ModelSvgFile.write_root. intro H. inv H m M. apply traverse_forall2 in M.
  assert (Q : forall c, exists a sw sh, Element (lit "svg") (root_attributes w h) (Comment :: c) = Element (lit "svg") a (Comment :: c) /\
    decimal sw w /\ decimal sh h /\ lookup a (lit "width") = Some (sw ++ lit "mm") /\ lookup a (lit "height") = Some (sh ++ lit "mm") /\
    lookup a (lit "viewBox") = Some (lit "0 0 " ++ sw ++ lit " " ++ sh)).
  { intro c. exists (root_attributes w h), (format3 w), (format3 h). repeat split; try apply format3_ok. }
  destruct t as [t|].
  - assert (K : from_keywords float_str float_parse fuel (lit "Group") [(lit "transform", VTransform t)] =
      Ok (Object (lit "Group") (map (fun a => (a_py a, if text_eqb (a_py a) (lit "transform") then VTransform t else VNone)) (table (lit "Group"))))) by reflexivity.
    rewrite K in H. cbn [bind] in H.
    assert (K2 : to_xml (Object (lit "Group") (map (fun a => (a_py a, if text_eqb (a_py a) (lit "transform") then VTransform t else VNone)) (table (lit "Group")))) =
      (l <- ModelXml.check_element [(lit "transform", transform_to_xml float_str t)] ;; Ok (Element (lit "g") l []))%result) by reflexivity.
    rewrite K2 in H. inv H g G. inv G al AL. injection G as <-. unfold ModelXml.check_element in AL.
    destruct (forallb _ _) in AL; [|discriminate]. injection AL as <-. injection H as <-.
    destruct (Q [Element (lit "g") [(lit "transform", transform_to_xml float_str t)] m]) as (a & sw & sh & E & R).
    exists a. eexists. exists sw, sh. split; [exact E|]. destruct R as (R1 & R2 & R3 & R4 & R5). repeat split; try assumption. exists m. split; [exact M|reflexivity].
  - injection H as <-. destruct (Q m) as (a & sw & sh & E & R). exists a, m, sw, sh. split; [exact E|]. destruct R as (R1 & R2 & R3 & R4 & R5). repeat split; try assumption.
    exists m. split; [exact M|reflexivity].
Qed.
Lemma written_unreadable w h l t x : write_root w h l t = Ok x -> ~ is_ok (read_file float_parse fuel (stored x)).
Proof.
  intro H. destruct (written_page w h l t x H) as (a & c & sw & sh & -> & _). cbn [stored map]. apply unreadable_file with (x := Comment).
  - constructor. left. reflexivity.
  - left. reflexivity.
Qed.

(** ** The values *)
Lemma last_neq s t c : s = t ++ [c] -> is_alpha c = false -> forall w, (exists d, last_char w d /\ is_alpha d = true) -> s <> w.
Proof. intros -> A w (d & (r & R) & D) H. rewrite R in H. apply app_inj_tail in H. destruct H as [_ ->]. congruence. Qed.
Lemma alpha_words : (exists d, last_char (lit "inherit") d /\ is_alpha d = true) /\ (exists d, last_char (lit "none") d /\ is_alpha d = true).
Proof.
  split; [exists "t"%char|exists "e"%char]; (split; [|reflexivity]); [exists (lit "inheri")|exists (lit "non")]; reflexivity.
Qed.
Lemma word_text s : (forall c, In c s -> (32 < nat_of_ascii c)%nat /\ c <> ","%char) -> SpecXml.xml_text s.
Proof. intros H c C. left. specialize (H c C). lia. Qed.
Lemma storable_back k v : storable k v -> v = VNone \/ v <> VNone /\ exists s, write_value k v = Ok s /\ read_value k s = Ok v /\ SpecXml.xml_text s.
Proof.
  intros [->|H]; [left; reflexivity|right]. destruct alpha_words as [WI WN]. destruct k.
  - destruct H as (s & -> & X). split; [discriminate|]. exists s. repeat split. exact X.
  - destruct H as (x & -> & E & W & t & c & L & A & P). split; [discriminate|]. exists (float_str x). repeat split; [cbn; rewrite E; reflexivity|apply word_text; exact W].
  - destruct H as (l & NE & -> & X). split; [discriminate|]. exists (join (lit " ") (map float_str l)). split; [reflexivity|]. split.
    + assert (F : Forall2 (fun w x => float_parse w = Ok x) (map float_str l) l).
      { clear NE. induction l as [|x l IH]; [constructor|]. constructor; [apply X; left; reflexivity|]. apply IH. intros y Y. apply X. right. exact Y. }
      apply list_means.
      * destruct l as [|x [|y l]]; [congruence| |].
        -- cbn [map join]. destruct (X x (or_introl eq_refl)) as (_ & _ & t & c & L & A & _). exact (last_neq _ t c L A _ WN).
        -- intro H. assert (I : In " "%char (lit "none")); [|apply existsb_char in I; discriminate I]. rewrite <- H. apply join_sep. cbn. lia.
      * destruct l as [|x [|y l]]; [congruence| |].
        -- destruct (X x (or_introl eq_refl)) as (_ & W & _). exists ","%char, [float_str x]. split; [reflexivity|]. split; [exact F|]. split.
           ++ intros w [<-|[]] I. destruct (W _ I) as [_ Q]. congruence.
           ++ right. repeat split; [discriminate|]. intro I. destruct (W _ I) as [Q _]. vm_compute in Q. lia.
        -- exists " "%char, (map float_str (x :: y :: l)). split; [reflexivity|]. split; [exact F|]. split.
           ++ intros w I J. apply in_map_iff in I. destruct I as (z & <- & Z). destruct (X z Z) as (_ & W & _). destruct (W _ J) as [Q _]. vm_compute in Q. lia.
           ++ left. split; [reflexivity|]. cbn. lia.
    + intros c C. left. apply ProofXml.in_join in C. destruct C as [[<-|[]]|(s & S & C)]; [vm_compute; lia|]. apply in_map_iff in S. destruct S as (z & <- & Z).
      destruct (X z Z) as (_ & W & _). destruct (W _ C). lia.
  - destruct H as (x & -> & E & W & t & c & L & A & P). split; [discriminate|]. exists (float_str x). split; [reflexivity|]. split; [|apply word_text; exact W].
    cbn [ModelSvgFile.read_value]. destruct (text_eqb_spec (float_str x) (lit "inherit")) as [Q|_]; [destruct (last_neq _ t c L A _ WI Q)|]. rewrite E. reflexivity.
  - destruct H as (x & -> & E & W & t & c & L & A & P). split; [discriminate|]. exists (float_str x). split; [reflexivity|]. split; [|apply word_text; exact W].
    apply value_means. right. split; [exact (last_neq _ t c L A _ WI)|]. left. exists c, x. repeat split; try assumption. exists t. exact L.
  - destruct H.
  - destruct H.
Qed.

(** ** The attributes *)
Lemma attributes_written t o : complete o t -> NoDup (map a_xml t) -> exists l, write_attributes float_str t o = Ok l /\
  (forall p, In p l -> SpecXml.xml_text (snd p) /\ In (fst p) (map a_xml t)) /\
  forall a, In a t -> exists v, lookup (o_values o) (a_py a) = Some v /\ match lookup l (a_xml a) with Some s => read_value (a_kind a) s = Ok v | None => v = VNone end.
Proof.
  induction t as [|a t IH]; intros C ND.
  - exists []. split; [reflexivity|]. split; intros ? [].
  - inversion ND as [|? ? NI ND']. subst. destruct IH as (l & W & X & G); [intros b B; exact (C b (or_intror B))|exact ND'|].
    destruct (C a (or_introl eq_refl)) as (v & L & S). cbn [write_attributes]. unfold get. rewrite L. cbn [bind].
    destruct (storable_back _ _ S) as [->|(NV & s & WV & RV & XT)].
    + exists l. split; [exact W|]. split; [intros p P; destruct (X p P); split; [assumption|right; assumption]|].
      intros b [<-|B]; [|exact (G b B)]. exists VNone. split; [exact L|]. destruct (lookup l (a_xml a)) as [s|] eqn:E; [|reflexivity].
      apply lookup_in in E. destruct (X _ E) as [_ I]. destruct (NI I).
    + exists ((a_xml a, s) :: l). split; [|split].
      * destruct v; try congruence; rewrite WV; cbn [bind]; rewrite W; reflexivity.
      * intros p [<-|P]; [split; [exact XT|left; reflexivity]|]. destruct (X p P). split; [assumption|right; assumption].
      * intros b [<-|B]; cbn [lookup].
        -- exists v. split; [exact L|]. destruct (text_eqb_spec (a_xml a) (a_xml a)); [exact RV|congruence].
        -- destruct (text_eqb_spec (a_xml a) (a_xml b)) as [E|_]; [destruct NI; rewrite E; apply in_map; exact B|]. exact (G b B).
Qed.
Lemma checked l : (forall p : text * text, In p l -> SpecXml.xml_text (snd p)) -> ModelXml.check_element l = Ok l.
Proof.
  intro H. unfold ModelXml.check_element. replace (forallb _ l) with true; [reflexivity|]. symmetry. apply forallb_forall. intros p P. apply ProofXml.xml_char_spec. exact (H p P).
Qed.

(** ** The elements *)
Lemma class_tables n cls l o : In (n, cls, l) readers -> same_shape n cls o -> table (o_class o) = table cls /\ tag_of (o_class o) = Ok n /\ NoDup (map a_xml (table cls)).
Proof.
  intros R S. assert (Q : forallb (fun r => match lookup CLASSES (snd (fst r)) with Some t => text_eqb t (fst (fst r)) | None => false end && distinct (map a_xml (table (snd (fst r)))) &&
    (negb (text_eqb (fst (fst r)) (lit "polyline")) || text_eqb (snd (fst r)) (lit "Polygon"))) readers = true) by (vm_compute; reflexivity).
  rewrite forallb_forall in Q. specialize (Q _ R). cbn [fst snd] in Q. apply andb_prop in Q. destruct Q as [Q Q3]. apply andb_prop in Q. destruct Q as [Q1 Q2].
  assert (T : tag_of cls = Ok n). { unfold tag_of. destruct (lookup CLASSES cls) as [t|]; [|discriminate]. destruct (text_eqb_spec t n); [subst; reflexivity|discriminate]. }
  assert (N : NoDup (map a_xml (table cls))) by (apply distinct_ok; exact Q2).
  destruct S as [->|[-> ->]]; [auto|]. change (text_eqb (lit "polyline") (lit "polyline")) with true in Q3. cbn [negb orb] in Q3.
  destruct (text_eqb_spec cls (lit "Polygon")); [|discriminate]. subst cls. repeat split. exact N.
Qed.
Definition NS : text := lit "{http://www.w3.org/2000/svg}".
Lemma ns_named n : named (NS ++ n) n.
Proof.
  right. exists (lit "{http://www.w3.org/2000/svg"). split; [left; reflexivity|]. split; [|reflexivity]. intro H. apply existsb_char in H. discriminate H.
Qed.
Lemma element_written n cls l o : In (n, cls, l) readers -> same_shape n cls o -> complete o l ->
  exists a, to_xml o = Ok (Element n a []) /\ legible float_parse fuel a l /\
    (forall b, In b l -> exists v, lookup (o_values o) (a_py b) = Some v /\ match lookup a (a_xml b) with Some s => read_value (a_kind b) s = Ok v | None => v = VNone end).
Proof.
  intros R S C. destruct (class_tables n cls l o R S) as (T & TG & NX). destruct (reader_table n cls l R) as (_ & ND & SUB & _).
  destruct (attributes_written (table cls) o) as (a & W & X & G); [intros b B; apply C; apply SUB; exact B|exact NX|].
  exists a. split; [|split].
  - unfold ModelSvgFile.to_xml. rewrite TG. cbn [bind]. rewrite T, W. cbn [bind]. rewrite checked; [reflexivity|]. intros p P. apply (X p P).
  - intros b s B L. apply SUB in B. destruct (G b B) as (v & _ & M). rewrite L in M. exists v. apply value_means. exact M.
  - intros b B. apply SUB in B. exact (G b B).
Qed.
Lemma gives_same a o o' b v : lookup (o_values o) (a_py b) = Some v -> match lookup a (a_xml b) with Some s => read_value (a_kind b) s = Ok v | None => v = VNone end ->
  gives float_parse fuel a o' b -> lookup (o_values o') (a_py b) = lookup (o_values o) (a_py b).
Proof.
  intros L M (v' & L' & M'). rewrite L, L'. f_equal. destruct (lookup a (a_xml b)); [|congruence]. apply value_means in M'. congruence.
Qed.
Lemma element_back n cls l o : In (n, cls, l) readers -> same_shape n cls o -> complete o l ->
  exists x o', to_xml o = Ok x /\ from_xml (stored x) = Ok o' /\ o_class o' = cls /\ forall b, In b l -> lookup (o_values o') (a_py b) = lookup (o_values o) (a_py b).
Proof.
  intros R S C. destruct (element_written n cls l o R S C) as (a & W & LG & G). exists (Element n a []).
  destruct (reader_table n cls l R) as (T & ND & SUB & SH). pose proof (shape_braceless n (or_intror SH)) as B. destruct (reader_style n cls l R) as [_ I].
  destruct (read_ok float_parse fuel (NS ++ n) a [] n cls l (ns_named n) B T SUB LG I) as (o' & v & O & V & CL).
  exists o'. split; [exact W|]. split; [exact O|]. split; [exact CL|]. intros b Hb. destruct (G b Hb) as (w & Lw & Mw).
  apply (gives_same a o o' b w Lw Mw). destruct (shape_stands float_parse fuel (NS ++ n) a [] o' v n (ns_named n) SH O V) as (tag & a' & ch & n' & cls' & l' & E & N' & R' & CL' & GV).
  injection E as <- <- <-. apply GV. assert (EC : cls' = cls) by congruence. rewrite EC in R'. destruct (reader_table n' cls l' R') as (_ & _ & SUB' & _). apply SUB'. apply SUB. exact Hb.
Qed.

(** ** The whole file, without the comment *)
Lemma common_style n cls l : In (n, cls, l) readers -> In (attr "style" "style" KString) l.
Proof. intro R. cbn in R. repeat destruct R as [R|R]; try (injection R as <- <- <-; cbn; tauto). destruct R. Qed.
Lemma children_written l : Forall writable l -> exists c, Forall2 (fun o x => to_xml o = Ok x) l c /\
  legible_all float_parse fuel (map stored c) /\ forall sh out, shapes (map stored c) sh -> Forall2 (fun x (p : object * state) => stands_for float_parse fuel x (fst p)) sh out ->
    Forall2 restored l (map fst out).
Proof.
  induction 1 as [|o l (n & cls & al & R & S & C & FS) _ IH].
  - exists []. split; [constructor|]. split; [constructor|]. intros sh out HS F. inversion HS. subst. inversion F. constructor.
  - destruct IH as (c & F & LG & G). destruct (element_written n cls al o R S C) as (a & W & L & V). exists (Element n a [] :: c).
    destruct (reader_table n cls al R) as (T & ND & SUB & SH). pose proof (shape_braceless n (or_intror SH)) as B.
    split; [constructor; assumption|]. split.
    + cbn [map stored]. apply (legible_shape float_parse fuel (NS ++ n) a [] _ n cls al (ns_named n) R L); [|exact LG].
      intros s d LS D. destruct (V _ (common_style n cls al R)) as (v & LV & MV). cbn [attr a_py a_xml a_kind] in LV, MV. rewrite LS in MV. cbn in MV. injection MV as <-. exact (FS s d LV D).
    + intros sh out HS FO. cbn [map stored] in HS. fold NS in HS.
      assert (Q : exists sh', sh = Element (NS ++ n) a [] :: sh' /\ shapes (map stored c) sh').
      { clear FO. pose proof (ns_named n) as NSN. set (tg := NS ++ n) in *. clearbody tg. inversion HS as [|tag a' ch rest u v N1 S1 S2 E1 E2|tag a' ch rest n' v I N1 S1 E1 E2|tag a' ch rest v N1 S1 E1 E2]; subst.
        - exfalso. apply (tag_named _ _ (shape_braceless group (or_introl eq_refl))) in N1. rewrite (proj2 (tag_named _ n B) NSN) in N1. subst n.
          assert (K : existsb (text_eqb (lit "g")) SHAPES = true); [|vm_compute in K; discriminate K]. apply existsb_exists. exists group. split; [exact SH|]. reflexivity.
        - exists v. split; [reflexivity|exact S1].
        - destruct (N1 n (or_intror SH) NSN). }
      destruct Q as (sh' & -> & HS'). inversion FO as [|? p ? out' ST FO']. subst. cbn [map]. constructor; [|exact (G sh' out' HS' FO')].
      destruct ST as (tag & a' & ch & n' & cls' & l' & E & N' & R' & CL & GV). injection E as <- <- <-.
      destruct (reader_table n' cls' l' R') as (T' & _ & SUB' & SH').
      assert (n' = n). { apply (tag_named _ _ (shape_braceless n' (or_intror SH'))) in N'. rewrite <- N'. apply tag_named; [exact B|apply ns_named]. } subst n'.
      assert (EC : cls' = cls) by congruence. rewrite EC in CL, SUB'. exists n, cls, al. split; [exact R|]. split; [exact S|]. split; [exact CL|].
      intros b Hb. destruct (V b Hb) as (w & Lw & Mw). apply (gives_same a o (fst p) b w Lw Mw). apply GV. apply SUB'. apply SUB. exact Hb.
Qed.
Lemma file_back w h l : float_parse (lit "0") = Ok 0 -> (forall s n, thousandths s = Some n -> float_parse s = Ok (IZR n / 1000)) -> Forall writable l ->
  exists tag a c f, write_root w h l None = Ok (Element tag a (Comment :: c)) /\ read_file float_parse fuel (stored (Element tag a c)) = Ok f /\
    Forall2 restored l (map fst (f_items f)) /\
    exists w' h', f_view_box f = Box (Itv 0 w') (Itv 0 h') /\ Rabs (w' - w) <= / 2000 /\ Rabs (h' - h) <= / 2000.
Proof.
  intros P0 PD WL. destruct (children_written l WL) as (c & F & LG & G).
  exists (lit "svg"), (root_attributes w h), c. destruct (format3_ok w) as (nw & Tw & Ew), (format3_ok h) as (nh & Th & Eh).
  assert (VB : lookup (root_attributes w h) (lit "viewBox") = Some (lit "0 0 " ++ format3 w ++ lit " " ++ format3 h)) by reflexivity.
  assert (NN : lit "0 0 " ++ format3 w ++ lit " " ++ format3 h <> lit "none") by discriminate.
  assert (NO : numbers_of float_parse (lit "0 0 " ++ format3 w ++ lit " " ++ format3 h) [0; 0; IZR nw / 1000; IZR nh / 1000]).
  { exists " "%char, [lit "0"; lit "0"; format3 w; format3 h]. split; [reflexivity|]. split; [repeat (constructor; try assumption; try (apply PD; assumption))|]. split.
    - assert (Z : ~ In " "%char (lit "0")) by (intro I; apply existsb_char in I; discriminate I).
      assert (Y : forall x, ~ In " "%char (format3 x)) by (intros x I; apply format3_char in I; vm_compute in I; lia).
      intros t [<-|[<-|[<-|[<-|[]]]]]; auto.
    - left. split; [reflexivity|]. cbn. lia. }
  assert (RL : legible float_parse fuel (root_attributes w h) root_table).
  { intros b s B L. cbn in B. repeat destruct B as [<-|B]; try destruct B; try discriminate L; cbn [attr a_kind]; try (eexists; reflexivity).
    assert (s = lit "0 0 " ++ format3 w ++ lit " " ++ format3 h) by (cbn [attr a_xml] in L; congruence). subst s.
    exists (VNumbers [0; 0; IZR nw / 1000; IZR nh / 1000]). right. split; [exact NN|]. eexists. split; [exact NO|reflexivity]. }
  destruct (file_defined float_parse fuel (NS ++ lit "svg") (root_attributes w h) (map stored c) _ (ns_named _) RL (ex_intro _ _ (conj VB (conj NN NO))) eq_refl LG) as [f RF].
  exists f. split; [|split].
  - unfold ModelSvgFile.write_root. replace (traverse to_xml l) with (Ok c); [reflexivity|]. symmetry. apply traverse_forall2. exact F.
  - exact RF.
  - split.
    + destruct (file_read float_parse fuel _ f RF) as (tag & a & ch & svg & sh & x & y & x' & y' & E & _ & _ & _ & _ & _ & _ & SH & FO). injection E as <- <- <-. exact (G sh (f_items f) SH FO).
    + destruct (box_exact float_str float_parse fuel _ _ _ f _ _ RF VB NN NO) as (x & y & x' & y' & E & BX & _). injection E as <- <- <- <-. exists (IZR nw / 1000), (IZR nh / 1000). auto.
Qed.

(** ** What is not written, or not read back *)
Lemma write_fails t o a v : In a t -> lookup (o_values o) (a_py a) = Some v -> v <> VNone -> ~ is_ok (write_value (a_kind a) v) -> ~ is_ok (write_attributes float_str t o).
Proof.
  intros I L NV NW. induction t as [|b t IH]; [destruct I|]. intros [l H]. cbn [write_attributes] in H. destruct I as [->|I].
  - unfold get in H. rewrite L in H. cbn [bind] in H. destruct v; try congruence; inv H q Q; destruct NW; exists q; exact Q.
  - inv H w W. destruct w; try (inv H q Q; inv H m M; exact (IH I (ex_intro _ m M))). exact (IH I (ex_intro _ l H)).
Qed.
Lemma path_unwritten o p : o_class o = lit "Path" -> has o "path_data" (VPath p) -> ~ is_ok (to_xml o).
Proof.
  intros C H [x X]. unfold ModelSvgFile.to_xml in X. rewrite C in X. inv X t T. inv X l L.
  refine (write_fails _ o (attr "path_data" "d" KPath) (VPath p) _ H _ _ (ex_intro _ l L)); [|discriminate|intros [s S]; discriminate S].
  vm_compute. tauto.
Qed.
Lemma attribute_written t o l a v : NoDup (map a_xml t) -> write_attributes float_str t o = Ok l -> In a t -> lookup (o_values o) (a_py a) = Some v -> v <> VNone ->
  exists s, write_value (a_kind a) v = Ok s /\ lookup l (a_xml a) = Some s.
Proof.
  revert l. induction t as [|b t IH]; intros l ND H I L NV; [destruct I|]. inversion ND as [|? ? NI ND']. subst. cbn [write_attributes] in H. destruct I as [->|I].
  - unfold get in H. rewrite L in H. cbn [bind] in H. destruct v; try congruence; inv H q Q; inv H m M; injection H as <-; exists q; (split; [exact Q|]); cbn [lookup];
      destruct (text_eqb_spec (a_xml a) (a_xml a)); congruence.
  - assert (NE : a_xml b <> a_xml a) by (intro E; apply NI; rewrite E; apply in_map; exact I).
    inv H w W. destruct w; try (inv H q Q; inv H m M; injection H as <-; cbn [lookup]; destruct (text_eqb_spec (a_xml b) (a_xml a)); [contradiction|]; exact (IH m ND' M I L NV)).
    exact (IH l ND' H I L NV).
Qed.
Lemma transform_unread n cls l o t x : In (n, cls, l) readers -> same_shape n cls o -> has o "transform" (VTransform t) ->
  refuses_spaces float_parse -> (forall x, float_str x <> []) ->
  (forall x c, In c (float_str x) -> ModelXml.is_space c = false /\ c <> "("%char /\ c <> ")"%char /\ c <> ","%char) ->
  to_xml o = Ok x -> ~ is_ok (from_xml (stored x)).
Proof.
  intros R S H RS NE CH W [o' F]. destruct (class_tables n cls l o R S) as (T & TG & NX). destruct (reader_table n cls l R) as (TT & ND & SUB & SH).
  pose proof (shape_braceless n (or_intror SH)) as B.
  unfold ModelSvgFile.to_xml in W. rewrite TG in W. cbn [bind] in W. rewrite T in W. inv W a A. inv W a' A'. injection W as <-. cbn [stored map] in F. cbn [ModelSvgFile.from_xml] in F.
  fold NS in F. rewrite (proj2 (tag_named _ n B) (ns_named n)), TT in F. inv F m M.
  assert (IT : In (attr "transform" "transform" KTransform) (table cls)).
  { apply SUB. cbn in R. repeat destruct R as [R|R]; try (injection R as <- <- <-; cbn; tauto). destruct R. }
  destruct (attribute_written _ o a _ _ NX A IT H) as (s & WS & LS); [discriminate|]. cbn [attr a_kind a_xml] in WS, LS. change (Ok (transform_to_xml float_str t) = Ok s) in WS. injection WS as <-.
  unfold ModelXml.check_element in A'. match type of A' with (if ?c then _ else _) = _ => destruct c end; [|discriminate]. injection A' as <-.
  destruct (attributes_read float_parse fuel _ _ _ ND M _ IT) as (v & LV & MV). cbn [attr a_kind a_xml] in MV. rewrite LS in MV. apply value_means in MV. cbn [ModelSvgFile.read_value] in MV.
  rewrite (round_trip_raises float_str float_parse t RS NE CH) in MV. discriminate MV.
Qed.
(** ** Keywords *)
Lemma keyword_width cls x kw : lookup kw (lit "stroke_width") = Some (VNumber x) -> In (attr "stroke_width" "stroke-width" KLength) (table cls) ->
  ~ is_ok (from_keywords float_str float_parse fuel cls kw).
Proof.
  intros L I [o H]. unfold from_keywords in H. inv H l T. apply traverse_forall2 in T. clear H. induction T as [|a b t l E T IH]; [destruct I|]. destruct I as [->|I]; [|exact (IH I)].
  cbn [attr a_py a_kind] in E. rewrite L in E. discriminate E.
Qed.
Lemma polyline_class tag a children o : named tag (lit "polyline") -> from_xml (Element tag a children) = Ok o -> o_class o = lit "Polygon".
Proof.
  intros N H. cbn [ModelSvgFile.from_xml] in H. rewrite (proj2 (tag_named tag (lit "polyline") (shape_braceless (lit "polyline") ltac:(vm_compute; tauto))) N) in H.
  replace (lookup TAGS (lit "polyline")) with (Some (lit "Polygon")) in H by (vm_compute; reflexivity). inv H l L. injection H as <-. reflexivity.
Qed.
(** ** Rectangles *)
Lemma rect_unplaced o w h vw vh vrx vry : has o "width" vw -> float_of float_parse vw = Ok w -> has o "height" vh -> float_of float_parse vh = Ok h ->
  has o "rx" vrx -> has o "ry" vry -> has o "x" VNone \/ has o "y" VNone -> ~ is_ok (rect_geometry float_parse o).
Proof.
  intros Hw Ew Hh Eh Hrx Hry N [p H]. unfold rect_geometry in H. rewrite (get_has _ _ _ Hw) in H. cbn [bind] in H. rewrite Ew in H. cbn [bind] in H.
  rewrite (get_has _ _ _ Hh) in H. cbn [bind] in H. rewrite Eh in H. cbn [bind] in H. rewrite (get_has _ _ _ Hrx) in H. cbn [bind] in H. rewrite (get_has _ _ _ Hry) in H. cbn [bind] in H.
  inv H r R. inv H x X. inv H y Y. inv H x' X'. inv H y' Y'. destruct N as [N|N]; apply get_has in N.
  - rewrite N in X. injection X as <-. discriminate X'.
  - rewrite N in Y. injection Y as <-. discriminate Y'.
Qed.
End Write.
