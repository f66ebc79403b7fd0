From Coq Require Import String Ascii List Bool Arith Reals ZArith Lia Lra.
From Verif Require Import Base ModelFormula ModelMeasure ModelVector ModelTransformation ModelLine ModelPath ModelSvgPath ModelSvgTransform.
From Verif Require ModelXml SpecXml ModelSvgState SpecSvgState.
From Verif Require Import ProofMeasure ProofSvgTransform.
From Verif Require ProofXml ProofSvgState.
From Verif Require Import ModelSvgFile SpecSvgFile ProofSvgFile.
Import ListNotations.
Local Open Scope list_scope.

Fixpoint weight (x : xml) : nat := match x with Element _ _ l => S (list_sum (map weight l)) | Comment => 1 end.

Section Walk.
Variable float_parse : text -> result R.
Variable fuel : nat.
Notation visit := (visit float_parse fuel).
Notation visit_all := (visit_all visit).
Notation from_xml := (from_xml float_parse fuel).
Notation read_attributes := (read_attributes float_parse fuel).
Notation stands_for := (stands_for float_parse fuel).
Notation good := (legible_all float_parse fuel).

Lemma shape_reader n cls : In n SHAPES -> lookup TAGS n = Some cls -> In (lit "id") (map a_py (table cls)) -> exists l, In (n, cls, l) readers.
Proof.
  intros H T I. assert (J : existsb (text_eqb (lit "id")) (map a_py (table cls)) = true).
  { apply existsb_exists. exists (lit "id"). split; [exact I|]. destruct (text_eqb_spec (lit "id") (lit "id")); congruence. } clear I.
  assert (Q : forallb (fun n => match lookup TAGS n with
      | Some c => if existsb (text_eqb (lit "id")) (map a_py (table c)) then existsb (fun r => text_eqb n (fst (fst r)) && text_eqb c (snd (fst r))) readers else true
      | None => true end) SHAPES = true) by (vm_compute; reflexivity).
  rewrite forallb_forall in Q. specialize (Q n H). rewrite T, J in Q. apply existsb_exists in Q. destruct Q as ([[m c] l] & R & E). cbn [fst snd] in E.
  apply andb_prop in E. destruct E as [E1 E2]. destruct (text_eqb_spec n m), (text_eqb_spec cls c); try discriminate. subst. exists l. exact R.
Qed.
Lemma get_in o py v : get o py = Ok v -> In py (map fst (o_values o)).
Proof. unfold get. destruct (lookup (o_values o) py) as [w|] eqn:E; [|discriminate]. intros _. apply in_map_iff. exists (py, w). split; [reflexivity|]. apply lookup_in. exact E. Qed.
Lemma shape_stands tag a children o v n : named tag n -> In n SHAPES -> from_xml (Element tag a children) = Ok o -> get o (lit "id") = Ok v ->
  stands_for (Element tag a children) o.
Proof.
  intros N S F I. cbn [ModelSvgFile.from_xml] in F. rewrite (proj2 (tag_named tag n (shape_braceless n (or_intror S))) N) in F.
  destruct (lookup TAGS n) as [cls|] eqn:T; [|discriminate]. inv F l L. injection F as <-.
  apply get_in in I. cbn [o_values] in I. rewrite (attributes_names _ _ _ _ _ L) in I.
  destruct (shape_reader n cls S T I) as (al & R). destruct (reader_table n cls al R) as (_ & ND & SUB & _).
  exists tag, a, children, n, cls, al. repeat split; [exact N|exact R|]. intros b B. apply SUB in B. cbn.
  destruct (attributes_read _ _ _ _ _ ND L b B) as (w & W & M). exists w. split; assumption.
Qed.
Lemma group_inv tag a children st r : element_tag tag = group -> visit st (Element tag a children) = Ok r ->
  exists o v st', from_xml (Element tag a children) = Ok o /\ get o (lit "id") = Ok v /\
    ModelSvgState.push value (read_number float_parse) defaults st (item_of o) = Ok st' /\ visit_all st' children = Ok r.
Proof.
  intros E H. cbn [ModelSvgFile.visit] in H. rewrite E in H. change (text_eqb group (lit "g")) with true in H. cbn iota in H.
  inv H o O. inv H v V. inv H st' S. exists o, v, st'. repeat split; assumption.
Qed.
Lemma shape_inv tag a children st r : In (element_tag tag) SHAPES -> visit st (Element tag a children) = Ok r ->
  exists o v s, from_xml (Element tag a children) = Ok o /\ get o (lit "id") = Ok v /\ r = (st, [(o, s)]).
Proof.
  intros E H. cbn [ModelSvgFile.visit] in H. destruct (text_eqb_spec (element_tag tag) (lit "g")) as [G|_].
  - rewrite G in E. assert (Q : existsb (text_eqb (lit "g")) SHAPES = false) by (vm_compute; reflexivity).
    assert (existsb (text_eqb (lit "g")) SHAPES = true); [|congruence]. apply existsb_exists. exists (lit "g"). split; [exact E|]. destruct (text_eqb_spec (lit "g") (lit "g")); congruence.
  - rewrite (proj2 (read_tags _) E) in H. inv H o O. inv H v V. inv H s S. inv H s' S'. injection H as <-. exists o, v, s'. repeat split; assumption.
Qed.
Lemma other_visit tag a children st : ~ In (element_tag tag) (group :: SHAPES) -> visit st (Element tag a children) = Ok (st, []).
Proof.
  intro N. cbn [ModelSvgFile.visit]. destruct (text_eqb_spec (element_tag tag) (lit "g")) as [G|_]; [destruct N; left; symmetry; exact G|].
  destruct (existsb (text_eqb (element_tag tag)) TAGS_TO_READ) eqn:E; [|reflexivity]. apply read_tags in E. destruct N. right. exact E.
Qed.
Lemma not_named tag : ~ In (element_tag tag) (group :: SHAPES) <-> forall n, In n (group :: SHAPES) -> ~ named tag n.
Proof.
  split.
  - intros H n N Q. apply (tag_named tag n (shape_braceless n N)) in Q. rewrite Q in H. exact (H N).
  - intros H Q. exact (H _ Q (proj1 (tag_named tag _ (shape_braceless _ Q)) eq_refl)).
Qed.

Lemma walk_sound : forall k l, (list_sum (map weight l) < k)%nat -> forall st r, visit_all st l = Ok r ->
  exists sh, shapes l sh /\ Forall2 (fun x p => stands_for x (fst p)) sh (snd r).
Proof.
  induction k as [|k IH]; intros l L st r H; [lia|]. destruct l as [|x l].
  - cbn in H. injection H as <-. exists []. split; constructor.
  - cbn [ModelSvgFile.visit_all] in H. inv H r1 V. inv H r2 W. injection H as <-. cbn [map list_sum fold_right] in L. fold (list_sum (map weight l)) in L.
    assert (Hx : (1 <= weight x)%nat) by (destruct x; cbn; lia).
    destruct (IH l ltac:(lia) (fst r1) r2 W) as (sh2 & S2 & F2). destruct x as [tag a children|]; [|discriminate V].
    cbn [snd]. destruct (in_dec (list_eq_dec ascii_dec) (element_tag tag) (group :: SHAPES)) as [[G|S]|N].
    + symmetry in G. destruct (group_inv tag a children st r1 G V) as (o & v & st' & O & I & P & C).
      cbn [weight] in L. destruct (IH children ltac:(lia) st' r1 C) as (sh1 & S1 & F1). exists (sh1 ++ sh2). split; [|apply Forall2_app; assumption].
      constructor; [apply tag_named; [apply shape_braceless; left; reflexivity|exact G]|exact S1|exact S2].
    + destruct (shape_inv tag a children st r1 S V) as (o & v & s & O & I & ->).
      pose proof (proj1 (tag_named tag _ (shape_braceless _ (or_intror S))) eq_refl) as NM.
      exists (Element tag a children :: sh2). split; [exact (shapes_shape tag a children l _ sh2 S NM S2)|].
      constructor; [|exact F2]. exact (shape_stands tag a children o v _ NM S O I).
    + rewrite (other_visit tag a children st N) in V. injection V as <-. exists sh2. split; [|exact F2]. apply shapes_other; [apply not_named; exact N|exact S2].
Qed.

(** ** What can be read *)
Lemma pairs_ok l : (forall d, In d l -> exists n v, SpecSvgState.declaration d = Some (n, v) /\ n <> lit "transform") -> forall (s : state),
  is_ok (ModelSvgState.merge_pairs value (read_number float_parse) s l).
Proof.
  induction l as [|d l IH]; intros H s; [eexists; reflexivity|]. cbn [ModelSvgState.merge_pairs].
  destruct (H d (or_introl eq_refl)) as (n & v & D & N). unfold SpecSvgState.declaration in D. unfold ModelSvgState.merge_pair.
  destruct (split ":"%char d) as [|x [|y [|? ?]]]; try discriminate. cbn [map]. rewrite ProofSvgState.replace_dashes. injection D as D1 D2.
  match goal with |- context [text_eqb ?z (lit "transform")] => replace z with n by exact (eq_sym D1); destruct (text_eqb_spec n (lit "transform")); [congruence|] end.
  cbn [bind]. apply IH. intros e E. exact (H e (or_intror E)).
Qed.
Lemma merge_ok (s : state) tag a children o : from_xml (Element tag a children) = Ok o -> good_style a ->
  (forall b, In b (table (o_class o)) -> a_py b = lit "style" -> a_xml b = lit "style" /\ a_kind b = KString) -> NoDup (map a_py (table (o_class o))) ->
  is_ok (ModelSvgState.merge value (read_number float_parse) defaults s (item_of o)).
Proof.
  intros F G HS ND. unfold ModelSvgState.merge. destruct (ModelSvgState.i_style value (item_of o)) as [style|] eqn:E; [|eexists; reflexivity].
  apply pairs_ok. intros d D. refine (G style d _ D). cbn [item_of ModelSvgState.i_style] in E.
  destruct (lookup (o_values o) (lit "style")) as [v|] eqn:L; [|discriminate]. destruct v; try discriminate. injection E as ->.
  cbn [ModelSvgFile.from_xml] in F. destruct (lookup TAGS (element_tag tag)) as [cls|]; [|discriminate]. inv F l R. injection F as <-. cbn [o_values o_class] in *.
  pose proof (attributes_names _ _ _ _ _ R) as NM.
  assert (I : In (lit "style") (map a_py (table cls))).
  { rewrite <- NM. apply in_map_iff. exists (lit "style", VText style). split; [reflexivity|]. apply lookup_in. exact L. }
  apply in_map_iff in I. destruct I as (b & BP & B). destruct (HS b B BP) as [BX BK].
  destruct (attributes_read _ _ _ _ _ ND R b B) as (v & V & M). rewrite BP, L in V. injection V as <-. rewrite BX, BK in M.
  destruct (lookup a (lit "style")) as [s'|]; [|discriminate]. cbn in M. injection M as ->. reflexivity.
Qed.
Definition style_fine (t : list attribute) : bool :=
  forallb (fun b => negb (text_eqb (a_py b) (lit "style")) || (text_eqb (a_xml b) (lit "style") && match a_kind b with KString => true | _ => false end)) t.
Lemma style_fine_ok t : style_fine t = true -> forall b, In b t -> a_py b = lit "style" -> a_xml b = lit "style" /\ a_kind b = KString.
Proof.
  unfold style_fine. rewrite forallb_forall. intros H b B E. specialize (H b B). rewrite E in H. change (negb (text_eqb (lit "style") (lit "style"))) with false in H.
  cbn [orb] in H. apply andb_prop in H. destruct H as [X K]. destruct (text_eqb_spec (a_xml b) (lit "style")); [|discriminate]. destruct (a_kind b); try discriminate. auto.
Qed.
Lemma reader_style n cls l : In (n, cls, l) readers -> style_fine (table cls) = true /\ In (lit "id") (map a_py (table cls)).
Proof.
  intro H. assert (Q : forallb (fun r => style_fine (table (snd (fst r))) && existsb (text_eqb (lit "id")) (map a_py (table (snd (fst r))))) readers = true) by (vm_compute; reflexivity).
  rewrite forallb_forall in Q. specialize (Q _ H). cbn [fst snd] in Q. apply andb_prop in Q. destruct Q as [Q1 Q2]. split; [exact Q1|].
  apply existsb_exists in Q2. destruct Q2 as (m & M & E). destruct (text_eqb_spec (lit "id") m); [subst; exact M|discriminate].
Qed.
Lemma group_table : lookup TAGS group = Some (lit "Group") /\ NoDup (map a_py (table (lit "Group"))) /\ style_fine (table (lit "Group")) = true /\
  In (lit "id") (map a_py (table (lit "Group"))) /\ forall a, In a group_attributes <-> In a (table (lit "Group")).
Proof.
  split; [vm_compute; reflexivity|]. split; [apply distinct_ok; vm_compute; reflexivity|]. split; [vm_compute; reflexivity|]. split.
  - assert (Q : existsb (text_eqb (lit "id")) (map a_py (table (lit "Group"))) = true) by (vm_compute; reflexivity).
    apply existsb_exists in Q. destruct Q as (m & M & E). destruct (text_eqb_spec (lit "id") m); [subst; exact M|discriminate].
  - intro a. split; apply sublist_in; vm_compute; reflexivity.
Qed.
Lemma read_ok tag a children n cls l : named tag n -> braceless n -> lookup TAGS n = Some cls -> (forall b, In b l <-> In b (table cls)) ->
  legible float_parse fuel a l -> In (lit "id") (map a_py (table cls)) ->
  exists o v, from_xml (Element tag a children) = Ok o /\ get o (lit "id") = Ok v /\ o_class o = cls.
Proof.
  intros N B T SUB L I. cbn [ModelSvgFile.from_xml]. rewrite (proj2 (tag_named tag n B) N), T.
  destruct (attributes_legible float_parse fuel (table cls) a) as [m M]; [intros b s Hb; apply (L b s); apply SUB; exact Hb|].
  rewrite M. cbn [bind]. eexists. rewrite <- (attributes_names _ _ _ _ _ M) in I.
  destruct (lookup m (lit "id")) as [v|] eqn:E; [|apply lookup_none in E; destruct (E I)]. exists v. split; [reflexivity|]. split; [|reflexivity].
  unfold get. cbn. change (lookup m (lit "id")) with (lookup m (lit "id")). cbn in E. rewrite E. reflexivity.
Qed.
Lemma walk_defined : forall l, good l -> forall st, st <> [] -> exists r, visit_all st l = Ok r /\ fst r <> [].
Proof.
  induction 1 as [|tag a children rest N L G C IHC R IHR|tag a children rest n cls l N RD L G R IHR|tag a children rest N R IHR]; intros st NE.
  - exists (st, []). split; [reflexivity|exact NE].
  - destruct group_table as (T & ND & SF & I & SUB). pose proof (shape_braceless group (or_introl eq_refl)) as B.
    destruct (read_ok tag a children group (lit "Group") _ N B T SUB L I) as (o & v & O & V & CL).
    destruct st as [|s st]; [congruence|].
    destruct (merge_ok (ModelSvgState.clone value (read_number float_parse) defaults s) tag a children o O G) as [s' M]; [rewrite CL; apply style_fine_ok; exact SF|rewrite CL; exact ND|].
    destruct (IHC (s' :: s :: st)) as (r1 & V1 & NE1); [discriminate|]. destruct (IHR (fst r1) NE1) as (r2 & V2 & NE2).
    cbn [ModelSvgFile.visit_all]. assert (Q : visit (s :: st) (Element tag a children) = Ok r1).
    { cbn [ModelSvgFile.visit]. rewrite (proj2 (tag_named tag group B) N). change (text_eqb group (lit "g")) with true. cbn iota. rewrite O. cbn [bind]. rewrite V. cbn [bind].
      unfold ModelSvgState.push. cbn [ModelSvgState.top bind]. rewrite M. cbn [bind]. exact V1. }
    rewrite Q. cbn [bind]. rewrite V2. cbn [bind]. eexists. split; [reflexivity|]. exact NE2.
  - destruct (reader_table n cls l RD) as (T & ND & SUB & S). destruct (reader_style n cls l RD) as [SF I]. pose proof (shape_braceless n (or_intror S)) as B.
    destruct (read_ok tag a children n cls l N B T SUB L I) as (o & v & O & V & CL).
    destruct st as [|s st]; [congruence|].
    destruct (merge_ok (ModelSvgState.clone value (read_number float_parse) defaults s) tag a children o O G) as [s' M]; [rewrite CL; apply style_fine_ok; exact SF|rewrite CL; exact ND|].
    destruct (IHR (s :: st) NE) as (r2 & V2 & NE2).
    cbn [ModelSvgFile.visit_all]. assert (Q : visit (s :: st) (Element tag a children) = Ok (s :: st, [(o, s')])).
    { cbn [ModelSvgFile.visit]. rewrite (proj2 (tag_named tag n B) N). destruct (text_eqb_spec n (lit "g")) as [G'|_].
      - exfalso. rewrite G' in S. assert (Q : existsb (text_eqb (lit "g")) SHAPES = false) by (vm_compute; reflexivity).
        assert (existsb (text_eqb (lit "g")) SHAPES = true); [|congruence]. apply existsb_exists. exists (lit "g"). split; [exact S|]. destruct (text_eqb_spec (lit "g") (lit "g")); congruence.
      - rewrite (proj2 (read_tags n) S), O. cbn [bind]. rewrite V. cbn [bind ModelSvgState.top]. rewrite M. reflexivity. }
    rewrite Q. cbn [bind fst]. rewrite V2. cbn [bind]. eexists. split; [reflexivity|]. exact NE2.
  - destruct (IHR st NE) as (r2 & V2 & NE2). cbn [ModelSvgFile.visit_all]. rewrite (other_visit tag a children st); [|apply not_named; exact N].
    cbn [bind fst]. rewrite V2. cbn [bind]. eexists. split; [reflexivity|]. exact NE2.
Qed.

(** ** What cannot be read *)
Lemma visited l : forall st r, visit_all st l = Ok r -> forall x, In x l -> exists st' r', visit st' x = Ok r'.
Proof.
  induction l as [|y l IH]; intros st r H x X; [destruct X|]. cbn [ModelSvgFile.visit_all] in H. inv H r1 V. inv H r2 W.
  destruct X as [<-|X]; [eauto|]. exact (IH _ _ W x X).
Qed.
Lemma within_visited x l : within x l -> forall st r, visit_all st l = Ok r -> exists st' r', visit st' x = Ok r'.
Proof.
  induction 1 as [l X|tag a children l N I W IH]; intros st r H.
  - exact (visited l st r H x X).
  - destruct (visited l st r H _ I) as (st1 & r1 & V). apply (tag_named tag group (shape_braceless group (or_introl eq_refl))) in N.
    destruct (group_inv tag a children st1 r1 N V) as (o & v & st2 & _ & _ & _ & C). exact (IH _ _ C).
Qed.
Definition unreadable (x : xml) : Prop := x = Comment \/ exists tag a children, x = Element tag a children /\ (named tag (lit "polygon") \/ named tag (lit "ellipse")).
Lemma unreadable_visit x st r : unreadable x -> visit st x <> Ok r.
Proof.
  intros [->|(tag & a & children & -> & N)] H; [discriminate|].
  assert (S : exists n, In n SHAPES /\ named tag n /\ (n = lit "polygon" \/ n = lit "ellipse")).
  { destruct N as [N|N]; [exists (lit "polygon")|exists (lit "ellipse")]; (split; [cbn; tauto|split; [exact N|tauto]]). }
  destruct S as (n & S & N' & E). pose proof (proj2 (tag_named tag n (shape_braceless n (or_intror S))) N') as T. rewrite <- T in S.
  destruct (shape_inv tag a children st r S H) as (o & v & s & O & I & _). cbn [ModelSvgFile.from_xml] in O. rewrite T in O.
  destruct E as [->| ->].
  - change (lookup TAGS (lit "polygon")) with (@None text) in O. discriminate.
  - change (lookup TAGS (lit "ellipse")) with (Some (lit "Ellipse")) in O. cbn iota in O. inv O l L. injection O as <-. apply get_in in I. cbn [o_values] in I.
    rewrite (attributes_names _ _ _ _ _ L) in I. assert (Q : existsb (text_eqb (lit "id")) (map a_py (table (lit "Ellipse"))) = false) by (vm_compute; reflexivity).
    assert (existsb (text_eqb (lit "id")) (map a_py (table (lit "Ellipse"))) = true); [|congruence]. apply existsb_exists. exists (lit "id"). split; [exact I|]. destruct (text_eqb_spec (lit "id") (lit "id")); congruence.
Qed.
Lemma unreadable_file tag a children x : within x children -> unreadable x -> ~ is_ok (read_file float_parse fuel (Element tag a children)).
Proof.
  intros W U [f H]. unfold read_file in H. inv H svg S. inv H v V. inv H b B. inv H w W'. inv H h H'. inv H r R. cbn [children_of] in R.
  destruct (within_visited x children W _ _ R) as (st' & r' & Q). exact (unreadable_visit x st' r' U Q).
Qed.

(** ** The file *)
Lemma svg_table : lookup TAGS (lit "svg") = Some (lit "Svg") /\ NoDup (map a_py (table (lit "Svg"))) /\ forall a, In a root_table <-> In a (table (lit "Svg")).
Proof.
  split; [vm_compute; reflexivity|]. split; [apply distinct_ok; vm_compute; reflexivity|]. intro a. split; apply sublist_in; vm_compute; reflexivity.
Qed.
Lemma view_box_class cls : In (lit "view_box") (map a_py (table cls)) -> cls = lit "Svg".
Proof.
  intro I. unfold table in I. destruct (text_eqb_spec cls (lit "Svg")) as [E|_]; [exact E|]. exfalso.
  assert (N : forall t, existsb (text_eqb (lit "view_box")) (map a_py t) = false -> ~ In (lit "view_box") (map a_py t)).
  { intros t E H. assert (existsb (text_eqb (lit "view_box")) (map a_py t) = true); [|congruence]. apply existsb_exists. exists (lit "view_box"). split; [exact H|].
    destruct (text_eqb_spec (lit "view_box") (lit "view_box")); congruence. }
  revert I. repeat match goal with |- context [if ?b then _ else _] => destruct b end; apply N; vm_compute; reflexivity.
Qed.
Lemma tags_svg n : lookup TAGS n = Some (lit "Svg") -> n = lit "svg".
Proof.
  intro H. apply lookup_in in H. assert (Q : forallb (fun p => negb (text_eqb (snd p) (lit "Svg")) || text_eqb (fst p) (lit "svg")) TAGS = true) by (vm_compute; reflexivity).
  rewrite forallb_forall in Q. specialize (Q _ H). cbn [fst snd] in Q. change (text_eqb (lit "Svg") (lit "Svg")) with true in Q. cbn [negb orb] in Q.
  destruct (text_eqb_spec n (lit "svg")); [assumption|discriminate].
Qed.
Lemma svg_braceless : braceless (lit "svg").
Proof. split; intro Q; apply existsb_char in Q; discriminate Q. Qed.
Lemma file_read root f : read_file float_parse fuel root = Ok f -> exists tag a children svg sh x y x' y',
  root = Element tag a children /\ named tag (lit "svg") /\ (forall b, In b root_table -> gives float_parse fuel a svg b) /\
  lookup (o_values svg) (lit "view_box") = Some (VNumbers [x; y; x'; y']) /\ f_view_box f = Box (Itv x x') (Itv y y') /\
  lookup (o_values svg) (lit "width") = Some (f_width f) /\ lookup (o_values svg) (lit "height") = Some (f_height f) /\
  shapes children sh /\ Forall2 (fun x p => stands_for x (fst p)) sh (f_items f).
Proof.
  unfold read_file. intro H. inv H svg S. inv H v V. inv H b B. inv H w W. inv H h Hh. inv H r R. injection H as <-.
  destruct root as [tag a children|]; [|discriminate S]. cbn [ModelSvgFile.from_xml] in S. cbn [children_of] in R.
  destruct (lookup TAGS (element_tag tag)) as [cls|] eqn:T; [|discriminate]. inv S l L. injection S as <-.
  pose proof (get_in _ _ _ V) as I. cbn [o_values] in I. rewrite (attributes_names _ _ _ _ _ L) in I. apply view_box_class in I. subst cls.
  pose proof (tags_svg _ T) as E. destruct (walk_sound (S (list_sum (map weight children))) children (Nat.lt_succ_diag_r _) _ r R) as (sh & SH & F).
  destruct svg_table as (_ & ND & SUB). destruct v as [| | |q| | | |]; try discriminate. destruct q as [|x [|y [|x' [|y' [|? ?]]]]]; try discriminate. injection B as <-.
  exists tag, a, children, (Object (lit "Svg") l), sh, x, y, x', y'. split; [reflexivity|]. split; [apply tag_named; [exact svg_braceless|exact E]|]. split.
  { intros c C. apply SUB in C. destruct (attributes_read _ _ _ _ _ ND L c C) as (u & U & M). exists u. split; assumption. }
  unfold get in V, W, Hh.
  assert (GG : forall n u, match lookup (o_values (Object (lit "Svg") l)) n with Some v => Ok v | None => Raise AttributeError end = Ok u -> lookup (o_values (Object (lit "Svg") l)) n = Some u).
  { intros n u. destruct (lookup _ n); [|discriminate]. intro Q. injection Q as ->. reflexivity. }
  apply GG in V, W, Hh. cbn [f_view_box f_width f_height f_items]. repeat split; try assumption.
Qed.
Lemma file_defined tag a children l : named tag (lit "svg") -> legible float_parse fuel a root_table ->
  (exists s, lookup a (lit "viewBox") = Some s /\ s <> lit "none" /\ numbers_of float_parse s l) -> length l = 4%nat -> good children ->
  is_ok (read_file float_parse fuel (Element tag a children)).
Proof.
  intros N L (s & VB & NN & NL) LEN G. destruct svg_table as (T & ND & SUB). unfold read_file. cbn [ModelSvgFile.from_xml children_of].
  rewrite (proj2 (tag_named tag _ svg_braceless) N), T.
  destruct (attributes_legible float_parse fuel (table (lit "Svg")) a) as [m M]; [intros b t B; apply (L b t); apply SUB; exact B|]. rewrite M. cbn [bind].
  assert (G1 : forall py xm k, In (attr py xm k) root_table -> exists v, get (Object (lit "Svg") m) (lit py) = Ok v /\
    match lookup a (lit xm) with Some s => means float_parse fuel k s v | None => v = VNone end).
  { intros py xm k I. apply SUB in I. destruct (attributes_read _ _ _ _ _ ND M _ I) as (v & V & MM). exists v. split; [|exact MM]. unfold get. cbn [o_values]. cbn [attr a_py] in V. rewrite V. reflexivity. }
  destruct (G1 "view_box"%string "viewBox"%string KFloatList) as (v & -> & MV); [cbn; tauto|]. cbn [bind].
  rewrite VB in MV. apply value_means in MV. apply (proj2 (list_means float_parse fuel s l NN)) in NL. rewrite NL in MV. injection MV as <-.
  destruct l as [|x [|y [|x' [|y' [|? ?]]]]]; try discriminate LEN. cbn [bind].
  destruct (G1 "width"%string "width"%string KString) as (w & -> & _); [cbn; tauto|]. cbn [bind].
  destruct (G1 "height"%string "height"%string KString) as (h & -> & _); [cbn; tauto|]. cbn [bind].
  destruct (walk_defined children G [ModelSvgState.new_state value defaults]) as (r & -> & _); [discriminate|]. eexists. reflexivity.
Qed.
End Walk.
