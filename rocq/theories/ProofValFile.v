(** Lemmas on the pattern files. *)
From Coq Require Import ZArith String Ascii List Bool Lia Sorted.
From Verif Require Import Base ModelFormula ModelMeasure SpecXml ProofMeasure.
From Verif Require ModelXml ModelColor ProofXml.
From Verif Require Import ModelVector ModelSketch SpecSketch GlueSketch ProofSketch ProofSketch3 ProofSketch4.
From Verif Require Import ModelValentina SpecValentina ProofValentina3 ProofValentina5 ProofValentina6 ProofValentina7 ModelValFile SpecValFile.
Import ModelXml(int_parse, xml_char).
Import ModelColor(color, database).
Import ListNotations.
Local Open Scope nat_scope.

Lemma text_eqb_eq a b : text_eqb a b = true -> a = b.
Proof. destruct (text_eqb_spec a b); [auto|discriminate]. Qed.
Lemma text_eqb_refl a : text_eqb a a = true.
Proof. destruct (text_eqb_spec a a); [reflexivity|congruence]. Qed.
Lemma tag_is_node t e : tag_is t e = true -> exists a b l, e = Node t a b l.
Proof. destruct e as [t' a b l|]; [|discriminate]. cbn. intros H. apply text_eqb_eq in H. subst. eauto. Qed.
Lemma tag_is_same t a b l : tag_is t (Node t a b l) = true.
Proof. cbn. apply text_eqb_refl. Qed.
Lemma holds_first e tag l : holds e tag l -> exists a b, first_element e tag = Some (Node (lit tag) a b l).
Proof.
  intros (before & a & b & after & E & H). exists a, b. unfold first_element, elements. rewrite E. clear E.
  induction before as [|x before IH]; cbn [app filter].
  - rewrite tag_is_same. reflexivity.
  - destruct (tag_is (lit tag) x) eqn:T; [destruct (tag_is_node _ _ T) as (a' & b' & l' & ->); exfalso; exact (H a' b' l' (or_introl eq_refl))|].
    apply IH. intros a' b' l' I. exact (H a' b' l' (or_intror I)).
Qed.
Lemma lacks_first e tag : lacks e tag -> first_element e tag = None.
Proof.
  unfold lacks, first_element, elements. generalize (children e). intros c H. induction c as [|x c IH]; [reflexivity|]. cbn [filter].
  destruct (tag_is (lit tag) x) eqn:T; [destruct (tag_is_node _ _ T) as (a' & b' & l' & ->); exfalso; exact (H a' b' l' (or_introl eq_refl))|].
  apply IH. intros a b l I. exact (H a b l (or_intror I)).
Qed.
Lemma holds_iterate e tag l : holds e tag l -> iterate (first_element e tag) = Ok l.
Proof. intros H. destruct (holds_first e tag l H) as (a & b & ->). reflexivity. Qed.

(** *** Attributes *)
Section Details.
Context {float : Type} (float_parse : text -> result float).
Notation item := (item float).
Notation read_item := (read_item float float_parse).
Notation good_text := (good_text float_parse).
Notation well_written := (well_written float_parse).
Definition kind_of (s : sort) : dkind := match s with Integer => DInt | Number => DFloat | Truth => DBool | Words => DString end.
Lemma value_good s t : is_ok (read_value float float_parse (kind_of s) t) <-> good_text s t.
Proof.
  destruct s; cbn [kind_of read_value SpecValFile.good_text].
  - destruct (int_parse t) as [z0|x0]; cbn; split; intros [a1 H]; try discriminate; eexists; reflexivity.
  - destruct (float_parse t) as [z0|x0]; cbn; split; intros [a1 H]; try discriminate; eexists; reflexivity.
  - destruct (text_eqb_spec t (lit "true")) as [->|A]; [cbn [orb]; split; [intros _; left; reflexivity|intros _; eexists; reflexivity]|].
    destruct (text_eqb_spec t (lit "1")) as [->|B]; [cbn [orb]; split; [intros _; right; left; reflexivity|intros _; eexists; reflexivity]|].
    destruct (text_eqb_spec t (lit "false")) as [->|C]; [cbn [orb]; split; [intros _; right; right; left; reflexivity|intros _; eexists; reflexivity]|].
    destruct (text_eqb_spec t (lit "0")) as [->|D]; [cbn [orb]; split; [intros _; right; right; right; left; reflexivity|intros _; eexists; reflexivity]|].
    cbn [orb]. split; [intros [a1 H]; discriminate H|]. intros [E|[E|[E|[E|[]]]]]; congruence.
  - split; [auto|]. intros _. eexists. reflexivity.
Qed.
(** The attributes of the model and those of the specification *)
Definition agree (c : list (string * string * dkind)) (l : list (string * sort)) : Prop :=
  forall name k, (exists py, In (py, name, k) c) <-> exists s, In (name, s) l /\ k = kind_of s.
Lemma read_item_ok c e : is_ok (read_item c e) <->
  forall py name k t, In (py, name, k) c -> lookup (attributes e) (lit name) = Some t -> is_ok (read_value float float_parse k t).
Proof.
  induction c as [|[[py name] k] c IH]; cbn [ModelValFile.read_item].
  - split; [intros _ py name k t []|intros _; eexists; reflexivity].
  - destruct (lookup (attributes e) (lit name)) as [t|] eqn:L.
    + destruct (read_value float float_parse k t) as [v|x] eqn:V; cbn [bind].
      * destruct (read_item c e) as [i|x] eqn:R; cbn [bind].
        -- split; [|intros _; eexists; reflexivity]. intros _ py' name' k' t' [E|I] L'.
           ++ injection E as <- <- <-. rewrite L in L'. injection L' as <-. rewrite V. eexists; reflexivity.
           ++ apply (proj1 IH (ex_intro _ i eq_refl) py' name' k' t' I L').
        -- split; [intros [a1 H]; discriminate H|]. intros H. destruct (proj2 IH) as [a A]; [|discriminate]. intros py' name' k' t' I. apply (H py' name' k' t'). right. exact I.
      * split; [intros [a1 H]; discriminate H|]. intros H. destruct (H py name k t (or_introl eq_refl) L) as [a A]. congruence.
    + cbn [bind]. destruct (read_item c e) as [i|x] eqn:R; cbn [bind].
      * split; [|intros _; eexists; reflexivity]. intros _ py' name' k' t' [E|I] L'.
        -- injection E as <- <- <-. congruence.
        -- apply (proj1 IH (ex_intro _ i eq_refl) py' name' k' t' I L').
      * split; [intros [a1 H]; discriminate H|]. intros H. destruct (proj2 IH) as [a A]; [|discriminate]. intros py' name' k' t' I. apply (H py' name' k' t'). right. exact I.
Qed.
Lemma read_item_good c l e : agree c l -> (is_ok (read_item c e) <-> well_written l e).
Proof.
  intros A. rewrite read_item_ok. split.
  - intros H name s t I L. destruct (proj2 (A name (kind_of s)) (ex_intro _ s (conj I eq_refl))) as (py & P). apply value_good. exact (H py name (kind_of s) t P L).
  - intros H py name k t P L. destruct (proj1 (A name k) (ex_intro _ py P)) as (s & I & ->). apply value_good. exact (H name s t I L).
Qed.
(** The keys *)
Lemma key_refers py name c : forall e i, read_item c e = Ok i -> In (py, name, DInt) c -> (forall n k, In (py, n, k) c -> n = name /\ k = DInt) ->
  refers e name (key_of float py i).
Proof.
  induction c as [|[[py' name'] k'] c IH]; intros e i R I U; [destruct I|]. cbn [ModelValFile.read_item] in R.
  destruct (String.eqb_spec py' py) as [->|N].
  - destruct (U name' k' (or_introl eq_refl)) as [-> ->]. unfold refers. destruct (lookup (attributes e) (lit name)) as [t|].
    + cbn in R. destruct (int_parse t) as [z|]; [|discriminate]. cbn in R. destruct (read_item c e) as [j|]; [|discriminate]. injection R as <-.
      exists z. split; [reflexivity|]. cbn. rewrite String.eqb_refl. reflexivity.
    + cbn in R. destruct (read_item c e) as [j|]; [|discriminate]. injection R as <-. cbn. rewrite String.eqb_refl. reflexivity.
  - destruct I as [I|I]; [congruence|].
    match type of R with (bind ?m _) = _ => destruct m as [v|] end; [|discriminate]. cbn [bind] in R.
    destruct (read_item c e) as [j|] eqn:Rj; [|discriminate]. injection R as <-. cbn [key_of]. destruct (String.eqb_spec py' py) as [E|_]; [congruence|].
    apply (IH e j Rj I). intros n k J. exact (U n k (or_intror J)).
Qed.
Lemma refers_unique e name k k' : refers e name k -> refers e name k' -> k = k'.
Proof.
  unfold refers. destruct (lookup _ _); [intros (z & A & ->) (z' & B & ->); congruence|congruence].
Qed.

Ltac agree_tac := intros name k; split; [intros (py & H); cbn in H; repeat (destruct H as [H|H]; [injection H as _ <- <-|]); try contradiction; cbn; eexists; (split; [eauto 20|reflexivity])|
  intros (s & H & ->); cbn in H; repeat (destruct H as [H|H]; [injection H as <- <-|]); try contradiction; cbn; eauto 30].
Lemma agree_point : agree modeling_point [("id", Integer); ("idObject", Integer); ("type", Words); ("inUse", Truth); ("mx", Number); ("my", Number)]%string.
Proof. agree_tac. Qed.
Lemma agree_spline : agree modeling_spline [("id", Integer); ("idObject", Integer); ("type", Words); ("inUse", Truth)]%string.
Proof. agree_tac. Qed.
Lemma agree_detail : agree detail detail_attributes.
Proof. agree_tac. Qed.
Lemma agree_node : agree detail_node node_attributes.
Proof. agree_tac. Qed.
Lemma agree_data : agree detail_data [("letter", Words); ("width", Integer); ("height", Integer); ("mx", Number); ("my", Number); ("fontSize", Integer);
             ("visible", Truth); ("rotation", Integer)]%string.
Proof. agree_tac. Qed.
Lemma agree_info : agree detail_info [("width", Integer); ("height", Integer); ("mx", Number); ("my", Number); ("fontSize", Integer);
             ("visible", Truth); ("rotation", Integer)]%string.
Proof. agree_tac. Qed.
Lemma agree_grainline : agree detail_grainline [("arrows", Integer); ("length", Integer); ("mx", Number); ("my", Number); ("visible", Truth); ("rotation", Integer)]%string.
Proof. agree_tac. Qed.

(** *** Elements *)
Definition tables (t : list (string * list (string * string * dkind))) (u : list (string * list (string * sort))) : Prop :=
  (forall tag c, In (tag, c) t -> exists l, In (tag, l) u /\ agree c l) /\
  (forall tag l, In (tag, l) u -> exists c, In (tag, c) t /\ agree c l) /\ NoDup (map (fun p => lit (fst p)) t).
Lemma class_found t e c : class_of t e = Ok c -> exists tag, In (tag, c) t /\ tag_is (lit tag) e = true.
Proof.
  induction t as [|[tag c'] t IH]; [discriminate|]. cbn [class_of]. destruct (tag_is (lit tag) e) eqn:T.
  - intros H. injection H as <-. exists tag. split; [left; reflexivity|exact T].
  - intros H. destruct (IH H) as (tag' & I & T'). exists tag'. split; [right; exact I|exact T'].
Qed.
Lemma class_find t tag c a b l : In (tag, c) t -> NoDup (map (fun p => lit (fst p)) t) -> class_of t (Node (lit tag) a b l) = Ok c.
Proof.
  induction t as [|[tag' c'] t IH]; intros I U; [destruct I|]. cbn [class_of tag_is]. cbn [map] in U. inversion U as [|? ? N U']. subst.
  destruct I as [I|I].
  - injection I as <- <-. rewrite text_eqb_refl. reflexivity.
  - destruct (text_eqb (lit tag) (lit tag')) eqn:E; [|exact (IH I U')]. apply text_eqb_eq in E. exfalso. apply N. cbn [fst]. rewrite <- E.
    apply in_map_iff. exists (tag, c). split; [reflexivity|exact I].
Qed.
Lemma from_xml_good t u e : tables t u -> (is_ok (from_xml float float_parse t e) <-> one_of float_parse u e).
Proof.
  intros (A & B & U). unfold from_xml. split.
  - destruct (class_of t e) as [c|] eqn:C; [|intros [a H]; discriminate]. cbn [bind]. intros H.
    destruct (class_found t e c C) as (tag & I & T). destruct (A tag c I) as (l & L & G). destruct (tag_is_node _ _ T) as (a & b & ch & ->).
    exists tag, l, a, b, ch. split; [exact L|]. split; [reflexivity|]. apply (read_item_good c l _ G), H.
  - intros (tag & l & a & b & ch & I & -> & W). destruct (B tag l I) as (c & C & G). rewrite (class_find t tag c a b ch C U). cbn [bind].
    apply (read_item_good c l _ G), W.
Qed.
Lemma modeling_tables : tables modeling_tags modeling_items.
Proof.
  split; [|split].
  - intros tag c [H|[H|[]]]; injection H as <- <-; eexists; (split; [cbn; eauto|]); [exact agree_point|exact agree_spline].
  - intros tag c [H|[H|[]]]; injection H as <- <-; eexists; (split; [cbn; eauto|]); [exact agree_point|exact agree_spline].
  - cbn [map fst modeling_tags]. repeat (constructor; [cbn; intuition discriminate|]). constructor.
Qed.
Lemma detail_tables : tables detail_tags detail_items.
Proof.
  split; [|split].
  - intros tag c [H|[H|[H|[]]]]; injection H as <- <-; eexists; (split; [cbn; eauto|]); [exact agree_grainline|exact agree_info|exact agree_data].
  - intros tag c [H|[H|[H|[]]]]; injection H as <- <-; eexists; (split; [cbn; eauto|]); [exact agree_data|exact agree_info|exact agree_grainline].
  - cbn [map fst detail_tags]. repeat (constructor; [cbn; intuition discriminate|]). constructor.
Qed.
Lemma modeling_keys e i : from_xml float float_parse modeling_tags e = Ok i -> refers e "id" (key_of float "id" i) /\ refers e "idObject" (key_of float "object_id" i).
Proof.
  unfold from_xml. destruct (class_of modeling_tags e) as [c|] eqn:C; [|discriminate]. cbn [bind]. intros R.
  destruct (class_found _ e c C) as (tag & [H|[H|[]]] & _); injection H as <- <-; split;
    (apply (key_refers _ _ _ e i R); [cbn; eauto 10|intros n k H; cbn in H; repeat (destruct H as [H|H]; [injection H; intros; subst; try discriminate; auto|]); contradiction]).
Qed.
Lemma node_key e i : read_item detail_node e = Ok i -> refers e "idObject" (key_of float "object_id" i).
Proof.
  intros R. apply (key_refers _ _ _ e i R); [cbn; eauto|]. intros n k H. cbn in H. repeat (destruct H as [H|H]; [injection H; intros; subst; try discriminate; auto|]). contradiction.
Qed.
End Details.
