From Coq Require Import String Ascii List Bool Arith ZArith Lia.
From Verif Require Import Base ModelFormula ModelMeasure ModelDate ModelVit SpecMeasure SpecDate SpecVit ProofMeasure ProofDate2 ProofDate3 ProofVit.
From Verif Require ModelValFile ProofValFile.
Import ModelValFile(xml, Node, Comment, children, body, attributes, tag_is, first_element, elements, iterate).
Import ListNotations.
Local Open Scope result_scope.

Lemma tag_node t e : tag_is t e = true <-> exists a b l, e = Node t a b l.
Proof.
  destruct e as [t' a b l|b]; cbn; [|split; [discriminate|intros (? & ? & ? & E); discriminate E]]. destruct (text_eqb_spec t' t) as [->|N]; split; try discriminate; try reflexivity; eauto.
  intros (? & ? & ? & E). injection E as E _ _ _. contradiction.
Qed.
Lemma first_iff root tag e : first_element root tag = Some e <-> first root tag e.
Proof.
  unfold first_element, elements, first. generalize (children root). intros c. split.
  - induction c as [|x c IH]; cbn [filter]; [discriminate|]. destruct (tag_is (lit tag) x) eqn:T.
    + cbn [hd_error]. intros H. injection H as ->. split; [now apply tag_node|]. exists [], c. split; [reflexivity|]. intros a b l [].
    + intros H. destruct (IH H) as (N & before & after & -> & B). split; [exact N|]. exists (x :: before), after. split; [reflexivity|].
      intros a b l [->|I]; [|exact (B a b l I)]. enough (tag_is (lit tag) (Node (lit tag) a b l) = true) by congruence. apply tag_node. eauto.
  - intros (N & before & after & -> & B). induction before as [|x before IH]; cbn [app filter].
    + rewrite (proj2 (tag_node _ _) N). reflexivity.
    + destruct (tag_is (lit tag) x) eqn:T.
      * apply tag_node in T. destruct T as (a & b & l & ->). exfalso. apply (B a b l). now left.
      * apply IH. intros a b l I. apply (B a b l). now right.
Qed.
Lemma says_iff root tag t : text_in root tag = Ok t <-> says root tag t.
Proof.
  unfold text_in, says. split.
  - destruct (first_element root tag) as [e|] eqn:E; [|discriminate]. intros H. injection H as <-. exists e. split; [now apply first_iff|reflexivity].
  - intros (e & F & <-). apply first_iff in F. rewrite F. reflexivity.
Qed.
Lemma or_iff a name default v : match lookup a (lit name) with Some t => t | None => default end = v <-> attribute_or a name default v.
Proof.
  unfold attribute_or. destruct (lookup a (lit name)) as [t|].
  - split; [intros ->; now left|]. intros [H|[H _]]; [now injection H|discriminate H].
  - split; [intros <-; right; auto|]. intros [H|[_ ->]]; [discriminate H|reflexivity].
Qed.

Section File.
Variable number expression : Type.
Variable sympify : text -> result expression.
Variable of_number : number -> expression.
Variable float : number -> number.
Notation add_entry := (add_entry number expression sympify of_number float).
Notation add_entries := (add_entries number expression sympify of_number float).
Notation read_m := (read_m number expression sympify of_number float).
Notation read_ms := (read_ms number expression sympify of_number float).
Notation read_vit := (read_vit number expression sympify of_number float).
Notation file_of := (file_of number expression sympify of_number float).

Lemma read_m_iff s x s' : read_m s x = Ok s' <-> exists e, entry_of x e /\ add_entry s e = Ok s'.
Proof.
  unfold ModelVit.read_m. destruct (tag_is (lit "m") x) eqn:T.
  - apply tag_node in T. destruct T as (a & b & l & ->). cbn [attributes]. split.
    + intros H. destruct (lookup a (lit "value")) as [v|] eqn:V; [|discriminate H].
      exists (Entry (match lookup a (lit "name") with Some t => t | None => lit "None" end) v (match lookup a (lit "full_name") with Some t => t | None => [] end)
        (match lookup a (lit "description") with Some t => t | None => [] end)).
      split; [|unfold SpecVit.add_entry; cbn [e_name e_value e_full_name e_description]; unfold v_add in *; destruct (lookup a (lit "name")); exact H].
      exists a, b, l. cbn [e_name e_value e_full_name e_description]. split; [reflexivity|]. repeat split; first [exact V | apply or_iff; reflexivity].
    + intros (e & (a' & b' & l' & E & N & V & F & D) & H). injection E as <- <- <-. rewrite V. apply or_iff in N, F, D. rewrite F, D.
      unfold SpecVit.add_entry, v_add in *. destruct (lookup a (lit "name")); rewrite <- N in H; exact H.
  - split; [discriminate|]. intros (e & (a & b & l & -> & _) & _). cbn in T. discriminate T.
Qed.
Lemma read_ms_iff l : forall s s', read_ms s l = Ok s' <-> exists es, Forall2 entry_of l es /\ add_entries s es = Ok s'.
Proof.
  induction l as [|x l IH]; intros s s'; cbn [ModelVit.read_ms].
  - split; [intros H; exists []; split; [constructor|exact H]|]. intros (es & F & H). inversion F; subst. exact H.
  - split.
    + intros H. destruct (read_m s x) as [s1|] eqn:E; [|discriminate H]. cbn [bind] in H. apply read_m_iff in E. destruct E as (e & E & A). apply IH in H. destruct H as (es & F & B).
      exists (e :: es). split; [constructor; assumption|]. cbn [SpecVit.add_entries]. rewrite A. exact B.
    + intros (es & F & H). inversion F as [|? e ? es' E F' Z1 Z2]; subst. cbn [SpecVit.add_entries] in H. destruct (add_entry s e) as [s1|] eqn:A; [|discriminate H]. cbn [bind] in H.
      rewrite (proj2 (read_m_iff s x s1)) by (exists e; auto). cbn [bind]. apply IH. exists es'. auto.
Qed.
Lemma read_iff root r : read_vit root = Ok r <-> file_of root r.
Proof.
  unfold ModelVit.read_vit. assert (P : new_personal [] = Ok (Personal [] [] GNone GNone UNKNOWN [] [])) by reflexivity. rewrite P. cbn [bind first_name last_name measurement_date comment]. split.
  - intros H.
    destruct (text_in root "version") as [ver|] eqn:E1; [|discriminate H]. cbn [bind] in H. destruct (text_in root "unit") as [un|] eqn:E2; [|discriminate H]. cbn [bind] in H.
    destruct (text_in root "pm_system") as [sy|] eqn:E3; [|discriminate H]. cbn [bind] in H. destruct (first_element root "personal") as [p|] eqn:E4; [|discriminate H]. cbn [bind] in H.
    destruct (text_in p "customer") as [cu|] eqn:E5; [|discriminate H]. cbn [bind] in H. destruct (text_in p "birth-date") as [bi|] eqn:E6; [|discriminate H]. cbn [bind] in H.
    destruct (set_birth_date (match bi with Some t => GText t | None => GNone end)) as [bd|] eqn:E7; [|discriminate H]. cbn [bind] in H.
    destruct (text_in p "gender") as [[ge|]|] eqn:E8; [|discriminate H..]. cbn [bind] in H.
    destruct (lookup gender_names (upper ge)) as [g|] eqn:E9; [|discriminate H]. cbn [bind] in H. destruct (text_in p "email") as [em|] eqn:E10; [|discriminate H]. cbn [bind] in H.
    destruct (first_element root "body-measurements") as [b|] eqn:E11; [|discriminate H]. cbn [bind iterate] in H.
    destruct (read_ms (empty_vset _ _) (children b)) as [s|] eqn:E12; [|discriminate H]. cbn [bind] in H. injection H as <-.
    apply says_iff in E1, E2, E3, E5, E6, E8, E10. apply first_iff in E4, E11. apply birth_iff in E7. apply gender_iff in E9. apply read_ms_iff in E12. destruct E12 as (es & F & A).
    constructor; cbn; auto.
    + exists ver. exact E1.
    + exists p. split; [exact E4|]. split; [exact E5|]. split; [exists bi; auto|]. split; [exists ge; auto|]. exists em. auto.
    + repeat split.
    + exists b, es. auto.
  - intros [[ver E1] E2 E3 (p & E4 & E5 & (bi & E6 & E7) & (ge & E8 & E9) & (em & E10 & EM)) (O1 & O2 & O3 & O4 & O5 & O6) (b & es & E11 & F & A)].
    apply says_iff in E1, E2, E3, E5, E6, E8, E10. apply first_iff in E4, E11. apply birth_iff in E7. apply gender_iff in E9.
    rewrite E1, E2, E3, E4. cbn [bind]. rewrite E5, E6. cbn [bind]. rewrite E7, E8. cbn [bind]. rewrite E9. cbn [bind]. rewrite E10, E11. cbn [bind iterate].
    rewrite (proj2 (read_ms_iff (children b) (empty_vset _ _) (vit_set _ _ r))) by (exists es; auto). cbn [bind]. f_equal.
    destruct r as [u sy c [f l bd md g em' co] s su ss]. cbn in *. subst. reflexivity.
Qed.
End File.
