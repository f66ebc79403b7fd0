(** More lemmas on the XML attributes: what an element holds, the booleans. *)
From Coq Require Import String Ascii List Bool Arith ZArith Lia.
From Verif Require Import Base ModelFormula ModelMeasure ProofMeasure ModelXml SpecXml ProofXml.
Import ListNotations.

Section Proofs.
Context {float : Type} (float_str : float -> text) (float_parse : text -> result float)
  (float_of_int : Z -> result float) (int_of_float : float -> result Z) (float_truth : float -> bool).
Hypothesis Hf : faithful float_str float_parse.
Notation value := (value float).
Notation attribute := (attribute float).
Notation from := (from_xml float float_str float_parse float_of_int int_of_float).
Notation to := (to_xml float float_str float_truth).
Notation write := (object_to_xml float float_str float_truth).
Notation attrs := (attributes_of float float_str float_truth).
Notation read := (read_object float float_str float_parse float_of_int int_of_float).
Notation init := (init_from_xml float float_str float_parse float_of_int int_of_float).
Notation get := (get_attribute float).

(** What is written is the text of every attribute which is not None *)
Lemma attrs_exact i : forall table e0 e, attrs table i e0 = Ok e -> consistent table ->
  (forall a, In a table -> exists v, get i a = Ok v /\ (v <> VNone _ -> exists s, to (a_kind _ a) v = Ok s /\ lookup e (a_xml _ a) = Some s)) /\
  (forall name, (forall a, In a table -> a_xml _ a <> name) -> lookup e name = lookup e0 name).
Proof.
  induction table as [|a table IH]; intros e0 e E C; cbn [attributes_of] in E.
  - injection E as <-. split; [intros a []|reflexivity].
  - destruct (get i a) as [v|x] eqn:G; [|discriminate]. cbn [bind] in E.
    assert (C' : consistent table) by (intros b c Bb Cc; apply C; right; assumption).
    assert (H : v = VNone _ /\ attrs table i e0 = Ok e \/ v <> VNone _ /\ exists s, to (a_kind _ a) v = Ok s /\ attrs table i (set_item e0 (a_xml _ a) s) = Ok e).
    { destruct v; [left; auto|right; split; [discriminate|] ..]; match type of E with bind ?t _ = _ => destruct t as [tx|?] eqn:T; [|discriminate] end; exists tx; auto. }
    destruct H as [[-> H]|(Nv & s & T & H)]; destruct (IH _ _ H C') as [P Q].
    + split.
      * intros b [<-|B]; [exists (VNone _); split; [exact G|congruence]|exact (P b B)].
      * intros name N. apply Q. intros b B. apply N. right. exact B.
    + split.
      * intros b [<-|B]; [|exact (P b B)]. exists v. split; [exact G|]. intros _. exists s. split; [exact T|].
        destruct (in_dec (list_eq_dec ascii_dec) (a_xml _ a) (map (fun b => a_xml _ b) table)) as [D|D].
        -- apply in_map_iff in D. destruct D as (b & Eb & B). assert (b = a) by (apply C; [right; exact B|left; reflexivity|auto]). subst b.
           destruct (P a B) as (v' & G' & K). rewrite G in G'. injection G' as <-.
           destruct (K Nv) as (s' & T' & Lk). congruence.
        -- rewrite Q; [rewrite lookup_set; destruct (text_eqb_spec (a_xml _ a) (a_xml _ a)); congruence|]. intros b B Eb. apply D, in_map_iff. exists b. auto.
      * intros name N. rewrite Q; [|intros b B; apply N; right; exact B]. rewrite lookup_set. destruct (text_eqb_spec (a_xml _ a) name) as [K|_]; [|reflexivity]. destruct (N a (or_introl eq_refl) K).
Qed.

Lemma write_exact table i e : consistent table -> write table i = Ok e -> forall a, In a table ->
  exists v, get i a = Ok v /\ (v <> VNone _ -> exists s, to (a_kind _ a) v = Ok s /\ lookup e (a_xml _ a) = Some s /\ xml_text s).
Proof.
  intros C E a A. unfold object_to_xml in E. destruct (attrs table i []) as [e'|x] eqn:Q; [|discriminate]. cbn [bind] in E.
  unfold check_element in E. match type of E with (if ?b then _ else _) = _ => destruct b eqn:F; [|discriminate] end. injection E as <-.
  destruct (proj1 (attrs_exact i table [] e' Q C) a A) as (v & G & K). exists v. split; [exact G|]. intro N. destruct (K N) as (s & T & Lk).
  exists s. split; [exact T|]. split; [exact Lk|]. rewrite forallb_forall in F. apply lookup_in in Lk. apply F in Lk. cbn [snd] in Lk.
  rewrite forallb_forall in Lk. intros c Hc. apply Lk in Hc. unfold xml_char in Hc. rewrite !orb_true_iff, Nat.leb_le, !Nat.eqb_eq in Hc. cbn. intuition.
Qed.
Lemma boolean_texts t b : from KBool (VStr _ t) = Ok (VBool _ b) <-> In t (if b then [lit "true"; lit "1"] else [lit "false"; lit "0"]).
Proof.
  cbn [from_xml]. destruct (text_eqb_spec t (lit "true")) as [->|N1]; [cbn [orb]; destruct b; split; intro H; try discriminate; cbn; auto; destruct H as [H|[H|[]]]; discriminate|].
  destruct (text_eqb_spec t (lit "1")) as [->|N2]; [cbn [orb]; destruct b; split; intro H; try discriminate; cbn; auto; destruct H as [H|[H|[]]]; discriminate|].
  destruct (text_eqb_spec t (lit "false")) as [->|N3]; [cbn [orb]; destruct b; split; intro H; try discriminate; cbn; auto; destruct H as [H|[H|[]]]; discriminate|].
  destruct (text_eqb_spec t (lit "0")) as [->|N4]; [cbn [orb]; destruct b; split; intro H; try discriminate; cbn; auto; destruct H as [H|[H|[]]]; discriminate|].
  cbn [orb]. split; [discriminate|]. destruct b; intros [H|[H|[]]]; congruence.
Qed.
Lemma boolean_other t : ~ In t [lit "true"; lit "1"; lit "false"; lit "0"] -> from KBool (VStr _ t) = Raise ValueError.
Proof.
  intro N. cbn [from_xml]. destruct (text_eqb_spec t (lit "true")) as [->|_]; [destruct N; cbn; auto|].
  destruct (text_eqb_spec t (lit "1")) as [->|_]; [destruct N; cbn; auto|].
  destruct (text_eqb_spec t (lit "false")) as [->|_]; [destruct N; cbn; auto|].
  destruct (text_eqb_spec t (lit "0")) as [->|_]; [destruct N; cbn; auto|]. reflexivity.
Qed.
End Proofs.
