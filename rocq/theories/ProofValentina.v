(** Reading a calculation. *)
From Coq Require Import String Ascii List Bool Arith ZArith Lia.
From Verif Require Import Base ModelFormula ModelMeasure ProofMeasure SpecXml.
From Verif Require ModelXml ProofXml ModelColor ModelStyle ModelSketch.
From Verif Require Import ModelValentina SpecValentina.
Import ModelColor(color, color_str, database, ensure_color, AText, AColor).
Import ModelStyle(stroke_style, NoPen, SolidLine, DashLine, DotLine, DashDotLine, DashDotDotLine).
Import ModelXml(int_parse, int_str, xml_char).
Import ModelSketch(kind, KOperation, KPoint, KSingle, KAlong, KEnd, KIntersect, KNormal, KContact, KIntersection, KLine, KSpline, is_point).
Import ListNotations.
Local Open Scope result_scope.

(** The attributes of a kind, without repetitions *)
Definition attr_eqb (a b : attribute) : bool :=
  text_eqb (a_py a) (a_py b) && text_eqb (a_xml a) (a_xml b) &&
  match a_kind a, a_kind b with AInt, AInt | AFloat, AFloat | AString, AString | AColour, AColour | AStroke, AStroke => true | _, _ => false end.
Lemma attr_eqb_true a b : attr_eqb a b = true -> a = b.
Proof.
  unfold attr_eqb. destruct a as [p x k], b as [p' x' k']. cbn [a_py a_xml a_kind].
  destruct (text_eqb_spec p p') as [->|]; [|discriminate]. destruct (text_eqb_spec x x') as [->|]; [|discriminate].
  destruct k, k'; try discriminate; reflexivity.
Qed.
Fixpoint dedup (l : list attribute) : list attribute :=
  match l with [] => [] | a :: l => if existsb (attr_eqb a) l then dedup l else a :: dedup l end.
Lemma dedup_in a l : In a l -> In a (dedup l).
Proof.
  induction l as [|b l IH]; [intros []|]. intros [<-|H]; cbn [dedup].
  - destruct (existsb (attr_eqb b) l) eqn:E; [|left; reflexivity]. apply existsb_exists in E. destruct E as (c & C & E).
    apply attr_eqb_true in E. subst c. exact (IH C).
  - destruct (existsb (attr_eqb b) l); [exact (IH H)|right; exact (IH H)].
Qed.

Section Loops.
Context {float : Type} (float_str : float -> text) (float_parse : text -> result float) (db : database).
Notation pyval := (pyval float).
Notation instance := (instance float).
Notation from := (from_xml float float_str float_parse db).
Notation init_xml := (init_from_xml float float_str float_parse db).
Notation init_kwargs := (init_from_kwargs float float_str float_parse db).
Notation attrs := (attributes_of float float_str).

Lemma self_eqb n : text_eqb n n = true.
Proof. destruct (text_eqb_spec n n); [reflexivity|congruence]. Qed.

Lemma init_xml_ok (V : text -> pyval) e t : (forall a, In a t ->
    match lookup e (a_xml a) with Some s => from (a_kind a) (PText _ s) | None => Ok (PNone _) end = Ok (V (a_py a))) ->
  forall i, exists i', init_xml t e i = Ok i' /\
    (forall a, In a t -> lookup i' (a_py a) = Some (V (a_py a))) /\
    (forall n, (forall a, In a t -> a_py a <> n) -> lookup i' n = lookup i n).
Proof.
  induction t as [|a t IH]; intros R i; [exists i; split; [reflexivity|split; [intros a []|reflexivity]]|].
  cbn [init_from_xml]. rewrite (R a (or_introl eq_refl)). cbn [bind].
  destruct (IH (fun b B => R b (or_intror B)) (set_item i (a_py a) (V (a_py a)))) as (i' & E & L & K).
  exists i'. split; [exact E|]. split.
  - intros b [<-|B]; [|exact (L b B)]. destruct (in_dec (list_eq_dec ascii_dec) (a_py a) (map a_py t)) as [H|H].
    + apply in_map_iff in H. destruct H as (b & Eb & B). rewrite <- Eb. exact (L b B).
    + rewrite K, lookup_set, self_eqb; [reflexivity|]. intros b B Eb. apply H. rewrite <- Eb. exact (in_map a_py _ _ B).
  - intros n N. rewrite K, lookup_set.
    + destruct (text_eqb_spec (a_py a) n) as [Q|_]; [destruct (N a (or_introl eq_refl) Q)|reflexivity].
    + intros b B. exact (N b (or_intror B)).
Qed.
Lemma init_kwargs_ok (V : text -> pyval) d t : (forall a, In a t ->
    match lookup d (a_py a) with Some v => from (a_kind a) v | None => Ok (PNone _) end = Ok (V (a_py a))) ->
  forall i, exists i', init_kwargs t d i = Ok i' /\
    (forall a, In a t -> lookup i' (a_py a) = Some (V (a_py a))).
Proof.
  induction t as [|a t IH]; intros R i; [exists i; split; [reflexivity|intros a []]|].
  assert (K : forall i i' n, init_kwargs t d i = Ok i' -> (forall a, In a t -> a_py a <> n) -> lookup i' n = lookup i n).
  { clear. induction t as [|a t IH]; intros i i' n E N; [injection E as <-; reflexivity|]. cbn [init_from_kwargs] in E.
    destruct (match lookup d (a_py a) with Some v => from (a_kind a) v | None => Ok (PNone _) end) as [v|x]; [|discriminate].
    cbn [bind] in E. rewrite (IH _ _ n E), lookup_set by (intros b B; exact (N b (or_intror B))).
    destruct (text_eqb_spec (a_py a) n) as [Q|_]; [destruct (N a (or_introl eq_refl) Q)|reflexivity]. }
  cbn [init_from_kwargs]. rewrite (R a (or_introl eq_refl)). cbn [bind].
  destruct (IH (fun b B => R b (or_intror B)) (set_item i (a_py a) (V (a_py a)))) as (i' & E & L).
  exists i'. split; [exact E|].
  intros b [<-|B]; [|exact (L b B)]. destruct (in_dec (list_eq_dec ascii_dec) (a_py a) (map a_py t)) as [H|H].
  + apply in_map_iff in H. destruct H as (b & Eb & B). rewrite <- Eb. exact (L b B).
  + rewrite (K _ _ (a_py a) E), lookup_set, self_eqb; [reflexivity|]. intros b B Eb. apply H. rewrite <- Eb. exact (in_map a_py _ _ B).
Qed.
Lemma excluded_spec l n : excluded l n = true <-> In n l.
Proof.
  unfold excluded. rewrite existsb_exists. split.
  - intros (x & X & E). destruct (text_eqb_spec n x) as [->|]; [exact X|discriminate].
  - intro H. exists n. split; [exact H|apply self_eqb].
Qed.
Lemma get_dict_ok (V : text -> pyval) get exclude t : (forall a, In a t -> ~ In (a_py a) exclude -> get (a_py a) = Ok (V (a_py a))) ->
  forall d, exists d', get_dict float t get exclude d = Ok d' /\
    (forall a, In a t -> ~ In (a_py a) exclude -> lookup d' (a_py a) = Some (V (a_py a))) /\
    (forall n, (forall a, In a t -> ~ In (a_py a) exclude -> a_py a <> n) -> lookup d' n = lookup d n) /\
    (forall p, In p d' -> In (fst p) (map fst d) \/ exists a, In a t /\ ~ In (a_py a) exclude /\ fst p = a_py a).
Proof.
  induction t as [|a t IH]; intros R d; [exists d; split; [reflexivity|split; [intros a []|split; [reflexivity|]]]; intros p P; left; apply in_map, P|].
  cbn [get_dict]. destruct (excluded exclude (a_py a)) eqn:X.
  - apply excluded_spec in X. destruct (IH (fun b B => R b (or_intror B)) d) as (d' & E & L & K & M). exists d'. split; [exact E|].
    split; [|split].
    + intros b [<-|B] N; [contradiction|exact (L b B N)].
    + intros n N. apply K. intros b B. exact (N b (or_intror B)).
    + intros p P. destruct (M p P) as [Q|(b & B & Q)]; [left; exact Q|right; exists b; split; [right; exact B|exact Q]].
  - assert (NX : ~ In (a_py a) exclude) by (rewrite <- excluded_spec, X; discriminate).
    rewrite (R a (or_introl eq_refl) NX). cbn [bind].
    destruct (IH (fun b B => R b (or_intror B)) (set_item d (a_py a) (V (a_py a)))) as (d' & E & L & K & M).
    exists d'. split; [exact E|]. split; [|split].
    + intros b [<-|B] N; [|exact (L b B N)].
      destruct (in_dec (list_eq_dec ascii_dec) (a_py a) (map a_py t)) as [H|H].
      * apply in_map_iff in H. destruct H as (b & Eb & B). rewrite <- Eb in *. exact (L b B N).
      * rewrite K, lookup_set, self_eqb; [reflexivity|]. intros b B _ Eb. apply H. rewrite <- Eb. exact (in_map a_py _ _ B).
    + intros n N. rewrite K, lookup_set.
      * destruct (text_eqb_spec (a_py a) n) as [Q|_]; [destruct (N a (or_introl eq_refl) NX Q)|reflexivity].
      * intros b B. exact (N b (or_intror B)).
    + intros p P. destruct (M p P) as [Q|(b & B & Q)]; [|right; exists b; split; [right; exact B|exact Q]].
      destruct (in_dec (list_eq_dec ascii_dec) (a_py a) (map fst d)) as [H|H].
      * rewrite set_fst in Q by exact H. left. exact Q.
      * rewrite set_new, map_app in Q by exact H. apply in_app_or in Q. destruct Q as [Q|[Q|[]]]; [left; exact Q|].
        right. exists a. split; [left; reflexivity|]. split; [exact NX|symmetry; exact Q].
Qed.
(** What is written *)
Definition as_text (v : pyval) (s : option text) : Prop :=
  match s with None => v = PNone _ | Some s => v <> PNone _ /\ py_str _ float_str v = Ok s end.
Lemma set_in {A} (l : list (text * A)) n x p : In p (set_item l n x) -> In p l \/ snd p = x.
Proof.
  induction l as [|[k y] l IH]; cbn [set_item]; [intros [<-|[]]; right; reflexivity|].
  destruct (text_eqb k n); intros [<-|P].
  - right. reflexivity.
  - left. right. exact P.
  - left. left. reflexivity.
  - destruct (IH P) as [Q|Q]; [left; right; exact Q|right; exact Q].
Qed.
Lemma attrs_ok (X : text -> option text) i t : (forall a, In a t -> exists v, lookup i (a_py a) = Some v /\ as_text v (X (a_xml a))) ->
  forall e, exists e', attrs t i e = Ok e' /\
    (forall a, In a t -> X (a_xml a) <> None -> lookup e' (a_xml a) = X (a_xml a)) /\
    (forall n, (forall a, In a t -> a_xml a = n -> X n = None) -> lookup e' n = lookup e n) /\
    (forall p, In p e' -> In p e \/ exists a s, In a t /\ X (a_xml a) = Some s /\ snd p = s).
Proof.
  induction t as [|a t IH]; intros R e; [exists e; split; [reflexivity|split; [intros a []|split; [reflexivity|]]]; intros p P; left; exact P|].
  cbn [attributes_of]. unfold get_attribute. destruct (R a (or_introl eq_refl)) as (v & Lv & Av). rewrite Lv. cbn [bind].
  destruct (X (a_xml a)) as [s|] eqn:Xa; cbn [as_text] in Av.
  - destruct Av as [Nv Sv].
    destruct (IH (fun b B => R b (or_intror B)) (set_item e (a_xml a) s)) as (e' & E & L & K & M).
    exists e'. split; [rewrite Sv; cbn [bind]; rewrite E; destruct v; try reflexivity; contradiction|]. split; [|split].
    + intros b [<-|B] N; [|exact (L b B N)].
      destruct (in_dec (list_eq_dec ascii_dec) (a_xml a) (map a_xml t)) as [H|H].
      * apply in_map_iff in H. destruct H as (b & Eb & B). rewrite <- Eb in *. exact (L b B N).
      * rewrite K, lookup_set, self_eqb; [symmetry; exact Xa|]. intros b B Eb. destruct H. rewrite <- Eb. exact (in_map a_xml _ _ B).
    + intros n N. rewrite K, lookup_set.
      * destruct (text_eqb_spec (a_xml a) n) as [Q|_]; [|reflexivity]. pose proof (N a (or_introl eq_refl) Q) as Xn. rewrite <- Q, Xa in Xn. discriminate.
      * intros b B. exact (N b (or_intror B)).
    + intros p P. destruct (M p P) as [Q|(b & s' & B & Q)]; [|right; exists b, s'; split; [right; exact B|exact Q]].
      destruct (set_in _ _ _ _ Q) as [Q'|Q']; [left; exact Q'|]. right. exists a, s. split; [left; reflexivity|]. split; [exact Xa|exact Q'].
  - subst v. destruct (IH (fun b B => R b (or_intror B)) e) as (e' & E & L & K & M).
    exists e'. split; [exact E|]. split; [|split].
    + intros b [<-|B] N; [contradiction|exact (L b B N)].
    + intros n N. apply K. intros b B. exact (N b (or_intror B)).
    + intros p P. destruct (M p P) as [Q|(b & s' & B & Q)]; [left; exact Q|right; exists b, s'; split; [right; exact B|exact Q]].
Qed.
End Loops.
