(** Keywords, classes and counterexamples *)
From Coq Require Import String Ascii List Bool Arith ZArith NArith Lia.
From Verif Require Import Base ModelFormula ModelMeasure ProofMeasure ModelXml SpecXml ProofXml.
Import ListNotations.

Section Proofs.
Context {float : Type} (float_str : float -> text) (float_parse : text -> result float)
  (float_of_int : Z -> result float) (int_of_float : float -> result Z).
Notation value := (value float).
Notation attribute := (attribute float).
Notation cls := (cls float).
Notation from := (from_xml float float_str float_parse float_of_int int_of_float).
Notation read := (read_object float float_str float_parse float_of_int int_of_float).
Notation init := (init_from_xml float float_str float_parse float_of_int int_of_float).
Notation keywords := (init_from_kwargs float float_str float_parse float_of_int int_of_float).
Notation get := (get_attribute float).

(** What a keyword should give: the value itself, or the default *)
Definition keyword (kwargs : list (text * value)) (a : attribute) : value :=
  match lookup kwargs (a_py _ a) with Some v => v | None => a_default _ a end.
Lemma keywords_ind table kwargs : (forall a v, In a table -> lookup kwargs (a_py _ a) = Some v -> from (a_kind _ a) v = Ok v) ->
  forall i, exists i', keywords table kwargs i = Ok i' /\
    (forall a, In a table -> exists b, In b table /\ a_py _ b = a_py _ a /\ lookup i' (a_py _ a) = Some (keyword kwargs b)) /\
    (forall py, (forall a, In a table -> a_py _ a <> py) -> lookup i' py = lookup i py).
Proof.
  induction table as [|a table IH]; intros R i.
  - exists i. split; [reflexivity|]. split; [intros a []|reflexivity].
  - cbn [init_from_kwargs].
    assert (E0 : match lookup kwargs (a_py _ a) with Some v => from (a_kind _ a) v | None => Ok (a_default _ a) end = Ok (keyword kwargs a)).
    { unfold keyword. destruct (lookup kwargs (a_py _ a)) as [v|] eqn:E; [apply (R a v (or_introl eq_refl) E)|reflexivity]. }
    rewrite E0. cbn [bind].
    destruct (IH ltac:(intros b v B; apply R; right; exact B) (set_item i (a_py _ a) (keyword kwargs a))) as (i' & E & L & K).
    exists i'. split; [exact E|]. split.
    + intros b [<-|B].
      * destruct (in_dec (list_eq_dec ascii_dec) (a_py _ a) (map (a_py _) table)) as [H|H].
        -- apply in_map_iff in H. destruct H as (b & Eb & B). destruct (L b B) as (c & C & Ec & Lc). exists c. rewrite Eb in Ec, Lc. split; [right; exact C|auto].
        -- exists a. split; [left; reflexivity|]. split; [reflexivity|]. rewrite K, lookup_set.
           ++ destruct (text_eqb_spec (a_py _ a) (a_py _ a)); [reflexivity|congruence].
           ++ intros c C Ec. apply H. rewrite <- Ec. apply in_map, C.
      * destruct (L b B) as (c & C & R'). exists c. split; [right; exact C|exact R'].
    + intros py N. rewrite K, lookup_set.
      * destruct (text_eqb_spec (a_py _ a) py) as [Q|_]; [destruct (N a (or_introl eq_refl) Q)|reflexivity].
      * intros b B. apply N. right. exact B.
Qed.
(** A value of the kind; an empty list and any text are accepted here *)
Definition keyword_suits (k : ModelXml.kind) (v : value) : Prop :=
  match k, v with
  | KInt, VInt _ _ | KFloat, VFloat _ _ | KFloatList, VList _ _ | KFloatList, VNone _ | KString, VStr _ _ => True
  | _, _ => False
  end.
Lemma keywords_ok table kwargs : (forall a b, In a table -> In b table -> a_py _ a = a_py _ b -> a = b) ->
  (forall a v, In a table -> lookup kwargs (a_py _ a) = Some v -> keyword_suits (a_kind _ a) v) ->
  exists i, keywords table kwargs [] = Ok i /\ forall a, In a table -> get i a = Ok (keyword kwargs a).
Proof.
  intros C S0. destruct (keywords_ind table kwargs) with (i := @nil (text * value)) as (i & E & L & _).
  - intros a v A K. specialize (S0 a v A K). destruct (a_kind _ a), v; cbn in S0; try contradiction; reflexivity.
  - exists i. split; [exact E|]. intros a A. destruct (L a A) as (b & B & Eb & Lb). unfold get_attribute. rewrite Lb, (C b a B A Eb). reflexivity.
Qed.
Lemma keywords_bool table kwargs a b : In a table -> a_kind _ a = KBool -> lookup kwargs (a_py _ a) = Some (VBool _ b) ->
  forall i, exists e, keywords table kwargs i = Raise e.
Proof.
  intros A K L. induction table as [|c table IH]; [destruct A|]. intro i. cbn [init_from_kwargs]. destruct A as [->|A].
  - rewrite L, K. cbn. exists ValueError. reflexivity.
  - destruct (match lookup kwargs (a_py _ c) with Some v => from (a_kind _ c) v | None => Ok (a_default _ c) end) as [v|e]; cbn [bind]; [apply IH, A|exists e; reflexivity].
Qed.

(** ** The metaclass *)
Section Induction.
Variable P : cls -> Prop.
Hypothesis H : forall plain own bases mro, Forall P bases -> Forall P mro -> P (Class _ plain own bases mro).
Fixpoint cls_all (c : cls) : P c :=
  match c with
  | Class _ plain own bases mro =>
      H plain own bases mro
        ((fix go (l : list cls) : Forall P l := match l with [] => Forall_nil _ | x :: l => Forall_cons x (cls_all x) (go l) end) bases)
        ((fix go (l : list cls) : Forall P l := match l with [] => Forall_nil _ | x :: l => Forall_cons x (cls_all x) (go l) end) mro)
  end.
End Induction.
Lemma register_ok (a : attribute) (c : cls) : In a (register _ c) <-> exists d, reach c d /\ In a (own_of d).
Proof.
  induction c as [plain own bases mro IHb IHm] using cls_all. rewrite Forall_forall in IHb, IHm. cbn [register]. rewrite in_app_iff, in_flat_map. split.
  - intros [(m & M & A)|A].
    + apply (IHm m M) in A. destruct A as (d & R & A). exists d. split; [exact (reach_mro plain own bases mro m d M R)|exact A].
    + destruct plain; [exists (Class _ true own bases mro); split; [constructor|exact A]|]. apply in_app_or in A. destruct A as [A|A].
      * apply in_flat_map in A. destruct A as (b & B & A). apply (IHb b B) in A. destruct A as (d & R & A). exists d. split; [exact (reach_base own bases mro b d B R)|exact A].
      * exists (Class _ false own bases mro). split; [constructor|exact A].
  - intros (d & R & A). inversion R as [c|plain' own' bases' mro' m d' M R'|own' bases' mro' b d' B R']; subst.
    + right. cbn in A. destruct plain; [exact A|apply in_or_app; right; exact A].
    + left. exists m. split; [exact M|]. apply (IHm m M). exists d. auto.
    + right. apply in_or_app. left. apply in_flat_map. exists b. split; [exact B|]. apply (IHb b B). exists d. auto.
Qed.
Lemma table_ok own bases mro (a : attribute) : In a (table_of _ (Class _ false own bases mro)) <->
  In a own \/ exists b d, In b bases /\ reach b d /\ In a (own_of d).
Proof.
  cbn [table_of]. rewrite in_app_iff, in_flat_map. split.
  - intros [(b & B & A)|A]; [right|left; exact A]. apply register_ok in A. destruct A as (d & R & A). exists b, d. auto.
  - intros [A|(b & d & B & R & A)]; [right; exact A|left]. exists b. split; [exact B|]. apply register_ok. exists d. auto.
Qed.
(** The attributes of the class itself are read last. *)
Lemma init_app t1 t2 e i : init (t1 ++ t2) e i = match init t1 e i with Ok i' => init t2 e i' | Raise x => Raise x end.
Proof.
  revert i. induction t1 as [|a t1 IH]; intro i; [reflexivity|]. cbn [app init_from_xml].
  destruct (match lookup e (a_xml _ a) with Some s => from (a_kind _ a) (VStr _ s) | None => Ok (a_default _ a) end); cbn [bind]; [apply IH|reflexivity].
Qed.
Lemma own_ok own bases mro e i : (forall a b, In a own -> In b own -> a_py _ a = a_py _ b -> a = b) ->
  read (table_of _ (Class _ false own bases mro)) e = Ok i -> forall a, In a own ->
  get i a = match lookup e (a_xml _ a) with Some s => from (a_kind _ a) (VStr _ s) | None => Ok (a_default _ a) end.
Proof.
  intros C. cbn [table_of]. unfold read_object. rewrite init_app. destruct (init (flat_map (register _) bases) e []) as [i0|x]; [|discriminate].
  clear bases mro. revert i0. induction own as [|c own IH]; intros i0 E a A; [destruct A|]. cbn [init_from_xml] in E.
  destruct (match lookup e (a_xml _ c) with Some s => from (a_kind _ c) (VStr _ s) | None => Ok (a_default _ c) end) as [v|x] eqn:Ev; cbn [bind] in E; [|discriminate].
  destruct (in_dec (list_eq_dec ascii_dec) (a_py _ a) (map (a_py _) own)) as [H|H].
  - apply in_map_iff in H. destruct H as (b & Eb & B).
    assert (b = a) as -> by (apply C; [right; exact B|exact A|exact Eb]). apply (IH ltac:(intros x y X Y; apply C; right; assumption) _ E a B).
  - destruct A as [->|A]; [|destruct H; apply in_map, A]. rewrite Ev.
    assert (K : forall t i1 i2, init t e i1 = Ok i2 -> (forall b, In b t -> a_py _ b <> a_py _ a) -> lookup i2 (a_py _ a) = lookup i1 (a_py _ a)).
    { induction t as [|b t IHt]; intros i1 i2 E1 N; cbn [init_from_xml] in E1; [injection E1 as <-; reflexivity|].
      destruct (match lookup e (a_xml _ b) with Some s => from (a_kind _ b) (VStr _ s) | None => Ok (a_default _ b) end) as [w|x]; cbn [bind] in E1; [|discriminate].
      rewrite (IHt _ _ E1); [|intros d D; apply N; right; exact D]. rewrite lookup_set. destruct (text_eqb_spec (a_py _ b) (a_py _ a)) as [Q|_]; [destruct (N b (or_introl eq_refl) Q)|reflexivity]. }
    unfold get_attribute. rewrite (K _ _ _ E); [|intros b B Eb; apply H; rewrite <- Eb; apply in_map, B].
    rewrite lookup_set. destruct (text_eqb_spec (a_py _ a) (a_py _ a)); [reflexivity|congruence].
Qed.
End Proofs.

(** ** An instance: the floats are integers *)
Lemma integers_faithful : faithful int_str int_parse.
Proof.
  constructor.
  - exact int_back.
  - intros x c C. apply int_str_chars in C. lia.
  - intros x C. apply int_str_chars in C. cbn in C. lia.
  - intros x E. pose proof (int_back x) as B. rewrite E in B. discriminate.
Qed.
Definition zwrite := object_to_xml Z int_str (fun x => negb (x =? 0)%Z).
Definition zread := read_object Z int_str int_parse (fun z => Ok z) (fun z => Ok z).
Definition zkeywords := init_from_kwargs Z int_str int_parse (fun z => Ok z) (fun z => Ok z).
Definition attr (n : string) (k : ModelXml.kind) (d : ModelXml.value Z) : attribute Z := {| a_py := lit n; a_xml := lit n; a_kind := k; a_default := d |}.
Definition demo_table := [attr "id" KInt (VNone _); attr "points" KFloatList (VNone _); attr "label" KString (VNone _); attr "shown" KBool (VNone _); attr "id" KInt (VNone _)].
Definition demo_object : instance Z := [(lit "id", VInt _ (-12)%Z); (lit "points", VList _ [1; -2; 30]%Z); (lit "label", VStr _ (lit "A b")); (lit "shown", VNone _)].
Lemma demo_fine : consistent demo_table /\ forall a, In a demo_table -> fine demo_object a.
Proof.
  split.
  - intros a b A B. unfold demo_table in *. cbn in A, B.
    repeat (destruct A as [<-|A]); [..|contradiction]; repeat (destruct B as [<-|B]); try contradiction; intros [E|E]; first [reflexivity|discriminate E].
  - intros a A. cbn in A. repeat (destruct A as [<-|A]); [..|contradiction].
    + exists (VInt _ (-12)%Z). split; [reflexivity|left; exact Logic.I].
    + exists (VList _ [1; -2; 30]%Z). split; [reflexivity|left; discriminate].
    + exists (VStr _ (lit "A b")). split; [reflexivity|left]. intros c C. left. cbn in C. repeat (destruct C as [<-|C]; [cbn; lia|]). contradiction.
    + exists (VNone _). split; [reflexivity|right; split; reflexivity].
    + exists (VInt _ (-12)%Z). split; [reflexivity|left; exact Logic.I].
Qed.
Lemma lists_refuted : exists table i e, zwrite table i = Ok e /\ get_attribute Z i (attr "points" KFloatList (VNone _)) = Ok (VList _ []) /\
  In (attr "points" KFloatList (VNone _)) table /\ zread table e = Raise ValueError.
Proof.
  exists [attr "points" KFloatList (VNone _)], [(lit "points", VList _ [])]. eexists. split; [reflexivity|]. split; [reflexivity|]. split; [left; reflexivity|]. vm_compute. reflexivity.
Qed.
Lemma absent_refuted : exists a i e i', get_attribute Z i a = Ok (VNone _) /\ zwrite [a] i = Ok e /\ zread [a] e = Ok i' /\ get_attribute Z i' a <> Ok (VNone _).
Proof.
  exists (attr "n" KInt (VInt _ 1%Z)), [(lit "n", VNone _)]. do 2 eexists. split; [reflexivity|]. split; [reflexivity|]. split; [reflexivity|]. vm_compute. discriminate.
Qed.
Lemma comma_refuted : exists s, s = lit "1, 2" /\ from_xml Z int_str int_parse (fun z => Ok z) (fun z => Ok z) KFloatList (VStr _ s) = Raise ValueError.
Proof. eexists. split; [reflexivity|]. vm_compute. reflexivity. Qed.
Lemma text_refuted : exists table i t e t', text_object_to_xml Z int_str (fun x => negb (x =? 0)%Z) table i t = Ok (e, t) /\
  read_text_object Z int_str int_parse (fun z => Ok z) (fun z => Ok z) table e t = Ok (i, t') /\ t' <> t.
Proof. exists [], [], (lit "A"), [], []. split; [reflexivity|]. split; [reflexivity|]. discriminate. Qed.
