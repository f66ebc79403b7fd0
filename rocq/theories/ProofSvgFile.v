From Coq Require Import String Ascii List Bool Arith Reals ZArith Lia Lra.
From Verif Require Import Base ModelFormula ModelMeasure ModelVector ModelTransformation ModelLine ModelPath ModelSvgPath ModelSvgTransform.
From Verif Require ModelXml SpecXml ModelSvgState SpecSvgState.
From Verif Require Import ProofMeasure ProofSvgTransform.
From Verif Require ProofXml ProofSvgState.
From Verif Require Import ModelSvgFile SpecSvgFile.
Import ListNotations.
Local Open Scope list_scope.

Lemma bind_inv A B (m : result A) (f : A -> result B) b : bind m f = Ok b -> exists a, m = Ok a /\ f a = Ok b.
Proof. destruct m as [a|e]; [|discriminate]. exists a. split; [reflexivity|assumption]. Qed.
Tactic Notation "inv" hyp(H) ident(a) ident(E) := apply bind_inv in H; destruct H as (a & E & H).

(** ** Tags *)
Definition braceless (n : text) : Prop := ~ In "{"%char n /\ ~ In "}"%char n.
Lemma existsb_char c s : existsb (Ascii.eqb c) s = true <-> In c s.
Proof.
  rewrite existsb_exists. split.
  - intros (d & D & E). apply Ascii.eqb_eq in E. subst. exact D.
  - intro H. exists c. split; [exact H|apply Ascii.eqb_refl].
Qed.
Lemma find_first c s k : find [c] s = Some k -> exists p q, s = p ++ c :: q /\ ~ In c p /\ length p = k.
Proof.
  revert k. induction s as [|d s IH]; intros k; [discriminate|]. cbn [find starts]. rewrite andb_true_r.
  destruct (Ascii.eqb_spec c d) as [->|N].
  - intro H. injection H as <-. exists [], s. repeat split. intros [].
  - destruct (find [c] s) as [j|]; [|discriminate]. intro H. injection H as <-. destruct (IH j eq_refl) as (p & q & -> & P & L).
    exists (d :: p), q. cbn. rewrite L. repeat split. intros [H|H]; [congruence|exact (P H)].
Qed.
Lemma find_nothing c s : find [c] s = None -> ~ In c s.
Proof.
  induction s as [|d s IH]; [intros _ []|]. cbn [find starts]. rewrite andb_true_r. destruct (Ascii.eqb_spec c d) as [->|N]; [discriminate|].
  destruct (find [c] s); [discriminate|]. intros _ [H|H]; [congruence|exact (IH eq_refl H)].
Qed.
Lemma skipn_exact {A} (p q : list A) : skipn (length p) (p ++ q) = q.
Proof. induction p; [reflexivity|assumption]. Qed.
Lemma tag_named tag name : braceless name -> element_tag tag = name <-> named tag name.
Proof.
  intros [B1 B2]. unfold element_tag, named. change (lit "}") with ["}"%char].
  destruct (existsb (Ascii.eqb "{"%char) tag) eqn:E.
  - apply existsb_char in E. destruct (find ["}"%char] tag) as [k|] eqn:F.
    + apply find_first in F. destruct F as (p & q & -> & P & <-). rewrite Nat.add_comm. cbn [Nat.add].
      replace (skipn (S (length p)) (p ++ "}"%char :: q)) with q.
      2: { replace (p ++ "}"%char :: q) with ((p ++ ["}"%char]) ++ q) by (rewrite <- app_assoc; reflexivity).
           replace (S (length p)) with (length (p ++ ["}"%char])) by (rewrite app_length; cbn; lia). symmetry. apply skipn_exact. }
      split.
      * intros ->. right. exists p. repeat split; [|exact P]. apply in_app_iff in E. destruct E as [E|[E|E]]; [exact E|discriminate|destruct (B1 E)].
      * intros [<-|(p' & A & N & H)].
        -- destruct B2. apply in_app_iff. right. left. reflexivity.
        -- clear E A B1 B2. revert p' N H. induction p as [|c p IH]; intros [|c' p'] N H; cbn in H.
           ++ injection H as H. exact H.
           ++ injection H as <- H. destruct N. left. reflexivity.
           ++ injection H as -> H. destruct P. left. reflexivity.
           ++ injection H as <- H. apply (IH (fun H => P (or_intror H)) p' (fun H => N (or_intror H)) H).
    + apply find_nothing in F. split.
      * intros <-. left. reflexivity.
      * intros [->|(p & _ & _ & ->)]; [reflexivity|]. destruct F. apply in_app_iff. right. left. reflexivity.
  - assert (N : ~ In "{"%char tag) by (intro H; apply existsb_char in H; congruence). split.
    + intros ->. left. reflexivity.
    + intros [->|(p & A & _ & ->)]; [reflexivity|]. destruct N. apply in_app_iff. left. exact A.
Qed.
Lemma shape_braceless n : In n (group :: SHAPES) -> braceless n.
Proof.
  intro H. assert (F : Forall braceless (group :: SHAPES)).
  { repeat (constructor; [split; intro Q; apply existsb_char in Q; discriminate Q|]). constructor. }
  rewrite Forall_forall in F. exact (F n H).
Qed.
Lemma read_tags n : existsb (text_eqb n) TAGS_TO_READ = true <-> In n SHAPES.
Proof.
  rewrite existsb_exists. split.
  - intros (m & M & E). destruct (text_eqb_spec n m) as [->|]; [|discriminate]. cbn in M |- *. tauto.
  - intro H. exists n. split; [cbn in H |- *; tauto|]. destruct (text_eqb_spec n n); congruence.
Qed.

(** ** The values *)
Section Values.
Variable float_parse : text -> result R.
Variable fuel : nat.
Notation read_value := (read_value float_parse fuel).
Notation means := (means float_parse fuel).

Lemma split_nonempty c s : split c s <> [].
Proof. destruct s as [|d s]; [discriminate|]. cbn [split]. destruct (Ascii.eqb d c); [discriminate|]. destruct (split c s); discriminate. Qed.
Lemma join_split c s : join [c] (split c s) = s /\ forall w, In w (split c s) -> ~ In c w.
Proof.
  induction s as [|d s [IH1 IH2]]; [split; [reflexivity|intros w [<-|[]] []]|]. cbn [split]. pose proof (split_nonempty c s) as NE.
  destruct (split c s) as [|w l]; [congruence|]. destruct (Ascii.eqb_spec d c) as [->|N].
  - split; [cbn in IH1 |- *; destruct l; rewrite IH1; reflexivity|]. intros v [<-|V]; [intros []|exact (IH2 v V)].
  - split.
    + rewrite <- IH1. destruct l; reflexivity.
    + intros v [<-|V]; [|exact (IH2 v (or_intror V))]. intros [H|H]; [congruence|exact (IH2 w (or_introl eq_refl) H)].
Qed.
Lemma traverse_forall2 {A B} (f : A -> result B) l m : traverse f l = Ok m <-> Forall2 (fun a b => f a = Ok b) l m.
Proof.
  revert m. induction l as [|a l IH]; intro m; cbn.
  - split; [intro H; injection H as <-; constructor|]. intro H. inversion H. reflexivity.
  - split.
    + intro H. inv H b E. inv H bs E'. injection H as <-. constructor; [exact E|]. apply IH. exact E'.
    + intro H. inversion H as [|? b ? bs E E']. subst. rewrite E. cbn. apply IH in E'. rewrite E'. reflexivity.
Qed.
Lemma split_two c s : In c s -> 2 <= length (split c s).
Proof.
  induction s as [|d s IH]; [intros []|]. cbn [split]. pose proof (split_nonempty c s) as NE. intro H.
  destruct (Ascii.eqb_spec d c) as [->|N].
  - cbn. destruct (split c s); [congruence|cbn; lia].
  - destruct H as [H|H]; [congruence|]. specialize (IH H). destruct (split c s); [congruence|exact IH].
Qed.
Lemma join_sep c ws : 2 <= length ws -> In c (join [c] ws).
Proof. destruct ws as [|w [|v l]]; cbn; try lia. intros _. apply in_app_iff. right. left. reflexivity. Qed.
Lemma list_means s l : s <> lit "none" -> read_value KFloatList s = Ok (VNumbers l) <-> numbers_of float_parse s l.
Proof.
  intro NN. cbn [ModelSvgFile.read_value]. destruct (text_eqb_spec s (lit "none")); [congruence|]. clear NN n. unfold numbers_of.
  destruct (ModelXml.contains " "%char s) eqn:E1.
  - apply ProofXml.contains_spec in E1. destruct (join_split " "%char s) as [J W]. split.
    + intro H. inv H m T. injection H as ->. apply traverse_forall2 in T. exists " "%char, (split " "%char s).
      refine (conj (eq_sym J) (conj T (conj W _))). left. split; [reflexivity|]. exact (split_two " "%char s E1).
    + intros (sep & ws & -> & F & D & [[-> L]|(-> & NE & N)]); [|destruct (N E1)].
      rewrite ProofXml.split_joined; [|intros ->; cbn in L; lia|apply Forall_forall; exact D]. apply traverse_forall2 in F. rewrite F. reflexivity.
  - assert (N1 : ~ In " "%char s) by (intro H; apply ProofXml.contains_spec in H; congruence).
    destruct (ModelXml.contains ","%char s) eqn:E2.
    + destruct (join_split ","%char s) as [J W]. split.
      * intro H. inv H m T. injection H as ->. apply traverse_forall2 in T. exists ","%char, (split ","%char s).
        refine (conj (eq_sym J) (conj T (conj W _))). right. repeat split; [apply split_nonempty|exact N1].
      * intros (sep & ws & -> & F & D & [[-> L]|(-> & NE & N)]); [destruct N1; apply join_sep; exact L|].
        rewrite ProofXml.split_joined; [|exact NE|apply Forall_forall; exact D]. apply traverse_forall2 in F. rewrite F. reflexivity.
    + assert (N2 : ~ In ","%char s) by (intro H; apply ProofXml.contains_spec in H; congruence). split.
      * intro H. inv H x E. injection H as <-. exists ","%char, [s]. repeat split; [repeat constructor; exact E|intros w [<-|[]]; exact N2|].
        right. repeat split; [discriminate|exact N1].
      * intros (sep & ws & -> & F & D & [[-> L]|(-> & NE & N)]); [destruct N1; apply join_sep; exact L|].
        destruct ws as [|w [|v ws]]; [congruence| |destruct N2; apply join_sep; cbn; lia].
        inversion F as [|? x ? m X M]. inversion M. subst. cbn in X |- *. rewrite X. reflexivity.
Qed.
Lemma rev_cons {A} (s : list A) c r : rev s = c :: r -> s = rev r ++ [c].
Proof. intro H. rewrite <- (rev_involutive s), H. reflexivity. Qed.
Lemma removelast_snoc {A} (s : list A) c : removelast (s ++ [c]) = s.
Proof. rewrite removelast_app; [|discriminate]. cbn. apply app_nil_r. Qed.
Lemma snoc_inj {A} (s t : list A) c d : s ++ [c] = t ++ [d] -> s = t /\ c = d.
Proof. apply app_inj_tail. Qed.
Lemma length_means s v : s <> lit "inherit" -> read_length float_parse s = Ok v <-> means KLength s v.
Proof.
  intro NI. unfold read_length. cbn [means]. destruct (rev s) as [|c r] eqn:Q.
  - assert (s = []) by (rewrite <- (rev_involutive s), Q; reflexivity). subst s. split; [discriminate|].
    intros [[H _]|(_ & [(c & x & (t & H) & _)|[(t & x & H & _)|(t & u & c & x & H & _)]])]; try (destruct t; discriminate). congruence.
  - pose proof (rev_cons s c r Q) as E. clear Q. subst s. destruct (Ascii.eqb_spec c "%"%char) as [->|NP].
    + rewrite removelast_snoc. split.
      * intro H. inv H x X. injection H as <-. right. split; [exact NI|]. right. left. exists (rev r), x. repeat split. exact X.
      * intros [[H _]|(_ & [(c & x & (t & H) & A & N & _)|[(t & x & H & X & ->)|(t & u & c & x & H & A & _)]])]; [exact (False_ind _ (NI H))| | |].
        -- apply snoc_inj in H. destruct H. congruence.
        -- apply snoc_inj in H. destruct H as [-> _]. rewrite X. reflexivity.
        -- replace (t ++ [u; c]) with ((t ++ [u]) ++ [c]) in H by (rewrite <- app_assoc; reflexivity). apply snoc_inj in H. destruct H as [_ <-]. discriminate A.
    + destruct (is_alpha c) eqn:AL.
      * destruct r as [|u r].
        -- split; [discriminate|].
           intros [[H _]|(_ & [(d & x & (t & H) & A & N & _)|[(t & x & H & X & ->)|(t & u & d & x & H & A & _)]])]; [exact (False_ind _ (NI H))| | |].
           ++ apply snoc_inj in H. destruct H. congruence.
           ++ apply snoc_inj in H. destruct H. congruence.
           ++ destruct t as [|? [|? t]]; discriminate H.
        -- cbn [rev]. rewrite !removelast_snoc. split.
           ++ intro H. inv H x X. injection H as <-. right. split; [exact NI|]. right. right. exists (rev r), u, c, x.
              repeat split; [rewrite <- app_assoc; reflexivity|exact AL|exact X].
           ++ intros [[H _]|(_ & [(d & x & (t & H) & A & N & _)|[(t & x & H & X & ->)|(t & u' & d & x & H & A & X & ->)]])]; [exact (False_ind _ (NI H))| | |].
              ** apply snoc_inj in H. destruct H. congruence.
              ** apply snoc_inj in H. destruct H. congruence.
              ** replace (t ++ [u'; d]) with ((t ++ [u']) ++ [d]) in H by (rewrite <- app_assoc; reflexivity).
                 apply snoc_inj in H. destruct H as [H ->]. apply snoc_inj in H. destruct H as [-> ->]. rewrite X. reflexivity.
      * split.
        -- intro H. inv H x X. injection H as <-. right. split; [exact NI|]. left. exists c, x. repeat split; [eexists; reflexivity|exact AL|exact NP|exact X].
        -- intros [[H _]|(_ & [(d & x & (t & H) & A & N & X & ->)|[(t & x & H & X & ->)|(t & u & d & x & H & A & _)]])]; [exact (False_ind _ (NI H))| | |].
           ++ rewrite X. reflexivity.
           ++ apply snoc_inj in H. destruct H. congruence.
           ++ replace (t ++ [u; d]) with ((t ++ [u]) ++ [d]) in H by (rewrite <- app_assoc; reflexivity). apply snoc_inj in H. destruct H. congruence.
Qed.
Lemma value_means k s v : read_value k s = Ok v <-> means k s v.
Proof.
  destruct k.
  - cbn. split; [intro H; injection H as <-; reflexivity|intros ->; reflexivity].
  - cbn. split; [intro H; inv H x X; injection H as <-; exists x; auto|intros (x & X & ->); rewrite X; reflexivity].
  - cbn [means]. destruct (text_eqb_spec s (lit "none")) as [E|N].
    + subst s. split.
      * intro H. cbn in H. injection H as <-. left. auto.
      * intros [[_ ->]|[N _]]; [reflexivity|congruence].
    + split.
      * intro H. right. split; [exact N|]. assert (Q : exists l, v = VNumbers l).
        { cbn [ModelSvgFile.read_value] in H. destruct (text_eqb_spec s (lit "none")); [congruence|].
          destruct (ModelXml.contains " "%char s); [|destruct (ModelXml.contains ","%char s)]; inv H l L; injection H as <-; eauto. }
        destruct Q as [l ->]. exists l. split; [apply list_means; assumption|reflexivity].
      * intros [[E _]|(_ & l & L & ->)]; [congruence|]. apply list_means; assumption.
  - cbn [ModelSvgFile.read_value SpecSvgFile.means]. destruct (text_eqb_spec s (lit "inherit")) as [->|N]; split.
    + intro H. injection H as <-. left. auto.
    + intros [[_ ->]|[H _]]; [reflexivity|congruence].
    + intro H. inv H x X. injection H as <-. right. split; [exact N|]. exists x. auto.
    + intros [[H _]|(_ & x & X & ->)]; [congruence|]. rewrite X. reflexivity.
  - cbn [ModelSvgFile.read_value]. destruct (text_eqb_spec s (lit "inherit")) as [E|N].
    + subst s. split; [intro H; injection H as <-; left; auto|]. intros [[_ ->]|[H _]]; [reflexivity|congruence].
    + apply length_means. exact N.
  - cbn. split; [intro H; inv H p P; injection H as <-; exists p; auto|intros (p & P & ->); rewrite P; reflexivity].
  - cbn. split; [intro H; inv H p P; injection H as <-; exists p; auto|intros (p & P & ->); rewrite P; reflexivity].
Qed.

(** ** The attributes *)
Notation read_attributes := (read_attributes float_parse fuel).
Lemma attributes_read t attrib l : NoDup (map a_py t) -> read_attributes t attrib = Ok l -> forall a, In a t -> exists v, lookup l (a_py a) = Some v /\
  match lookup attrib (a_xml a) with Some s => means (a_kind a) s v | None => v = VNone end.
Proof.
  revert l. induction t as [|a t IH]; intros l ND H; [intros a []|]. cbn in H. inv H p E. inv H m M. injection H as <-. inv E v V. injection E as <-.
  inversion ND as [|? ? NI ND']. subst. intros b [<-|B]; cbn.
  - exists v. destruct (text_eqb_spec (a_py a) (a_py a)); [|congruence]. split; [reflexivity|].
    destruct (lookup attrib (a_xml a)); [apply value_means; exact V|injection V as <-; reflexivity].
  - destruct (text_eqb_spec (a_py a) (a_py b)) as [E|_]; [destruct NI; rewrite E; apply in_map; exact B|]. exact (IH m ND' M b B).
Qed.
Lemma attributes_names t attrib l : read_attributes t attrib = Ok l -> map fst l = map a_py t.
Proof.
  revert l. induction t as [|a t IH]; intros l H; cbn in H; [injection H as <-; reflexivity|]. inv H p E. inv H m M. injection H as <-. inv E v V. injection E as <-.
  cbn. rewrite (IH m M). reflexivity.
Qed.
Lemma attributes_legible t attrib : legible float_parse fuel attrib t -> is_ok (read_attributes t attrib).
Proof.
  induction t as [|a t IH]; intro L; [eexists; reflexivity|]. cbn.
  assert (Q : exists v, match lookup attrib (a_xml a) with Some s => read_value (a_kind a) s | None => Ok VNone end = Ok v).
  { destruct (lookup attrib (a_xml a)) as [s|] eqn:E; [|eexists; reflexivity]. destruct (L a s (or_introl eq_refl) E) as [v V]. exists v. apply value_means. exact V. }
  destruct Q as [v ->]. cbn. destruct IH as [l E]; [intros b s B; exact (L b s (or_intror B))|].
  unfold ModelSvgFile.read_attributes in E. rewrite E. eexists. reflexivity.
Qed.
End Values.

Fixpoint distinct (l : list text) : bool := match l with [] => true | a :: l => negb (existsb (text_eqb a) l) && distinct l end.
Lemma distinct_ok l : distinct l = true -> NoDup l.
Proof.
  induction l as [|a l IH]; [constructor|]. cbn. intro H. apply andb_prop in H. destruct H as [H D]. constructor; [|exact (IH D)].
  intro I. apply negb_true_iff in H. assert (existsb (text_eqb a) l = true); [|congruence]. apply existsb_exists. exists a.
  split; [exact I|]. destruct (text_eqb_spec a a); congruence.
Qed.
Definition attr_eqb (a b : attribute) : bool := text_eqb (a_py a) (a_py b) && text_eqb (a_xml a) (a_xml b) &&
  match a_kind a, a_kind b with
  | KString, KString | KFloat, KFloat | KFloatList, KFloatList | KNumber, KNumber | KLength, KLength | KPath, KPath | KTransform, KTransform => true
  | _, _ => false
  end.
Lemma attr_eqb_eq a b : attr_eqb a b = true -> a = b.
Proof.
  destruct a as [p x k], b as [p' x' k']. unfold attr_eqb. cbn. intro H. apply andb_prop in H. destruct H as [H K]. apply andb_prop in H. destruct H as [P X].
  destruct (text_eqb_spec p p'), (text_eqb_spec x x'); try discriminate. subst. destruct k, k'; try discriminate; reflexivity.
Qed.
Definition sublist (l m : list attribute) : bool := forallb (fun a => existsb (attr_eqb a) m) l.
Lemma sublist_in l m : sublist l m = true -> forall a, In a l -> In a m.
Proof.
  intros H a A. unfold sublist in H. rewrite forallb_forall in H. specialize (H a A). apply existsb_exists in H. destruct H as (b & B & E).
  apply attr_eqb_eq in E. subst. exact B.
Qed.
Lemma reader_table n cls l : In (n, cls, l) readers -> lookup TAGS n = Some cls /\ NoDup (map a_py (table cls)) /\
  (forall a, In a l <-> In a (table cls)) /\ In n SHAPES.
Proof.
  intro H. assert (Q : forallb (fun r => match lookup TAGS (fst (fst r)) with Some c => text_eqb c (snd (fst r)) | None => false end &&
    distinct (map a_py (table (snd (fst r)))) && sublist (snd r) (table (snd (fst r))) && sublist (table (snd (fst r))) (snd r) &&
    existsb (text_eqb (fst (fst r))) SHAPES) readers = true) by (vm_compute; reflexivity).
  rewrite forallb_forall in Q. specialize (Q _ H). cbn [fst snd] in Q. apply andb_prop in Q. destruct Q as [Q Q5]. apply andb_prop in Q. destruct Q as [Q Q4].
  apply andb_prop in Q. destruct Q as [Q Q3]. apply andb_prop in Q. destruct Q as [Q1 Q2]. repeat split.
  - destruct (lookup TAGS n) as [c|]; [|discriminate]. destruct (text_eqb_spec c cls); congruence.
  - apply distinct_ok. exact Q2.
  - apply sublist_in. exact Q3.
  - apply sublist_in. exact Q4.
  - apply existsb_exists in Q5. destruct Q5 as (m & M & E). destruct (text_eqb_spec n m); [subst; exact M|discriminate].
Qed.
