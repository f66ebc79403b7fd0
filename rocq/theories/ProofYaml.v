From Coq Require Import String Ascii List Bool Arith ZArith Lia Permutation.
From Verif Require Import Base ModelFormula ModelMeasure SpecMeasure ProofMeasure ModelYaml SpecYaml.
Import ListNotations.

Lemma text_leb_before a b : text_leb a b = true <-> before a b.
Proof.
  revert b. induction a as [|x a IH]; intros [|y b]; cbn [text_leb].
  - split; [constructor|reflexivity].
  - split; [constructor|reflexivity].
  - split; [discriminate|intro H; inversion H].
  - destruct (Nat.eqb_spec (nat_of_ascii x) (nat_of_ascii y)) as [E|N].
    + rewrite IH. apply (f_equal ascii_of_nat) in E. rewrite !ascii_nat_embedding in E. subst y.
      split; [apply bf_same|]. intro H. inversion H; subst; [lia|assumption].
    + rewrite Nat.ltb_lt. split; [apply bf_less|]. intro H. inversion H; subst; [assumption|contradiction].
Qed.
Lemma before_total a b : before a b \/ before b a.
Proof.
  revert b. induction a as [|x a IH]; intros [|y b]; try (left; apply bf_nil); try (right; apply bf_nil).
  destruct (Nat.lt_trichotomy (nat_of_ascii x) (nat_of_ascii y)) as [H|[H|H]].
  - left. apply bf_less. exact H.
  - apply (f_equal ascii_of_nat) in H. rewrite !ascii_nat_embedding in H. subst y. destruct (IH b); [left|right]; apply bf_same; assumption.
  - right. apply bf_less. exact H.
Qed.
Lemma before_trans a b c : before a b -> before b c -> before a c.
Proof.
  intro H. revert c. induction H as [t|x y s t L|x s t H IH]; intros c Hc; [constructor| |].
  - inversion Hc; subst; apply bf_less; lia.
  - inversion Hc; subst; [apply bf_less; assumption|]. apply bf_same. apply IH. assumption.
Qed.

Section Proofs.
Variable number sympy W : Type.
Variable of_int : Z -> number.
Variable other_str : yaml number -> text.
Variable sympify : text -> result sympy.
Variable as_number : sympy -> option number.
Variable sympy_str : sympy -> text.
Variable number_str : number -> text.
Variable float : number -> number.
Variable worth : expression number sympy -> W.
Notation item := (measurement number (expression number sympy)).
Notation set := (measurements number (expression number sympy)).
Notation insert := (insert number sympy).
Notation sorted := (fold_right insert []).
Notation name := (m_name number (expression number sympy)).
Notation load_items := (load_items number of_int other_str sympy sympify float).

Lemma insert_perm (m : item) l : Permutation (insert m l) (m :: l).
Proof.
  induction l as [|m' l IH]; cbn; [reflexivity|]. destruct (text_leb _ _); [reflexivity|]. rewrite IH. apply perm_swap.
Qed.
Lemma sort_perm (l : list item) : Permutation (sorted l) l.
Proof. induction l as [|m l IH]; cbn; [reflexivity|]. rewrite insert_perm, IH. reflexivity. Qed.
Lemma insert_ascending (m : item) l : ascending (map name l) -> ascending (map name (insert m l)).
Proof.
  induction l as [|m' l IH]; cbn; intro H; [repeat constructor|]. destruct (text_leb (name m) (name m')) eqn:E.
  - cbn. inversion H as [|? ? F A]; subst. apply text_leb_before in E. constructor; [|exact H]. constructor; [exact E|].
    apply Forall_forall. intros t T. rewrite Forall_forall in F. exact (before_trans _ _ _ E (F t T)).
  - cbn. inversion H as [|? ? F A]; subst. constructor; [|exact (IH A)].
    assert (B : before (name m') (name m)).
    { destruct (before_total (name m) (name m')) as [B|B]; [apply text_leb_before in B; congruence|exact B]. }
    apply Forall_forall. intros t T. apply in_map_iff in T as (x & <- & X). apply (Permutation_in _ (insert_perm m l)) in X as [<-|X]; [exact B|].
    rewrite Forall_forall in F. apply F. apply in_map. exact X.
Qed.
Lemma sort_ascending (l : list item) : ascending (map name (sorted l)).
Proof. induction l as [|m l IH]; cbn [fold_right]; [constructor|]. apply insert_ascending, IH. Qed.

Lemma scored_permitted t : Forall permitted t -> scored t = t.
Proof.
  induction 1 as [|c t C _ IH]; [reflexivity|]. unfold scored in *. cbn. rewrite IH. destruct (Ascii.eqb_spec c " "%char) as [->|_]; [|reflexivity].
  exfalso. destruct C as [C|C]; [discriminate|discriminate].
Qed.

(** Loading what was saved of some measurements, after others which have other names *)
Lemma load_saved (l : list item) : forall s : set,
  NoDup (map fst (ms_items _ _ s) ++ map name l) ->
  Forall (fun m => Forall permitted (name m)) l ->
  Forall (fun m => legible sympify as_number sympy_str number_str worth (m_expression _ _ m)) l ->
  exists s', load_items s (map (saved_entry number sympy as_number sympy_str number_str) l) = (s', Ok tt) /\
    exists new, iter _ _ s' = iter _ _ s ++ new /\ Forall2 (same_measurement worth) l new /\
      map fst (ms_items _ _ s') = map fst (ms_items _ _ s) ++ map name l.
Proof.
  induction l as [|m l IH]; intros s ND P R.
  - exists s. split; [reflexivity|]. exists []. cbn. rewrite !app_nil_r. split; [reflexivity|]. split; [constructor|reflexivity].
  - inversion P as [|? ? P0 P']; inversion R as [|? ? R0 R']; subst. cbn [map saved_entry]. cbn [ModelYaml.load_items].
    assert (F : exists v f d, fields number of_int (snd (saved_entry number sympy as_number sympy_str number_str m)) = Ok (v, f, d) /\
              v = saved_expression number sympy as_number sympy_str number_str (m_expression _ _ m) /\
              str_of number other_str f = m_full_name _ _ m /\ str_of number other_str d = m_description _ _ m).
    { unfold saved_entry. cbn [snd]. destruct (m_full_name _ _ m) as [|a f] eqn:Ef; [destruct (m_description _ _ m) as [|b d] eqn:Ed|];
        cbn; eexists _, _, _; (split; [reflexivity|]); auto. }
    destruct F as (v & f & d & F & -> & Hf & Hd). unfold saved_entry in *. cbn [snd fst] in *. rewrite F. cbn [key_str]. rewrite Hf, Hd.
    set (v := as_value number other_str (saved_expression number sympy as_number sympy_str number_str (m_expression _ _ m))).
    assert (V : exists e, expression_of number (expression number sympy) (read_expression number sympy sympify) Python v = Some e /\ worth e = worth (m_expression _ _ m)).
    { unfold v, saved_expression, legible in *. destruct (m_expression _ _ m) as [x|e].
      - destruct R0 as (e' & E & H). exists (Sympy e'). cbn. unfold read_expression. rewrite E. cbn. auto.
      - destruct (as_number e) as [x|].
        + exists (Python x). cbn. auto.
        + destruct R0 as (e' & E & H). exists (Sympy e'). cbn. unfold read_expression. rewrite E. cbn. auto. }
    destruct V as (e & V & We).
    destruct (add_cases number (expression number sympy) (read_expression number sympy sympify) Python float s (name m) v (m_full_name _ _ m) (m_description _ _ m)) as [A|A].
    + destruct A as (_ & N & e' & m' & V' & N' & E' & F' & D' & _ & _ & S & FS).
      rewrite (scored_permitted _ P0) in *.
      destruct (ModelMeasure.add number (expression number sympy) (read_expression number sympy sympify) Python float s (name m) v (m_full_name _ _ m) (m_description _ _ m)) as [s1 r1].
      cbn [fst snd] in *. subst r1 s1.
      match goal with |- context [ModelYaml.load_items _ _ _ _ _ _ ?x _] => set (s1 := x) end.
      assert (I : ms_items _ _ s1 = ms_items _ _ s ++ [(name m, m')]) by (unfold s1; cbn; apply set_new; exact N).
      destruct (IH s1) as (s' & L & new & I' & F2 & K).
      * rewrite I, map_app. cbn. rewrite <- app_assoc. exact ND.
      * exact P'.
      * exact R'.
      * exists s'. split; [exact L|]. exists (m' :: new). unfold iter in *. rewrite I', I, map_app. cbn. rewrite <- app_assoc. split; [reflexivity|].
        split; [|rewrite K, I, map_app, <- app_assoc; reflexivity]. constructor; [|exact F2]. unfold same_measurement. rewrite N', F', D', E'.
        repeat split. congruence.
    + exfalso. rewrite (scored_permitted _ P0) in A. destruct A as [(A & _)|[(_ & A & _)|(_ & _ & A & _)]]; [contradiction|congruence|].
      cbn in ND. apply NoDup_remove_2 in ND. apply ND. apply in_or_app. left. exact A.
Qed.
End Proofs.

Section Round.
Context {number sympy W : Type} (of_int : Z -> number) (other_str : yaml number -> text) (sympify : text -> result sympy)
  (as_number : sympy -> option number) (sympy_str : sympy -> text) (number_str : number -> text) (float : number -> number)
  (worth : expression number sympy -> W)
  (subs : expression number sympy -> list (text * expression number sympy) -> expression number sympy) (evalf : expression number sympy -> result number).
Notation run := (measure_run number (expression number sympy) (read_expression number sympy sympify) Python float subs evalf).

Lemma round_ok h : let s := run h in
  Forall (fun m => legible sympify as_number sympy_str number_str worth (m_expression _ _ m)) (iter _ _ s) ->
  exists s', load_data number of_int other_str sympy sympify float (empty_set _ _) (saved_data number sympy as_number sympy_str number_str s) = (s', Ok tt) /\
    exists l, Permutation l (iter _ _ s) /\ ascending (map (m_name _ _) l) /\ Forall2 (same_measurement worth) l (iter _ _ s').
Proof.
  intros s R. destruct (names_ok _ _ (read_expression number sympy sympify) Python float subs evalf h) as (ND & P). fold s in ND, P.
  destruct (load_saved number sympy W of_int other_str sympify as_number sympy_str number_str float worth (sorted_iter number sympy s) (empty_set _ _))
    as (s' & L & new & I & F & _).
  - cbn. unfold sorted_iter. apply (Permutation_NoDup (l := map (m_name _ _) (iter _ _ s))); [|exact ND]. apply Permutation_map. symmetry. apply sort_perm.
  - apply Forall_forall. intros m M. apply (Permutation_in _ (sort_perm number sympy _)) in M. rewrite Forall_forall in P. apply (P m M).
  - apply Forall_forall. intros m M. apply (Permutation_in _ (sort_perm number sympy _)) in M. rewrite Forall_forall in R. apply (R m M).
  - exists s'. split; [exact L|]. exists (sorted_iter number sympy s). split; [apply sort_perm|]. split; [apply sort_ascending|]. cbn in I. rewrite I. exact F.
Qed.
End Round.

(** ** The table of standard measurements *)
Lemma same_length {A B} (P : A -> B -> Prop) l l' : Forall2 P l l' -> length l = length l'.
Proof. induction 1; cbn; congruence. Qed.
Lemma key_eqb_spec a b : reflect (a = b) (key_eqb a b).
Proof.
  destruct a as [s|m|], b as [t|n|]; cbn; try (constructor; congruence).
  - destruct (text_eqb_spec s t) as [->|N]; constructor; congruence.
  - destruct (Z.eqb_spec m n) as [->|N]; constructor; congruence.
Qed.
Lemma table_none t k : table_find t k = None <-> ~ In k (map fst t).
Proof. induction t as [|[k' m] t IH]; cbn; [tauto|]. destruct (key_eqb_spec k' k) as [->|N]; [split; [discriminate|tauto]|]. rewrite IH. tauto. Qed.
Lemma table_some t k m : NoDup (map fst t) -> (table_find t k = Some m <-> In (k, m) t).
Proof.
  induction t as [|[k' m'] t IH]; cbn; intro ND; [split; [discriminate|tauto]|]. inversion ND as [|? ? N ND']; subst. specialize (IH ND').
  destruct (key_eqb_spec k' k) as [->|D].
  - split; [intro H; injection H as ->; left; reflexivity|]. intros [H|H]; [congruence|]. exfalso. apply N. change k with (fst (k, m)). apply in_map, H.
  - rewrite IH. split; [tauto|]. intros [H|H]; [congruence|exact H].
Qed.
Lemma contains_spec t k : table_contains t k = true <-> In k (map fst t).
Proof.
  unfold table_contains. destruct (table_find t k) eqn:E; split; intro H; try reflexivity; try discriminate.
  - destruct (in_dec (fun a b => match key_eqb_spec a b with ReflectT _ e => left e | ReflectF _ n => right n end) k (map fst t)) as [I|I]; [exact I|].
    apply table_none in I. congruence.
  - apply table_none in E. contradiction.
Qed.
Definition key_of (m : standard) (k : ykey) : Prop := to_key (sd_name m) = Some k.
Definition entry_of (entry : ykey * yvalue) (m : standard) : Prop :=
  fst entry = sd_code m /\ elements Z (fun z => z) (snd entry) = Ok [sd_name m; sd_full_name m; sd_description m; sd_default m].
Lemma new_standard_ok code data m : new_standard code data = Ok m <-> entry_of (code, data) m.
Proof.
  unfold new_standard, entry_of. cbn [fst snd]. destruct (elements Z (fun z => z) data) as [l|e]; cbn [bind]; [|split; [discriminate|intros (_ & H); discriminate]].
  split.
  - destruct l as [|a [|b [|c [|d [|x l]]]]]; intro H; try discriminate. injection H as <-. split; reflexivity.
  - intros (-> & H). injection H as ->. destruct m; reflexivity.
Qed.
Lemma table_add_ok t m t' : table_add t m = Ok t' <-> exists k, key_of m k /\ ~ In k (map fst t) /\ t' = t ++ [(k, m)].
Proof.
  unfold table_add, key_of. destruct (to_key (sd_name m)) as [k|]; [|split; [discriminate|intros (k & H & _); discriminate]].
  destruct (table_contains t k) eqn:E.
  - apply contains_spec in E. split; [discriminate|]. intros (k' & H & N & _). injection H as <-. contradiction.
  - assert (N : ~ In k (map fst t)) by (intro I; apply contains_spec in I; congruence).
    split; [intro H; injection H as <-; eauto|]. intros (k' & H & _ & ->). injection H as <-. reflexivity.
Qed.
(** The keys which are added *)
Definition extends (t t' : table) (l : list standard) : Prop :=
  exists ks, Forall2 key_of l ks /\ (NoDup (map fst t) -> NoDup (map fst t ++ ks)) /\ t' = t ++ combine ks l.
Lemma extends_app t t1 t2 l1 l2 : extends t t1 l1 -> extends t1 t2 l2 -> extends t t2 (l1 ++ l2).
Proof.
  intros (k1 & F1 & N1 & ->) (k2 & F2 & N2 & ->). exists (k1 ++ k2). pose proof (same_length _ _ _ F1) as L1.
  assert (C : combine (k1 ++ k2) (l1 ++ l2) = combine k1 l1 ++ combine k2 l2).
  { clear - L1. revert k1 L1. induction l1 as [|a l1 IH]; intros [|b k1] H; try discriminate; cbn; [reflexivity|]. f_equal. apply IH. injection H as ->. reflexivity. }
  split; [apply Forall2_app; assumption|]. split; [|rewrite C, app_assoc; reflexivity].
  intro N. specialize (N1 N). rewrite map_app in N2.
  assert (M : map fst (combine k1 l1) = k1).
  { clear - L1. revert l1 L1. induction k1 as [|a k1 IH]; intros [|b l1] H; try discriminate; cbn; [reflexivity|]. f_equal. apply IH. injection H as ->. reflexivity. }
  rewrite M in N2. rewrite app_assoc. apply N2, N1.
Qed.
Lemma load_topic_ok l : forall t t', NoDup (map fst t) ->
  load_topic t l = Ok t' <-> exists part, Forall2 entry_of l part /\ extends t t' part.
Proof.
  induction l as [|[code data] l IH]; intros t t' ND; cbn [load_topic].
  - split.
    + intro H. injection H as <-. exists []. split; [constructor|]. exists []. cbn. rewrite !app_nil_r. split; [constructor|]. auto.
    + intros (part & F & ks & F2 & _ & ->). inversion F; subst. inversion F2; subst. cbn. rewrite app_nil_r. reflexivity.
  - destruct (new_standard code data) as [m|e] eqn:E; cbn [bind].
    2:{ split; [discriminate|]. intros (part & F & _). inversion F; subst. apply new_standard_ok in H1. congruence. }
    apply new_standard_ok in E. destruct (table_add t m) as [t1|e] eqn:A; cbn [bind].
    + apply table_add_ok in A as (k & K & N & ->).
      assert (ND1 : NoDup (map fst (t ++ [(k, m)]))).
      { rewrite map_app. cbn. apply (Permutation_NoDup (l := k :: map fst t)); [apply Permutation_cons_append|]. constructor; assumption. }
      assert (X : extends t (t ++ [(k, m)]) [m]).
      { exists [k]. split; [repeat constructor; exact K|]. split; [|reflexivity]. intros _. rewrite map_app in ND1. exact ND1. }
      rewrite (IH _ t' ND1). split.
      * intros (part & F & Y). exists (m :: part). split; [constructor; assumption|]. exact (extends_app _ _ _ [m] part X Y).
      * intros (part & F & Y). inversion F as [|? ? ? part' E' F']; subst. assert (m = y) as <-.
        { apply (proj2 (new_standard_ok _ _ _)) in E. apply (proj2 (new_standard_ok _ _ _)) in E'. congruence. }
        exists part'. split; [exact F'|]. destruct Y as (ks & F2 & N2 & ->). inversion F2 as [|? k' ? ks' K' F2']; subst.
        assert (k' = k) as -> by (unfold key_of in *; congruence). exists ks'. split; [exact F2'|]. split; [|cbn; rewrite <- app_assoc; reflexivity].
        intros _. rewrite map_app, <- app_assoc. apply (N2 ND).
    + split; [discriminate|]. intros (part & F & ks & F2 & N2 & ->). exfalso. inversion F as [|? ? ? part' E' F']; subst. assert (m = y) as <-.
      { apply (proj2 (new_standard_ok _ _ _)) in E. apply (proj2 (new_standard_ok _ _ _)) in E'. congruence. }
      inversion F2 as [|? k ? ks' K F2']; subst. specialize (N2 ND). apply NoDup_remove_2 in N2.
      assert (Q : table_add t m = Ok (t ++ [(k, m)])) by (apply table_add_ok; exists k; split; [exact K|]; split; [|reflexivity]; intro I; apply N2, in_or_app; left; exact I).
      congruence.
Qed.
Definition topic_of (topic : ykey * yvalue) (part : list standard) : Prop :=
  exists entries, item (snd topic) "measurements" = Ok (YMap entries) /\ Forall2 entry_of entries part.
Lemma extends_nodup t t' l : extends t t' l -> NoDup (map fst t) -> NoDup (map fst t').
Proof.
  intros (ks & F & N & ->) ND. rewrite map_app. pose proof (same_length _ _ _ F) as L.
  replace (map fst (combine ks l)) with ks; [exact (N ND)|]. clear - L. revert l L. induction ks as [|a ks IH]; intros [|b l] H; try discriminate; cbn; [reflexivity|]. f_equal. apply IH. injection H as ->. reflexivity.
Qed.
Lemma load_topics_ok l : forall t t', NoDup (map fst t) ->
  load_topics t (map snd l) = Ok t' <-> exists parts, Forall2 topic_of l parts /\ extends t t' (concat parts).
Proof.
  induction l as [|topic l IH]; intros t t' ND; cbn [map load_topics].
  - split.
    + intro H. injection H as <-. exists []. split; [constructor|]. exists []. cbn. rewrite !app_nil_r. split; [constructor|]. auto.
    + intros (parts & F & ks & F2 & _ & ->). inversion F; subst. inversion F2; subst. cbn. rewrite app_nil_r. reflexivity.
  - destruct (item (snd topic) "measurements") as [v|e] eqn:E; cbn [bind].
    2:{ split; [discriminate|]. intros (parts & F & _). inversion F as [|? ? ? ? T]; subst. destruct T as (en & T & _). congruence. }
    destruct v as [|x|x|x|entries]; cbn [items bind];
      try (split; [discriminate|]; intros (parts & F & _); inversion F as [|? ? ? ? T]; subst; destruct T as (en & T & _); congruence).
    destruct (load_topic t entries) as [t1|e] eqn:L; cbn [bind].
    + pose proof L as L'. apply (load_topic_ok entries t t1 ND) in L as (part & F & X). rewrite (IH t1 t' (extends_nodup _ _ _ X ND)). split.
      * intros (parts & F' & Y). exists (part :: parts). split; [constructor; [exists entries; auto|assumption]|]. exact (extends_app _ _ _ _ _ X Y).
      * intros (parts & F' & Y). inversion F' as [|? part2 ? parts' T F2]; subst. destruct T as (en & T & F3). assert (en = entries) as -> by congruence.
        exists parts'. split; [exact F2|]. cbn in Y. destruct Y as (ks & Fk & Nk & ->). apply Forall2_app_inv_l in Fk as (k1 & k2 & Fk1 & Fk2 & ->).
        assert (X2 : extends t (t ++ combine k1 part2) part2).
        { exists k1. split; [exact Fk1|]. split; [|reflexivity]. intro N. specialize (Nk N). rewrite app_assoc in Nk.
          clear - Nk. induction k2 as [|a k2 IH]; [rewrite app_nil_r in Nk; exact Nk|]. apply IH. apply NoDup_remove_1 in Nk. exact Nk. }
        assert (Q : load_topic t entries = Ok (t ++ combine k1 part2)) by (apply (load_topic_ok entries t _ ND); exists part2; auto).
        assert (t1 = t ++ combine k1 part2) as -> by congruence. exists k2. split; [exact Fk2|].
        pose proof (same_length _ _ _ Fk1) as L1.
        assert (C : combine (k1 ++ k2) (part2 ++ concat parts') = combine k1 part2 ++ combine k2 (concat parts')).
        { clear - L1. revert k1 L1. induction part2 as [|a l1 IH]; intros [|b k1] H; try discriminate; cbn; [reflexivity|]. f_equal. apply IH. injection H as ->. reflexivity. }
        split; [|rewrite C, app_assoc; reflexivity]. intros _. specialize (Nk ND). rewrite map_app.
        replace (map fst (combine k1 part2)) with k1; [rewrite <- app_assoc; exact Nk|].
        clear - L1. revert part2 L1. induction k1 as [|a ks IH]; intros [|b l] H; try discriminate; cbn; [reflexivity|]. f_equal. apply IH. injection H as ->. reflexivity.
    + split; [discriminate|]. intros (parts & F' & Y). exfalso. inversion F' as [|? part2 ? parts' T F2]; subst. destruct T as (en & T & F3). assert (en = entries) as -> by congruence.
      cbn in Y. destruct Y as (ks & Fk & Nk & ->). apply Forall2_app_inv_l in Fk as (k1 & k2 & Fk1 & Fk2 & ->).
      assert (X2 : extends t (t ++ combine k1 part2) part2).
      { exists k1. split; [exact Fk1|]. split; [|reflexivity]. intro N. specialize (Nk N). rewrite app_assoc in Nk.
        clear - Nk. induction k2 as [|a k2 IH]; [rewrite app_nil_r in Nk; exact Nk|]. apply IH. apply NoDup_remove_1 in Nk. exact Nk. }
      assert (Q : load_topic t entries = Ok (t ++ combine k1 part2)) by (apply (load_topic_ok entries t _ ND); exists part2; auto).
      congruence.
Qed.
Lemma new_table_ok data t : new_table data = Ok t <->
  exists l ks, describes data l /\ Forall2 key_of l ks /\ NoDup ks /\ t = combine ks l.
Proof.
  unfold new_table, describes. destruct data as [|x|x|x|topics]; cbn [values bind];
    try (split; [discriminate|]; intros (l & ks & (tp & H & _) & _); discriminate).
  rewrite (load_topics_ok topics [] t (NoDup_nil _)). split.
  - intros (parts & F & ks & F2 & N & ->). exists (concat parts), ks. split; [|split; [exact F2|split; [exact (N (NoDup_nil _))|reflexivity]]].
    exists topics. split; [reflexivity|]. exists parts. split; [reflexivity|exact F].
  - intros (l & ks & (tp & E & parts & -> & F) & F2 & N & ->). injection E as <-. exists parts. split; [exact F|]. exists ks. split; [exact F2|]. split; [intros _; exact N|reflexivity].
Qed.
Lemma table_facts data t : new_table data = Ok t ->
  exists l, describes data l /\ table_iter t = l /\ table_len t = length l /\
    (forall m, In m l -> exists k, to_key (sd_name m) = Some k /\ table_get t k = Ok m /\ table_contains t k = true) /\
    (forall k m, table_get t k = Ok m -> In m l /\ to_key (sd_name m) = Some k) /\
    (forall k, table_contains t k = false -> table_get t k = Raise KeyError).
Proof.
  intro H. apply new_table_ok in H as (l & ks & D & F & N & ->). exists l. split; [exact D|]. pose proof (same_length _ _ _ F) as L.
  assert (K : map fst (combine ks l) = ks).
  { clear - L. revert l L. induction ks as [|a ks IH]; intros [|b l] H; try discriminate; cbn; [reflexivity|]. f_equal. apply IH. injection H as ->. reflexivity. }
  assert (I : map snd (combine ks l) = l).
  { clear - L. revert ks L. induction l as [|a l IH]; intros [|b ks] H; try discriminate; cbn; [reflexivity|]. f_equal. apply IH. injection H as ->. reflexivity. }
  assert (ND : NoDup (map fst (combine ks l))) by (rewrite K; exact N).
  assert (P : forall k m, In (k, m) (combine ks l) -> In m l /\ to_key (sd_name m) = Some k).
  { clear - F. induction F as [|m k l ks E F IH]; cbn; [tauto|]. intros k' m' [H|H]; [injection H as <- <-; auto|]. destruct (IH k' m' H); auto. }
  split; [exact I|]. split; [unfold table_len; rewrite combine_length; lia|]. split.
  - intros m M. rewrite <- I in M. apply in_map_iff in M as ([k m'] & E & M). cbn in E. subst m'. exists k. destruct (P k m M) as (_ & E).
    split; [exact E|]. apply (table_some _ _ _ ND) in M. unfold table_get, table_contains. rewrite M. auto.
  - split.
    + intros k m G. unfold table_get in G. destruct (table_find (combine ks l) k) eqn:E; [|discriminate]. injection G as ->. apply P, (table_some _ _ _ ND), E.
    + intros k C. unfold table_get, table_contains in *. destruct (table_find (combine ks l) k); [discriminate|reflexivity].
Qed.
Lemma table_accepts data l ks : describes data l -> Forall2 key_of l ks -> NoDup ks -> is_ok (new_table data).
Proof. intros D F N. exists (combine ks l). apply new_table_ok. exists l, ks. auto. Qed.
