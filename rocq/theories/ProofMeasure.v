From Coq Require Import String Ascii List Bool Arith Lia.
From Verif Require Import Base ModelFormula ModelMeasure SpecMeasure.
Import ListNotations.

Lemma replace_spaces s : replace (lit " ") (lit "_") s = scored s.
Proof.
  unfold replace. induction s as [|c s IH]; [reflexivity|]. cbn [replacing scored map].
  change (starts (lit " ") (c :: s)) with (Ascii.eqb " "%char c && true)%bool.
  change (length (lit " ") - 1) with 0. rewrite IH. destruct (Ascii.eqb_spec " "%char c) as [<-|N]; cbn [andb].
  - reflexivity.
  - destruct (Ascii.eqb_spec c " "%char); [congruence|reflexivity].
Qed.
Lemma permitted_spec c : (is_alnum c || Ascii.eqb c "_"%char)%bool = true <-> permitted c.
Proof. unfold permitted. rewrite orb_true_iff. destruct (Ascii.eqb_spec c "_"%char); intuition congruence. Qed.
Lemma validate_ok n : Forall permitted (scored n) -> validate_name n = Ok (scored n).
Proof.
  intro H. unfold validate_name. rewrite replace_spaces. replace (forallb _ (scored n)) with true; [reflexivity|].
  symmetry. apply forallb_forall. intros c C. apply permitted_spec. rewrite Forall_forall in H. exact (H c C).
Qed.
Lemma validate_inv n r : validate_name n = Ok r -> r = scored n /\ Forall permitted (scored n).
Proof.
  unfold validate_name. rewrite replace_spaces. destruct (forallb _ (scored n)) eqn:E; [|discriminate]. intro H. injection H as <-.
  split; [reflexivity|]. rewrite forallb_forall in E. apply Forall_forall. intros c C. apply permitted_spec, E, C.
Qed.
Lemma validate_bad n : ~ Forall permitted (scored n) -> validate_name n = Raise ValueError.
Proof.
  intro H. destruct (validate_name n) as [r|e] eqn:E; [destruct H; apply (validate_inv n r E)|].
  unfold validate_name in E. destruct (forallb _ _); [discriminate|exact (eq_sym E)].
Qed.
Lemma text_eqb_spec a b : reflect (a = b) (text_eqb a b).
Proof.
  revert b. induction a as [|x a IH]; intros [|y b]; cbn; try (constructor; congruence).
  destruct (Ascii.eqb_spec x y) as [->|N]; cbn; [|constructor; congruence]. destruct (IH b) as [->|N]; constructor; congruence.
Qed.

Section Dict.
Context {A : Type}.
Lemma lookup_none (l : list (text * A)) n : lookup l n = None <-> ~ In n (map fst l).
Proof.
  induction l as [|[m x] l IH]; cbn; [tauto|]. destruct (text_eqb_spec m n) as [->|N]; [split; [discriminate|tauto]|]. rewrite IH. tauto.
Qed.
Lemma lookup_in (l : list (text * A)) n x : lookup l n = Some x -> In (n, x) l.
Proof.
  induction l as [|[m y] l IH]; cbn; [discriminate|]. destruct (text_eqb_spec m n) as [->|N]; intro H; [injection H as ->; left; reflexivity|right; exact (IH H)].
Qed.
Lemma set_new (l : list (text * A)) n x : ~ In n (map fst l) -> set_item l n x = l ++ [(n, x)].
Proof.
  induction l as [|[m y] l IH]; cbn; [reflexivity|]. intro N. destruct (text_eqb_spec m n) as [->|_]; [tauto|]. rewrite IH by tauto. reflexivity.
Qed.
Lemma lookup_app (l l' : list (text * A)) n : lookup (l ++ l') n = match lookup l n with Some x => Some x | None => lookup l' n end.
Proof. induction l as [|[m y] l IH]; cbn; [reflexivity|]. destruct (text_eqb m n); [reflexivity|exact IH]. Qed.
Lemma lookup_set (l : list (text * A)) n x m : lookup (set_item l n x) m = if text_eqb n m then Some x else lookup l m.
Proof.
  induction l as [|[k y] l IH]; cbn; [reflexivity|]. destruct (text_eqb_spec k n) as [->|N]; cbn.
  - destruct (text_eqb_spec n m); reflexivity.
  - rewrite IH. destruct (text_eqb_spec k m) as [->|_]; [|reflexivity]. destruct (text_eqb_spec n m); [congruence|reflexivity].
Qed.
Lemma set_fst (l : list (text * A)) n x : In n (map fst l) -> map fst (set_item l n x) = map fst l.
Proof.
  induction l as [|[k y] l IH]; cbn; [tauto|]. destruct (text_eqb_spec k n) as [->|N]; [reflexivity|]. intros [E|H]; [contradiction|]. cbn. rewrite (IH H). reflexivity.
Qed.
Lemma set_map {B} (f : text * A -> B) (l : list (text * A)) n x y : lookup l n = Some y -> f (n, y) = f (n, x) -> map f (set_item l n x) = map f l.
Proof.
  induction l as [|[k z] l IH]; cbn; [discriminate|]. destruct (text_eqb_spec k n) as [->|N]; intros H E.
  - injection H as ->. cbn. rewrite E. reflexivity.
  - cbn. rewrite (IH H E). reflexivity.
Qed.
End Dict.

Section Proofs.
Variable number expression : Type.
Variable sympify : text -> result expression.
Variable of_number : number -> expression.
Variable float : number -> number.
Variable subs : expression -> list (text * expression) -> expression.
Variable evalf : expression -> result number.
Notation set := (measurements number expression).
Notation run := (measure_run number expression sympify of_number float subs evalf).
Notation step := (measure_step number expression sympify of_number float subs evalf).
Notation add := (add number expression sympify of_number float).
Notation read := (read_value number expression subs evalf).
Notation expr_of := (expression_of number expression sympify of_number).
Notation item := (measurement number expression).
Definition named (p : text * item) : text * expression := (fst p, m_expression _ _ (snd p)).

(** What is true of a set which was made by additions and readings *)
Record well (s : set) : Prop := {
  w_nodup : NoDup (map fst (ms_items _ _ s));
  w_names : forall n m, In (n, m) (ms_items _ _ s) -> m_name _ _ m = n /\ Forall permitted n;
  w_expressions : map named (ms_items _ _ s) = ms_expressions _ _ s }.

Lemma add_cases s n v f d :
  (Forall permitted (scored n) /\ ~ In (scored n) (map fst (ms_items _ _ s)) /\
   exists e m, expr_of v = Some e /\ m_name _ _ m = scored n /\ m_expression _ _ m = e /\ m_full_name _ _ m = f /\ m_description _ _ m = d /\
     (forall x, v = Number _ x -> m_value _ _ m = Some (float x)) /\ (forall t, v = Text _ t -> m_value _ _ m = None /\ m_evaluated _ _ m = None) /\
     snd (add s n v f d) = Ok m /\
     fst (add s n v f d) = {| ms_items := set_item (ms_items _ _ s) (scored n) m; ms_expressions := set_item (ms_expressions _ _ s) (scored n) e |}) \/
  ((~ Forall permitted (scored n) /\ add s n v f d = (s, Raise ValueError)) \/
   (Forall permitted (scored n) /\ expr_of v = None /\ (exists t e, v = Text _ t /\ sympify t = Raise e /\ add s n v f d = (s, Raise e))) \/
   (Forall permitted (scored n) /\ expr_of v <> None /\ In (scored n) (map fst (ms_items _ _ s)) /\ add s n v f d = (s, Raise NameError))).
Proof.
  assert (D : Forall permitted (scored n) \/ ~ Forall permitted (scored n)).
  { destruct (validate_name n) as [r|e] eqn:E; [left; apply (validate_inv n r E)|right]. intro H. rewrite (validate_ok n H) in E. discriminate. }
  destruct D as [D|D]; [|right; left; split; [exact D|]; unfold ModelMeasure.add, new_measurement; rewrite (validate_bad n D); reflexivity].
  unfold ModelMeasure.add, new_measurement. rewrite (validate_ok n D). cbn [bind].
  assert (L : lookup (ms_items _ _ s) (scored n) = None \/ In (scored n) (map fst (ms_items _ _ s))).
  { destruct (lookup (ms_items _ _ s) (scored n)) as [m|] eqn:E; [right; apply lookup_in in E; apply in_map_iff; exists (scored n, m); auto|left; reflexivity]. }
  destruct v as [x|t]; cbn [expression_of].
  - destruct L as [L|L].
    + left. split; [exact D|]. split; [apply lookup_none, L|]. cbn. rewrite L. exists (of_number x).
      exists {| m_name := scored n; m_expression := of_number x; m_evaluated := Some (of_number x); m_value := Some (float x); m_full_name := f; m_description := d |}. split; [reflexivity|].
      cbn. do 4 (split; [reflexivity|]). split; [intros ? Q; injection Q as <-; reflexivity|]. split; [discriminate|]. split; reflexivity.
    + right. right. right. split; [exact D|]. split; [discriminate|]. split; [exact L|]. cbn.
      destruct (lookup (ms_items _ _ s) (scored n)) eqn:E; [reflexivity|]. apply lookup_none in E. contradiction.
  - destruct (sympify t) as [e|e] eqn:Et; cbn [bind].
    + destruct L as [L|L].
      * left. split; [exact D|]. split; [apply lookup_none, L|]. cbn. rewrite L. exists e.
        exists {| m_name := scored n; m_expression := e; m_evaluated := None; m_value := None; m_full_name := f; m_description := d |}. split; [reflexivity|].
        cbn. do 4 (split; [reflexivity|]). split; [discriminate|]. split; [intros; split; reflexivity|]. split; reflexivity.
      * right. right. right. split; [exact D|]. split; [discriminate|]. split; [exact L|]. cbn.
        destruct (lookup (ms_items _ _ s) (scored n)) eqn:E; [reflexivity|]. apply lookup_none in E. contradiction.
    + right. right. left. split; [exact D|]. split; [reflexivity|]. exists t, e. auto.
Qed.
Lemma value_of_same s m : let m' := fst (value_of number expression subs evalf s m) in
  m_name _ _ m' = m_name _ _ m /\ m_expression _ _ m' = m_expression _ _ m /\ m_full_name _ _ m' = m_full_name _ _ m /\ m_description _ _ m' = m_description _ _ m.
Proof.
  unfold value_of, evaluated. destruct (m_value _ _ m); [repeat split|]. destruct (m_evaluated _ _ m) as [e|].
  - destruct (evalf e); repeat split.
  - destruct (evalf (subs (m_expression _ _ m) (ms_expressions _ _ s))); repeat split.
Qed.
Lemma read_cases s n :
  (~ In n (map fst (ms_items _ _ s)) /\ read s n = (s, Raise KeyError)) \/
  (exists m m', lookup (ms_items _ _ s) n = Some m /\ m' = fst (value_of number expression subs evalf s m) /\
     fst (read s n) = {| ms_items := set_item (ms_items _ _ s) n m'; ms_expressions := ms_expressions _ _ s |} /\
     snd (read s n) = snd (value_of number expression subs evalf s m)).
Proof.
  unfold read_value. destruct (lookup (ms_items _ _ s) n) as [m|] eqn:E.
  - right. exists m, (fst (value_of number expression subs evalf s m)). split; [reflexivity|]. split; [reflexivity|].
    destruct (value_of number expression subs evalf s m). split; reflexivity.
  - left. apply lookup_none in E. split; [exact E|reflexivity].
Qed.
Lemma expressions_fst s : well s -> map fst (ms_expressions _ _ s) = map fst (ms_items _ _ s).
Proof. intro W. rewrite <- (w_expressions s W), map_map. apply map_ext. intro p. reflexivity. Qed.
Lemma well_step s o : well s -> well (step s o).
Proof.
  intro W. destruct o as [n v f d|n]; cbn [measure_step].
  - destruct (add_cases s n v f d) as [(P & N & e & m & Ev & Mn & Me & _ & _ & _ & _ & _ & ->)|[[_ ->]|[(_ & _ & t & e & _ & _ & ->)|(_ & _ & _ & ->)]]]; try exact W.
    constructor; cbn [ms_items ms_expressions].
    + rewrite set_new by exact N. rewrite map_app. cbn. apply (NoDup_Add (a := scored n) (l := map fst (ms_items _ _ s))).
      * rewrite <- (app_nil_r (map fst (ms_items _ _ s))) at 1. apply Add_app.
      * split; [apply W|exact N].
    + rewrite set_new by exact N. intros k x H. apply in_app_or in H. destruct H as [H|[H|[]]]; [exact (w_names s W k x H)|].
      injection H as <- <-. split; [exact Mn|exact P].
    + rewrite !set_new; [|rewrite (expressions_fst s W); exact N|exact N]. rewrite map_app, (w_expressions s W). cbn. unfold named. cbn. rewrite Me. reflexivity.
  - destruct (read_cases s n) as [[_ ->]|(m & m' & L & Em & -> & _)]; [exact W|].
    destruct (value_of_same s m) as (Q1 & Q2 & _). rewrite <- Em in Q1, Q2.
    assert (In0 : In n (map fst (ms_items _ _ s))) by (apply lookup_in in L; apply in_map_iff; exists (n, m); auto).
    constructor; cbn [ms_items ms_expressions].
    + rewrite (set_fst _ n m' In0). apply W.
    + intros k x H. destruct (In_nth _ _ (k, x) H) as (i & Hi & Hx).
      assert (Key : In k (map fst (ms_items _ _ s))). { rewrite <- (set_fst _ n m' In0). apply in_map_iff. exists (k, x). auto. }
      assert (Pk : Forall permitted k). { apply in_map_iff in Key. destruct Key as ([k' y] & <- & Y). apply (w_names s W k' y Y). }
      split; [|exact Pk].
      assert (Q : map (fun p => (fst p, m_name _ _ (snd p))) (set_item (ms_items _ _ s) n m') = map (fun p => (fst p, m_name _ _ (snd p))) (ms_items _ _ s)).
      { apply (set_map _ _ n m' m L). cbn. rewrite Q1. reflexivity. }
      assert (H2 : In (k, m_name _ _ x) (map (fun p => (fst p, m_name _ _ (snd p))) (ms_items _ _ s))).
      { rewrite <- Q. apply in_map_iff. exists (k, x). auto. }
      apply in_map_iff in H2. destruct H2 as ([k' y] & E & Y). cbn in E. injection E as <- <-. apply (w_names s W k' y Y).
    + rewrite (set_map named _ n m' m L); [apply W|]. unfold named. cbn. rewrite Q2. reflexivity.
Qed.
Lemma run_ind h s : well s -> well (fold_left step h s).
Proof. revert s. induction h as [|o h IH]; intros s W; [exact W|]. cbn. apply IH, well_step, W. Qed.
Lemma well_empty : well (empty_set number expression).
Proof. constructor; cbn; [constructor|intros n m []|reflexivity]. Qed.
Lemma well_run h : well (run h).
Proof. apply run_ind, well_empty. Qed.

Lemma names_ok h : let s := run h in NoDup (map (m_name _ _) (iter _ _ s)) /\
  Forall (fun m => Forall permitted (m_name _ _ m) /\ get_item _ _ s (m_name _ _ m) = Ok m) (iter _ _ s).
Proof.
  intro s. pose proof (well_run h) as W. fold s in W. assert (E : map (m_name _ _) (iter _ _ s) = map fst (ms_items _ _ s)).
  { unfold iter. rewrite map_map. apply map_ext_in. intros [n m] H. apply (w_names s W n m H). }
  split; [rewrite E; apply W|]. apply Forall_forall. intros m H. unfold iter in H. apply in_map_iff in H. destruct H as ([n m'] & Hm & H). cbn in Hm. subst m'.
  destruct (w_names s W n m H) as [N P]. rewrite N. split; [exact P|]. unfold get_item.
  assert (L : lookup (ms_items _ _ s) n = Some m); [|rewrite L; reflexivity].
  pose proof (w_nodup s W) as ND. clear -H ND. induction (ms_items _ _ s) as [|[k x] l IH]; [destruct H|]. cbn. inversion ND as [|? ? N1 N2]; subst.
  destruct H as [H|H].
  - injection H as -> ->. destruct (text_eqb_spec n n); [reflexivity|congruence].
  - destruct (text_eqb_spec k n) as [->|_]; [destruct N1; apply in_map_iff; exists (n, m); auto|exact (IH H N2)].
Qed.
Lemma rejected_ok h n v f d : let s := run h in forall e, snd (add s n v f d) = Raise e ->
  fst (add s n v f d) = s /\
  (~ Forall permitted (scored n) /\ e = ValueError \/
   (exists t, v = Text _ t /\ sympify t = Raise e) \/
   In (scored n) (map (m_name _ _) (iter _ _ s)) /\ e = NameError).
Proof.
  intros s e H. pose proof (well_run h) as W. fold s in W.
  destruct (add_cases s n v f d) as [(_ & _ & e' & m & _ & _ & _ & _ & _ & _ & _ & K & _)|[[P Q]|[(_ & _ & t & e' & -> & Et & Q)|(_ & _ & I0 & Q)]]].
  - rewrite K in H. discriminate.
  - rewrite Q in *. cbn in *. injection H as <-. split; [reflexivity|left; auto].
  - rewrite Q in *. cbn in *. injection H as <-. split; [reflexivity|]. right. left. exists t. auto.
  - rewrite Q in *. cbn in *. injection H as <-. split; [reflexivity|]. right. right. split; [|reflexivity].
    unfold iter. rewrite map_map. rewrite (map_ext_in _ fst); [exact I0|]. intros [k x] X. apply (w_names s W k x X).
Qed.
Lemma added_ok h n v f d m : let s := run h in snd (add s n v f d) = Ok m ->
  m_name _ _ m = scored n /\ expr_of v = Some (m_expression _ _ m) /\ m_full_name _ _ m = f /\ m_description _ _ m = d /\
  get_item _ _ (fst (add s n v f d)) (scored n) = Ok m /\ get_item _ _ s (scored n) = Raise KeyError /\
  (forall k, k <> scored n -> get_item _ _ (fst (add s n v f d)) k = get_item _ _ s k) /\
  iter _ _ (fst (add s n v f d)) = iter _ _ s ++ [m].
Proof.
  intros s H. destruct (add_cases s n v f d) as [(P & N & e & m' & Ev & Mn & Me & Mf & Md & _ & _ & K & F)|[[P Q]|[(_ & _ & t & e' & -> & Et & Q)|(_ & _ & I0 & Q)]]];
    try (rewrite Q in H; discriminate). rewrite K in H. injection H as <-. rewrite F, Me. do 4 (split; [assumption|]). split; [|split; [|split]].
  - unfold get_item. cbn. rewrite lookup_set. destruct (text_eqb_spec (scored n) (scored n)); [reflexivity|congruence].
  - unfold get_item. rewrite (proj2 (lookup_none _ _) N). reflexivity.
  - intros k Nk. unfold get_item. cbn. rewrite lookup_set. destruct (text_eqb_spec (scored n) k); [congruence|reflexivity].
  - unfold iter. cbn. rewrite (set_new _ _ _ N), map_app. reflexivity.
Qed.
(** A registered measurement keeps its expression. *)
Lemma kept_ok h h' n m : get_item _ _ (run h) n = Ok m ->
  exists m', get_item _ _ (run (h ++ h')) n = Ok m' /\ m_name _ _ m' = n /\ m_expression _ _ m' = m_expression _ _ m /\
    m_full_name _ _ m' = m_full_name _ _ m /\ m_description _ _ m' = m_description _ _ m.
Proof.
  unfold measure_run. rewrite fold_left_app.
  assert (Q : forall s, well s -> get_item _ _ s n = Ok m -> exists m', get_item _ _ (fold_left step h' s) n = Ok m' /\ m_name _ _ m' = n /\
    m_expression _ _ m' = m_expression _ _ m /\ m_full_name _ _ m' = m_full_name _ _ m /\ m_description _ _ m' = m_description _ _ m).
  { revert m. induction h' as [|o h' IH]; intros m s W G.
    - exists m. split; [exact G|]. unfold get_item in G. destruct (lookup (ms_items _ _ s) n) as [x|] eqn:L; [|discriminate]. injection G as ->.
      apply lookup_in in L. split; [apply (w_names s W n m L)|auto].
    - cbn [fold_left]. unfold get_item in G. destruct (lookup (ms_items _ _ s) n) as [x|] eqn:L; [|discriminate]. injection G as ->.
      assert (S1 : exists m1, get_item _ _ (step s o) n = Ok m1 /\ m_expression _ _ m1 = m_expression _ _ m /\ m_full_name _ _ m1 = m_full_name _ _ m /\ m_description _ _ m1 = m_description _ _ m).
      { destruct o as [k v f d|k]; cbn [measure_step].
        - destruct (add_cases s k v f d) as [(P & N & e & m' & _ & _ & _ & _ & _ & _ & _ & _ & ->)|[[_ ->]|[(_ & _ & t & e & _ & _ & ->)|(_ & _ & _ & ->)]]];
            try (exists m; unfold get_item; cbn; rewrite L; auto; fail).
          exists m. unfold get_item. cbn. rewrite lookup_set. destruct (text_eqb_spec (scored k) n) as [E|_]; [|rewrite L; auto].
          exfalso. apply N. rewrite E. apply lookup_in in L. apply in_map_iff. exists (n, m). auto.
        - destruct (read_cases s k) as [[_ ->]|(y & y' & Ly & Ey & -> & _)]; [exists m; unfold get_item; cbn; rewrite L; auto|].
          unfold get_item. cbn. rewrite lookup_set. destruct (text_eqb_spec k n) as [->|_]; [|exists m; rewrite L; auto].
          rewrite Ly in L. injection L as ->. exists y'. split; [reflexivity|]. rewrite Ey. destruct (value_of_same s m) as (_ & Q2 & Q3 & Q4). auto. }
      destruct S1 as (m1 & G1 & E1 & E2 & E3). destruct (IH m1 (step s o) (well_step s o W) G1) as (m' & G' & N' & F1 & F2 & F3).
      exists m'. split; [exact G'|]. split; [exact N'|]. split; [congruence|]. split; congruence. }
  apply Q, run_ind, well_empty.
Qed.
(** The set is the list of the accepted additions. *)
Lemma accepted_ok h out : accepted number expression sympify of_number [] h out ->
  map (fun m => (m_name _ _ m, m_expression _ _ m)) (iter _ _ (run h)) = out.
Proof.
  unfold measure_run. assert (Q : forall used s, well s -> map named (ms_items _ _ s) = used -> accepted number expression sympify of_number used h out ->
    map named (ms_items _ _ (fold_left step h s)) = out).
  { induction h as [|o h IH]; intros used s W E H.
    - inversion H; subst. reflexivity.
    - cbn [fold_left]. pose proof (well_step s o W) as W'.
      assert (Keys : map fst used = map fst (ms_items _ _ s)). { rewrite <- E, map_map. apply map_ext. intros [? ?]. reflexivity. }
      inversion H as [|u n v f d h0 e out0 P N Ev H1|u n v f d h0 out0 R H1|u n h0 out0 H1]; subst; cbn [measure_step] in *.
      + apply (IH _ _ W') in H1; [exact H1|].
        destruct (add_cases s n v f d) as [(_ & N' & e' & m & Ev' & Mn & Me & _ & _ & _ & _ & _ & ->)|[[P' _]|[(_ & Ev' & _)|(_ & _ & I0 & _)]]].
        * cbn. rewrite (set_new _ _ _ N'), map_app. cbn. unfold named at 2. cbn. rewrite Me. congruence.
        * contradiction.
        * congruence.
        * rewrite Keys in N. contradiction.
      + apply (IH _ _ W') in H1; [exact H1|].
        destruct (add_cases s n v f d) as [(P & N' & e' & m & Ev' & _)|[[_ ->]|[(_ & _ & t & e & _ & _ & ->)|(_ & _ & _ & ->)]]]; try reflexivity.
        exfalso. rewrite Keys in R. destruct R as [R|[R|R]]; [contradiction|contradiction|congruence].
      + apply (IH _ _ W') in H1; [exact H1|].
        destruct (read_cases s n) as [[_ ->]|(m & m' & L & Em & -> & _)]; [reflexivity|]. cbn.
        apply (set_map named _ n m' m L). unfold named. cbn. rewrite Em. f_equal. symmetry. apply (value_of_same s m). }
  intro H. specialize (Q [] _ well_empty eq_refl H). rewrite <- Q. unfold iter. rewrite map_map. apply map_ext_in. intros [n m] X.
  unfold named. cbn. f_equal. apply (w_names _ (run_ind h _ well_empty) n m X).
Qed.
Lemma accepted_total h : forall used, exists out, accepted number expression sympify of_number used h out.
Proof.
  induction h as [|o h IH]; intro used; [exists used; constructor|]. destruct o as [n v f d|n].
  - assert (D : Forall permitted (scored n) \/ ~ Forall permitted (scored n)).
    { destruct (validate_name n) as [r|e] eqn:E; [left; apply (validate_inv n r E)|right]. intro H. rewrite (validate_ok n H) in E. discriminate. }
    destruct D as [D|D]; [|destruct (IH used) as (out & O); exists out; apply acc_reject; auto].
    assert (D2 : In (scored n) (map fst used) \/ ~ In (scored n) (map fst used)).
    { destruct (in_dec (list_eq_dec ascii_dec) (scored n) (map fst used)); auto. }
    destruct D2 as [D2|D2]; [destruct (IH used) as (out & O); exists out; apply acc_reject; auto|].
    destruct (expr_of v) as [e|] eqn:Ev; [|destruct (IH used) as (out & O); exists out; apply acc_reject; auto].
    destruct (IH (used ++ [(scored n, e)])) as (out & O). exists out. apply (acc_add _ _ _ _ used n v f d h e out); assumption.
  - destruct (IH used) as (out & O). exists out. constructor. exact O.
Qed.

(** ** Values *)
Lemma value_fresh h n m : only_adds h -> get_item _ _ (run h) n = Ok m -> (m_value _ _ m = None) -> 
  snd (read (run h) n) = evalf (subs (m_expression _ _ m) (map (fun m => (m_name _ _ m, m_expression _ _ m)) (iter _ _ (run h)))).
Proof.
  intros A G V. pose proof (well_run h) as W.
  assert (Ex : map (fun m => (m_name _ _ m, m_expression _ _ m)) (iter _ _ (run h)) = ms_expressions _ _ (run h)).
  { rewrite <- (w_expressions _ W). unfold iter. rewrite map_map. apply map_ext_in. intros [k x] X. unfold named. cbn. f_equal. apply (w_names _ W k x X). }
  rewrite Ex. unfold get_item in G. destruct (lookup (ms_items _ _ (run h)) n) as [x|] eqn:L; [|discriminate]. injection G as ->.
  unfold read_value. rewrite L. unfold value_of, evaluated. rewrite V.
  assert (U : m_evaluated _ _ m = None).
  { clear Ex W. unfold measure_run in L. assert (Q : forall s, (forall k y, In (k, y) (ms_items _ _ s) -> m_value _ _ y = None -> m_evaluated _ _ y = None) ->
      forall k y, In (k, y) (ms_items _ _ (fold_left step h s)) -> m_value _ _ y = None -> m_evaluated _ _ y = None).
    { clear L. induction A as [|o h Ho A IH]; intros s K; [exact K|]. cbn [fold_left]. apply IH. destruct o as [k v f d|k]; [|contradiction]. cbn [measure_step].
      destruct (add_cases s k v f d) as [(P & N & e' & m' & _ & _ & _ & _ & _ & V1 & V2 & _ & ->)|[[_ ->]|[(_ & _ & t' & e' & _ & _ & ->)|(_ & _ & _ & ->)]]]; try exact K.
      cbn. rewrite (set_new _ _ _ N). intros k' y Y. apply in_app_or in Y. destruct Y as [Y|[Y|[]]]; [exact (K k' y Y)|]. injection Y as _ <-.
      intro Z. destruct v as [x|u]; [rewrite (V1 x eq_refl) in Z; discriminate|apply (V2 u eq_refl)]. }
    apply (Q (empty_set number expression)) with (k := n); [intros k y []|apply lookup_in, L|exact V]. }
  rewrite U. destruct (evalf (subs (m_expression _ _ m) (ms_expressions _ _ (run h)))) eqn:E; cbn; reflexivity.
Qed.
Lemma value_stable h n x : snd (read (run h) n) = Ok x -> forall h', snd (read (run (h ++ OpValue _ n :: h')) n) = Ok x.
Proof.
  intros H h'. unfold measure_run in *. rewrite fold_left_app. cbn [fold_left measure_step].
  set (s := fold_left step h (empty_set number expression)) in *.
  assert (W : well s) by apply run_ind, well_empty.
  assert (S1 : exists m, lookup (ms_items _ _ (fst (read s n))) n = Some m /\ m_value _ _ m = Some x).
  { destruct (read_cases s n) as [[_ Q]|(m & m' & L & Em & Q1 & Q2)]; [rewrite Q in H; discriminate|]. rewrite Q1. cbn.
    exists m'. rewrite lookup_set. destruct (text_eqb_spec n n); [|congruence]. split; [reflexivity|]. rewrite Em. rewrite Q2 in H. clear -H.
    unfold value_of in *. destruct (m_value _ _ m) as [y|] eqn:V; [injection H as <-; exact V|].
    destruct (evaluated number expression subs s m) as [m1 e]. destruct (evalf e) as [y|e']; [|discriminate]. injection H as ->. reflexivity. }
  pose proof (well_step s (OpValue _ n) W) as W1. cbn [measure_step] in W1. revert S1 W1. generalize (fst (read s n)). clear H W. clearbody s. clear s.
  induction h' as [|o h' IH]; intros s (m & L & V) W.
  - cbn. unfold read_value. rewrite L. unfold value_of. rewrite V. reflexivity.
  - cbn [fold_left]. apply IH; [|apply well_step, W]. destruct o as [k v f d|k]; cbn [measure_step].
    + destruct (add_cases s k v f d) as [(P & N & e' & m' & _ & _ & _ & _ & _ & _ & _ & _ & ->)|[[_ ->]|[(_ & _ & t' & e' & _ & _ & ->)|(_ & _ & _ & ->)]]]; try (exists m; auto; fail).
      cbn. exists m. rewrite lookup_set. destruct (text_eqb_spec (scored k) n) as [E|_]; [|auto].
      exfalso. apply N. rewrite E. apply lookup_in in L. apply in_map_iff. exists (n, m). auto.
    + destruct (read_cases s k) as [[_ ->]|(y & y' & Ly & Ey & -> & _)]; [exists m; auto|]. cbn. rewrite lookup_set.
      destruct (text_eqb_spec k n) as [->|_]; [|exists m; auto]. exists y'. split; [reflexivity|]. rewrite Ly in L. injection L as ->. rewrite Ey. unfold value_of. rewrite V. exact V.
Qed.
End Proofs.
