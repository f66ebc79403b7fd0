From Coq Require Import String Ascii List Bool Arith ZArith Lia.
From Verif Require Import Base ModelFormula ModelMeasure ModelDate ModelVit SpecMeasure SpecDate SpecVit ProofMeasure ProofDate2 ProofDate3 ProofTex.
From Verif Require ModelValFile ProofValFile.
Import ModelValFile(xml, Node, children, body, attributes, tag_is, first_element, elements, iterate).
Import ListNotations.
Local Open Scope result_scope.

Lemma translated_ok s : replace_custom_prefix s = translated s.
Proof. exact (replace_one "@"%char (lit "C_") s). Qed.
Lemma translated_app s t : translated (s ++ t) = translated s ++ translated t.
Proof. unfold translated. apply flat_map_app. Qed.
Lemma translated_none s : ~ In "@"%char (translated s).
Proof.
  unfold translated. intros H. apply in_flat_map in H. destruct H as (c & _ & H). destruct (Ascii.eqb_spec c "@"); [destruct H as [H|[H|[]]]; discriminate H|].
  destruct H as [H|[]]. contradiction.
Qed.
Lemma scored_in c s : In c (scored s) -> In c s \/ c = "_"%char.
Proof. unfold scored. intros H. apply in_map_iff in H. destruct H as (x & <- & I). destruct (Ascii.eqb x " "); auto. Qed.
Lemma spelled_none s : ~ In "@"%char (spelled s).
Proof. intros H. apply scored_in in H. destruct H as [H|H]; [exact (translated_none s H)|discriminate H]. Qed.
Lemma custom_not_spelled n s : custom n -> n <> spelled s.
Proof. intros (t & ->) E. apply (spelled_none s). rewrite <- E. now left. Qed.
Definition is_custom (n : text) : bool := starts (lit "@") n.
Lemma is_custom_spec n : is_custom n = true <-> custom n.
Proof.
  unfold is_custom, custom. destruct n as [|c n]; [split; [discriminate|intros (t & E); discriminate E]|].
  change (starts (lit "@") (c :: n)) with (Ascii.eqb "@"%char c && true). rewrite andb_true_r, Ascii.eqb_eq. split; [intros <-; now exists n|intros (t & E); now injection E].
Qed.

Section Set_.
Variable number expression : Type.
Variable sympify : text -> result expression.
Variable of_number : number -> expression.
Variable float : number -> number.
Notation vset := (vset number expression).
Notation add_entry := (add_entry number expression sympify of_number float).
Notation add_entries := (add_entries number expression sympify of_number float).
Notation holds_entry := (holds_entry number expression sympify).
Notation made_of := (made_of number expression sympify).

(** What an addition does *)
Definition names_of (e : entry) (i : nat) : list (text * nat) := (spelled (e_name e), i) :: (if is_custom (e_name e) then [(e_name e, i)] else []).
Definition extended (s : vset) (e : entry) (m : measurement number expression) : vset :=
  VSet _ _ (v_objects _ _ s ++ [m]) (v_names _ _ s ++ names_of e (length (v_objects _ _ s))) (v_expressions _ _ s ++ [(m_name _ _ m, m_expression _ _ m)]).
Definition closed (s : vset) : Prop :=
  (forall n, custom n -> In n (map fst (v_names _ _ s)) -> In (spelled n) (map fst (v_names _ _ s))) /\
  (forall n, In n (map fst (v_expressions _ _ s)) -> In n (map fst (v_names _ _ s))).
Lemma add_entry_iff s e s' : closed s -> add_entry s e = Ok s' <->
  Forall permitted (spelled (e_name e)) /\ ~ In (spelled (e_name e)) (map fst (v_names _ _ s)) /\ exists m, holds_entry e m /\ s' = extended s e m.
Proof.
  intros [K1 K2]. unfold SpecVit.add_entry, v_add. cbn [bind]. rewrite !translated_ok. unfold new_measurement.
  assert (A : forall x, sympify (translated (e_value e)) = Ok x -> ~ In (spelled (e_name e)) (map fst (v_names _ _ s)) ->
    VSet _ _ (v_objects _ _ s ++ [{| m_name := spelled (e_name e); m_expression := x; m_evaluated := None; m_value := None; m_full_name := e_full_name e; m_description := e_description e |}])
      (if starts (lit "@") (e_name e) then set_item (set_item (v_names _ _ s) (spelled (e_name e)) (length (v_objects _ _ s))) (e_name e) (length (v_objects _ _ s)) else set_item (v_names _ _ s) (spelled (e_name e)) (length (v_objects _ _ s)))
      (set_item (v_expressions _ _ s) (spelled (e_name e)) x) =
    extended s e {| m_name := spelled (e_name e); m_expression := x; m_evaluated := None; m_value := None; m_full_name := e_full_name e; m_description := e_description e |}).
  { intros x _ N. unfold extended, names_of, is_custom. cbn [m_name m_expression].
    rewrite (set_new (v_expressions _ _ s)) by (intros I; apply N, K2, I). rewrite (set_new (v_names _ _ s)) by exact N. f_equal.
    destruct (starts (lit "@") (e_name e)) eqn:C; [|reflexivity]. apply is_custom_spec in C. rewrite set_new; [rewrite <- app_assoc; reflexivity|].
    rewrite map_app, in_app_iff. intros [I|[I|[]]]; [exact (N (K1 _ C I))|]. cbn in I. exact (custom_not_spelled _ _ C (eq_sym I)). }
  split.
  - intros H. destruct (validate_name (translated (e_name e))) as [n|] eqn:V; [|discriminate H]. cbn [bind] in H. apply validate_inv in V. destruct V as [-> P]. fold (spelled (e_name e)) in *.
    destruct (sympify (translated (e_value e))) as [x|] eqn:S; [|discriminate H]. cbn [bind m_name m_expression] in H.
    destruct (lookup (v_names _ _ s) (spelled (e_name e))) eqn:L; [discriminate H|]. apply lookup_none in L. apply ok_inj in H. rewrite (A x eq_refl L) in H. subst s'.
    split; [exact P|]. split; [exact L|]. eexists. split; [|reflexivity]. constructor; cbn; auto.
  - intros (P & N & m & [M1 M2 [M3 M4] [M5 M6]] & ->). rewrite (validate_ok (translated (e_name e)) P). cbn [bind]. fold (spelled (e_name e)). rewrite M2. cbn [bind m_name m_expression].
    rewrite (proj2 (lookup_none _ _) N). f_equal. rewrite (A _ M2 N). destruct m; cbn in *; subst. reflexivity.
Qed.

(** The set of entries, from its definition by appending *)
Definition all_names (es : list entry) : list (text * nat) := concat (map (fun p => names_of (snd p) (fst p)) (combine (seq 0 (length es)) es)).
Lemma combine_snoc {A} (es : list A) e : combine (seq 0 (length (es ++ [e]))) (es ++ [e]) = combine (seq 0 (length es)) es ++ [(length es, e)].
Proof.
  rewrite app_length, Nat.add_1_r, seq_S. cbn [Nat.add].
  assert (G : forall (l : list nat) (es : list A) x e, length l = length es -> combine (l ++ [x]) (es ++ [e]) = combine l es ++ [(x, e)]).
  { induction l as [|y l IH]; intros [|d ds] x e' L; try discriminate L; [reflexivity|]. cbn. rewrite IH by now injection L. reflexivity. }
  apply G. apply seq_length.
Qed.
Lemma all_snoc es e : all_names (es ++ [e]) = all_names es ++ names_of e (length es).
Proof. unfold all_names. rewrite combine_snoc, map_app, concat_app. cbn. rewrite app_nil_r. reflexivity. Qed.
Lemma all_called es n i : In (n, i) (all_names es) <-> called es i n.
Proof.
  induction es as [|e es IH] using rev_ind.
  - split; [intros []|]. intros (e & E & _). destruct i; discriminate E.
  - rewrite all_snoc, in_app_iff, IH. unfold called, names_of. split.
    + intros [(d & D & H)|[E|I]].
      * exists d. rewrite nth_error_app1; [auto|]. apply nth_error_Some. rewrite D. discriminate.
      * injection E as <- <-. exists e. rewrite nth_error_app2, Nat.sub_diag by lia. auto.
      * destruct (is_custom (e_name e)) eqn:C; [|destruct I]. destruct I as [E|[]]. injection E as <- <-. exists e. rewrite nth_error_app2, Nat.sub_diag by lia. split; [reflexivity|].
        right. split; [now apply is_custom_spec|reflexivity].
    + intros (d & D & H). destruct (Nat.lt_ge_cases i (length es)) as [L|L].
      * left. exists d. rewrite nth_error_app1 in D by exact L. auto.
      * right. rewrite nth_error_app2 in D by exact L. destruct (i - length es) as [|k] eqn:K; [|destruct k; discriminate D]. injection D as <-. assert (i = length es) by lia. subst i.
        destruct H as [->|[C ->]]; [now left|right]. apply is_custom_spec in C. rewrite C. now left.
Qed.
Lemma all_order es : map snd (all_names es) = concat (map (fun p => fst p :: match e_name (snd p) with "@"%char :: _ => [fst p] | _ => [] end) (combine (seq 0 (length es)) es)).
Proof.
  unfold all_names. rewrite concat_map, map_map. f_equal. apply map_ext. intros [i e]. unfold names_of. cbn [fst snd map]. f_equal.
  destruct (e_name e) as [|c n]; [reflexivity|]. unfold is_custom. change (starts (lit "@") (c :: n)) with (Ascii.eqb "@"%char c && true). rewrite andb_true_r.
  destruct (Ascii.eqb_spec "@" c) as [<-|N]; [reflexivity|]. destruct c as [[] [] [] [] [] [] [] []]; try reflexivity. now destruct N.
Qed.
Lemma names_fst e i : map fst (names_of e i) = spelled (e_name e) :: (if is_custom (e_name e) then [e_name e] else []).
Proof. unfold names_of. destruct (is_custom _); reflexivity. Qed.
Lemma in_all es n : In n (map fst (all_names es)) -> exists e, In e es /\ (n = spelled (e_name e) \/ custom (e_name e) /\ n = e_name e).
Proof.
  intros H. apply in_map_iff in H. destruct H as ([n' i] & <- & I). apply all_called in I. destruct I as (e & E & H). exists e. split; [exact (nth_error_In _ _ E)|exact H].
Qed.
Lemma spelled_all es e : In e es -> In (spelled (e_name e)) (map fst (all_names es)).
Proof.
  intros I. apply In_nth_error in I. destruct I as [i I]. apply in_map_iff. exists (spelled (e_name e), i). split; [reflexivity|]. apply all_called. exists e. auto.
Qed.
Lemma in_all_spelled es n : In (spelled n) (map fst (all_names es)) <-> In (spelled n) (map (fun e => spelled (e_name e)) es).
Proof.
  split.
  - intros H. apply in_all in H. destruct H as (e & I & [E|[C E]]); [apply in_map_iff; exists e; auto|]. exfalso. exact (custom_not_spelled _ n C (eq_sym E)).
  - intros H. apply in_map_iff in H. destruct H as (e & E & I). rewrite <- E. exact (spelled_all es e I).
Qed.
Lemma nodup_snoc {A} (l : list A) x : NoDup (l ++ [x]) <-> NoDup l /\ ~ In x l.
Proof.
  split.
  - intros N. split; [apply NoDup_remove_1 in N|apply NoDup_remove_2 in N]; rewrite app_nil_r in N; exact N.
  - intros [N I]. apply (Permutation.Permutation_NoDup (l := x :: l)); [apply Permutation.Permutation_cons_append|constructor; assumption].
Qed.
Lemma all_once es : NoDup (map (fun e => spelled (e_name e)) es) -> NoDup (map fst (all_names es)).
Proof.
  induction es as [|e es IH] using rev_ind; [constructor|]. rewrite map_app. cbn [map]. rewrite nodup_snoc. intros [N I].
  rewrite all_snoc, map_app, names_fst. specialize (IH N). assert (I' : ~ In (spelled (e_name e)) (map fst (all_names es))) by (rewrite in_all_spelled; exact I).
  change (spelled (e_name e) :: ?x) with ([spelled (e_name e)] ++ x). rewrite app_assoc.
  assert (N' : NoDup (map fst (all_names es) ++ [spelled (e_name e)])) by (apply nodup_snoc; auto).
  destruct (is_custom (e_name e)) eqn:C; [|rewrite app_nil_r; exact N']. apply is_custom_spec in C. apply nodup_snoc. split; [exact N'|].
  rewrite in_app_iff. intros [H|[H|[]]]; [|exact (custom_not_spelled _ _ C (eq_sym H))].
  apply in_all in H. destruct H as (d & D & [E|[_ E]]); [exact (custom_not_spelled _ _ C E)|]. apply I. rewrite E. apply in_map_iff. exists d. auto.
Qed.

(** The state after the additions *)
Record state_of (es : list entry) (s : vset) : Prop := {
  so_names : Forall (fun e => Forall permitted (spelled (e_name e))) es;
  so_distinct : NoDup (map (fun e => spelled (e_name e)) es);
  so_objects : Forall2 holds_entry es (v_objects _ _ s);
  so_all : v_names _ _ s = all_names es;
  so_expressions : v_expressions _ _ s = map (fun m => (m_name _ _ m, m_expression _ _ m)) (v_objects _ _ s) }.
Lemma state_closed es s : state_of es s -> closed s.
Proof.
  intros [P D O A E]. split.
  - intros n C H. rewrite A in *. apply in_all in H. destruct H as (e & I & [->|[_ ->]]); [exfalso; exact (custom_not_spelled _ _ C eq_refl)|exact (spelled_all es e I)].
  - intros n H. rewrite E, map_map in H. rewrite A. apply in_map_iff in H. destruct H as (m & <- & I). cbn [fst].
    clear - O I. assert (G : exists e, In e es /\ holds_entry e m).
    { revert I. induction O as [|e x es l H O IH]; intros I; [destruct I|]. destruct I as [->|I]; [exists e; split; [now left|exact H]|]. destruct (IH I) as (d & D & H'). exists d. split; [now right|exact H']. }
    destruct G as (e & J & H). rewrite (he_name _ _ _ _ _ H). exact (spelled_all es e J).
Qed.
Lemma Forall_snoc {A} (P : A -> Prop) l x : Forall P (l ++ [x]) <-> Forall P l /\ P x.
Proof. rewrite Forall_app. split; intros [H1 H2]; (split; [exact H1|]); [exact (Forall_inv H2)|constructor; [exact H2|constructor]]. Qed.
Lemma Forall2_length {A B} (R : A -> B -> Prop) l l' : Forall2 R l l' -> length l = length l'.
Proof. induction 1; cbn; congruence. Qed.
Lemma state_extended es s e s' : state_of es s -> add_entry s e = Ok s' <-> state_of (es ++ [e]) s' /\ exists m, s' = extended s e m.
Proof.
  intros K. rewrite (add_entry_iff s e s' (state_closed es s K)). destruct K as [P D O A E]. assert (L : length (v_objects _ _ s) = length es) by (symmetry; exact (Forall2_length _ _ _ O)). split.
  - intros (Pe & N & m & H & ->). split; [|exists m; reflexivity]. constructor.
    + apply Forall_snoc. auto.
    + rewrite map_app. cbn [map]. apply nodup_snoc. split; [exact D|]. rewrite A in N. rewrite <- in_all_spelled. exact N.
    + cbn. apply Forall2_app; [exact O|]. constructor; [exact H|constructor].
    + cbn [v_names extended]. rewrite A, L, all_snoc. reflexivity.
    + cbn [v_expressions v_objects extended]. rewrite map_app, E. reflexivity.
  - intros [K (m & ->)]. destruct K as [P' D' O' A' E']. apply Forall_snoc in P'. destruct P' as [_ Pe]. rewrite map_app in D'. cbn [map] in D'. apply nodup_snoc in D'. destruct D' as [_ N].
    split; [exact Pe|]. split; [rewrite A, in_all_spelled; exact N|]. exists m. split; [|reflexivity]. cbn [v_objects extended] in O'.
    apply Forall2_app_inv_l in O'. destruct O' as (l1 & l2 & O1 & O2 & X). inversion O2 as [|? y ? l2' Hy O2' Z1 Z2]; subst. inversion O2'; subst.
    apply app_inj_tail in X. destruct X as [_ ->]. exact Hy.
Qed.
Lemma state_empty : state_of [] (empty_vset _ _).
Proof. constructor; constructor. Qed.
Lemma add_entries_app es : forall es' s, add_entries s (es ++ es') = (s <- add_entries s es ;; add_entries s es').
Proof. induction es as [|e es IH]; intros es' s; [reflexivity|]. cbn [app SpecVit.add_entries]. destruct (add_entry s e); cbn [bind]; auto. Qed.
Lemma entries_state es : forall s, add_entries (empty_vset _ _) es = Ok s <-> state_of es s.
Proof.
  induction es as [|e es IH] using rev_ind; intros s.
  - cbn [SpecVit.add_entries]. split; [intros H; injection H as <-; exact state_empty|]. intros [_ _ O A E]. destruct s as [o n x]. cbn in *. inversion O; subst. reflexivity.
  - rewrite add_entries_app. split.
    + intros H. destruct (add_entries (empty_vset _ _) es) as [s0|] eqn:E; [|discriminate H]. cbn [bind SpecVit.add_entries] in H. clear E. assert (E := proj1 (IH s0) eq_refl).
      destruct (add_entry s0 e) as [s1|] eqn:E1; [|discriminate H]. cbn [bind] in H. injection H as <-. apply (state_extended es s0 e) in E1; [|exact E]. exact (proj1 E1).
    + intros K. pose proof K as [P D O A E]. apply Forall_snoc in P. destruct P as [P Pe]. rewrite map_app in D. cbn [map] in D. apply nodup_snoc in D. destruct D as [D N].
      apply Forall2_app_inv_l in O. destruct O as (l1 & l2 & O1 & O2 & X). inversion O2 as [|? m ? l2' Hy O2' Z1 Z2]; subst. inversion O2'; subst.
      set (s0 := VSet _ _ l1 (all_names es) (map (fun m => (m_name _ _ m, m_expression _ _ m)) l1)).
      assert (K0 : state_of es s0) by (constructor; auto). rewrite (proj2 (IH s0) K0). cbn [bind SpecVit.add_entries].
      assert (Z : add_entry s0 e = Ok s); [|rewrite Z; reflexivity]. apply (state_extended es s0 e s K0). split; [exact K|]. exists m.
      destruct s as [so sn sx]. cbn in *. subst. unfold extended. cbn. rewrite all_snoc, (Forall2_length _ _ _ O1), map_app. reflexivity.
Qed.
Lemma entries_made es s : add_entries (empty_vset _ _) es = Ok s -> made_of es s.
Proof.
  intros H. apply entries_state in H. destruct H as [P D O A E]. constructor; auto.
  - intros n i. rewrite A. apply all_called.
  - rewrite A. exact (all_once es D).
  - rewrite A. apply all_order.
Qed.
(** Every acceptable list of entries makes a set. *)
Lemma entries_exists es : Forall (fun e => Forall permitted (spelled (e_name e))) es -> NoDup (map (fun e => spelled (e_name e)) es) ->
  Forall (fun e => is_ok (sympify (translated (e_value e)))) es -> is_ok (add_entries (empty_vset _ _) es).
Proof.
  intros P D S. assert (G : exists l, Forall2 holds_entry es l).
  { clear P D. induction S as [|e es [x X] S [l L]]; [exists []; constructor|].
    exists ({| m_name := spelled (e_name e); m_expression := x; m_evaluated := None; m_value := None; m_full_name := e_full_name e; m_description := e_description e |} :: l).
    constructor; [|exact L]. constructor; cbn; auto. }
  destruct G as [l L]. exists (VSet _ _ l (all_names es) (map (fun m => (m_name _ _ m, m_expression _ _ m)) l)). apply entries_state. constructor; auto.
Qed.
Lemma entries_good es s : add_entries (empty_vset _ _) es = Ok s -> Forall (fun e => is_ok (sympify (translated (e_value e)))) es.
Proof.
  intros H. apply entries_state in H. destruct H as [_ _ O _ _]. induction O as [|e m es l [_ X _ _] O IH]; constructor; auto. eexists. exact X.
Qed.
Lemma get_called es s n i : add_entries (empty_vset _ _) es = Ok s -> v_get _ _ s n = Ok i <-> called es i n.
Proof.
  intros H. apply entries_made in H. rewrite <- (mo_called _ _ _ _ _ H). pose proof (mo_once _ _ _ _ _ H) as N. unfold v_get.
  generalize dependent (v_names _ _ s). clear H. intros l N. induction l as [|[k x] l IH]; cbn; [split; [discriminate|tauto]|]. inversion N as [|? ? N1 N2]; subst. specialize (IH N2).
  destruct (text_eqb_spec k n) as [->|D].
  - split; [intros E; injection E as ->; now left|]. intros [E|I]; [now injection E as ->|]. exfalso. apply N1. apply in_map_iff. now exists (n, i).
  - rewrite IH. split; [now right|]. intros [E|I]; [injection E as E _; contradiction|exact I].
Qed.

(** ** Values *)
Variable subs : expression -> list (text * expression) -> expression.
Variable evalf : expression -> result number.
Notation v_value := (v_value number expression subs evalf).
Lemma value_twice s i : snd (v_value (fst (v_value s i)) i) = snd (v_value s i).
Proof.
  unfold ModelVit.v_value at 2 3. destruct (nth_error (v_objects _ _ s) i) as [m|] eqn:E; [|cbn [fst]; unfold ModelVit.v_value; rewrite E; reflexivity].
  destruct (value_of number expression subs evalf (Build_measurements _ _ [] (v_expressions _ _ s)) m) as [m' r] eqn:Q. cbn [fst snd].
  unfold ModelVit.v_value. cbn [v_objects v_expressions]. rewrite (nth_error_update_eq _ (v_objects _ _ s) i m' m E).
  assert (G : snd (value_of number expression subs evalf (Build_measurements _ _ [] (v_expressions _ _ s)) m') = r).
  { clear E. unfold value_of, evaluated in *. destruct (m_value _ _ m) as [x|] eqn:M; [injection Q as <- <-; rewrite M; reflexivity|].
    destruct (m_evaluated _ _ m) as [y|] eqn:M'.
    - destruct (evalf y) as [z|] eqn:Y; injection Q as <- <-; cbn [m_value m_evaluated]; [reflexivity|]. rewrite M, M'. rewrite Y. reflexivity.
    - destruct (evalf (subs (m_expression _ _ m) (ms_expressions _ _ (Build_measurements _ _ [] (v_expressions _ _ s))))) as [z|] eqn:Y; injection Q as <- <-; cbn [m_value m_evaluated]; [reflexivity|].
      cbn [ms_expressions] in Y. cbn [m_value m_evaluated m_expression]. rewrite Y. reflexivity. }
  destruct (value_of number expression subs evalf (Build_measurements _ _ [] (v_expressions _ _ s)) m') as [m'' r']. cbn [snd] in *. exact G.
Qed.
Lemma value_other s i j : i <> j -> snd (v_value (fst (v_value s i)) j) = snd (v_value s j).
Proof.
  intros N. unfold ModelVit.v_value at 2. destruct (nth_error (v_objects _ _ s) i) as [m|] eqn:E; [|reflexivity].
  destruct (value_of number expression subs evalf (Build_measurements _ _ [] (v_expressions _ _ s)) m) as [m' r]. cbn [fst]. unfold ModelVit.v_value. cbn [v_objects v_expressions].
  rewrite nth_error_update_neq by exact N. destruct (nth_error (v_objects _ _ s) j) as [x|]; [|reflexivity].
  destruct (value_of number expression subs evalf (Build_measurements _ _ [] (v_expressions _ _ s)) x). reflexivity.
Qed.
Lemma value_reads l : forall s i, snd (v_value (fold_left (fun s j => fst (v_value s j)) l s) i) = snd (v_value s i).
Proof.
  induction l as [|j l IH]; intros s i; [reflexivity|]. cbn [fold_left]. rewrite IH. destruct (Nat.eq_dec j i) as [->|N]; [apply value_twice|exact (value_other s j i N)].
Qed.
Lemma value_fresh es s i m : add_entries (empty_vset _ _) es = Ok s -> nth_error (v_objects _ _ s) i = Some m ->
  snd (v_value s i) = evalf (subs (m_expression _ _ m) (v_expressions _ _ s)).
Proof.
  intros H M. apply entries_state in H. destruct H as [_ _ O _ _]. unfold ModelVit.v_value. rewrite M. unfold value_of, evaluated.
  assert (F : m_evaluated _ _ m = None /\ m_value _ _ m = None).
  { apply nth_error_In in M. clear - O M. induction O as [|e x es l [_ _ X _] O IH]; [destruct M|]. destruct M as [->|M]; [exact X|exact (IH M)]. }
  destruct F as [-> ->]. cbn [ms_expressions]. destruct (evalf _); reflexivity.
Qed.
End Set_.
