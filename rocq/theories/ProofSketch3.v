(** Adding operations, evaluating, and histories. *)
From Coq Require Import String Reals List ZArith Bool Lia.
From Verif Require Import Base ModelVector ModelGraph SpecGraph GlueGraph ProofGraph ModelCounter ModelSketch SpecSketch ProofSketch ProofSketch2.
Import ListNotations.
Local Open Scope nat_scope.

Lemma counter_invariant s c : (counter s <= c)%Z -> invariant s -> invariant (set_counter c s).
Proof.
  intros L [St Dy]. split; [|destruct Dy; constructor; assumption]. constructor; try (destruct St; assumption).
  intros i o H. cbn. pose proof (st_counter _ St i o H). lia.
Qed.
Lemma new_object_ge c id : (c <= snd (new_object c id))%Z /\
  (forall z, fst (new_object c id) = Ok z -> z = snd (new_object c id) /\ c < z)%Z.
Proof.
  destruct id as [z|]; cbn.
  - unfold counter_set. destruct (Z.leb_spec z c); cbn; split; try lia; try discriminate. intros w E. injection E as <-. lia.
  - split; [lia|]. intros z E. injection E as <-. lia.
Qed.

(** ** The node of a new operation *)
Definition newest (s : sketch) (n : node) : Prop :=
  n < length (g_heap (dag s)) /\ forall i o, nth_error (ops s) i = Some o -> o_node o < n.
(** The ancestors of the new node are the operations of the list. *)
Definition ancestors_are (s : sketch) (n : node) (l : list nat) : Prop :=
  forall a, represents (dag s) a -> forall x, a_edge a x n <-> exists j, In j l /\ node_of s j x.

Lemma connect_new s n l m : invariant s -> newest s n -> ancestors_are s n m ->
  exists g, snd (connect_all n l s) = set_dag g s /\ invariant (set_dag g s) /\ newest (set_dag g s) n /\
    (fst (connect_all n l s) = Ok tt -> ancestors_are (set_dag g s) n (m ++ l) /\ forall j, In j l -> j < length (ops s)).
Proof.
  intros I [N1 N2] A. destruct (dy_graph _ (proj2 I)) as (a & R & Ia & Ea & Eb).
  assert (Hn : exists_node a n) by (unfold exists_node; rewrite <- (heap_len _ _ R); exact N1).
  destruct (connect_all_ok n l s a R Hn (fun j o H => node_exists s j o a I R H)) as (g & b & E & Rb & Ib & E1 & E2 & E3).
  assert (Lh : length (g_heap g) = length (g_heap (dag s))).
  { rewrite (heap_len _ _ Rb), (heap_len _ _ R), Ib. reflexivity. }
  exists g. rewrite E. cbn [fst snd]. split; [reflexivity|]. split; [|split].
  - destruct I as [St Dy]. split; [exact (statics_sig s (set_dag g s) eq_refl eq_refl eq_refl St)|].
    constructor; try (destruct Dy; assumption).
    + exists b. split; [exact Rb|]. split; [cbn; rewrite Ib, Lh; exact Ia|]. split.
      * intros x y X. destruct (E2 x y X) as [B|[-> (j & J & (p & P & <-))]]; [exact (Ea x y B)|]. left. exact (N2 j p P).
      * intros i o j p O P. rewrite (Eb i o j p O P). split; [apply E1|]. intro X.
        destruct (E2 _ _ X) as [B|[Y _]]; [exact B|]. pose proof (N2 i o O). lia.
    + intros i o O. cbn. rewrite Lh. exact (dy_nodes _ Dy i o O).
  - split; [cbn; rewrite Lh; exact N1|exact N2].
  - destruct (forallb (fun j => Nat.ltb j (length (ops s))) l) eqn:F; [|discriminate]. intros _. split.
    + intros b' Rb' x. assert (W : a_edge b' x n <-> a_edge b x n).
      { assert (On : exists o, nth_error (g_heap g) n = Some o).
        { destruct (nth_error (g_heap g) n) eqn:Q; [eauto|]. apply nth_error_None in Q. lia. }
        destruct On as (o & On). rewrite <- (proj2 (r_anc _ _ Rb n o On) x).
        rewrite <- (proj2 (r_anc _ _ Rb' n o On) x). reflexivity. }
      rewrite W. split.
      * intro X. destruct (E2 x n X) as [B|[_ (j & J & Q)]].
        -- apply (A a R) in B. destruct B as (j & J & Q). exists j. split; [apply in_or_app; auto|exact Q].
        -- exists j. split; [apply in_or_app; auto|exact Q].
      * intros (j & J & Q). apply in_app_or in J. destruct J as [J|J].
        -- apply E1. apply (A a R). exists j. auto.
        -- destruct Q as (p & P & <-). exact (E3 eq_refl j p J P).
    + intros j J. rewrite forallb_forall in F. apply Nat.ltb_lt. exact (F j J).
Qed.

Lemma resolve_state r s : snd (resolve r s) = s.
Proof. destruct r; try reflexivity. unfold resolve. destruct (Nat.ltb i (length (ops s))); reflexivity. Qed.
Lemma resolve_all_state l s : snd (resolve_all l s) = s.
Proof.
  induction l as [|r l IH]; [reflexivity|]. cbn [resolve_all]. unfold then_.
  pose proof (resolve_state r s) as E. destruct (resolve r s) as [[i|e] s1]; cbn in E; subst s1; [|reflexivity].
  destruct (resolve_all l s) as [[t|e] s1]; cbn in *; exact IH.
Qed.

Lemma resolve_groups_ok n : forall l m s, invariant s -> newest s n -> ancestors_are s n m ->
  exists g, snd (resolve_groups n l s) = set_dag g s /\ invariant (set_dag g s) /\ newest (set_dag g s) n /\
    (forall t, fst (resolve_groups n l s) = Ok t ->
       ancestors_are (set_dag g s) n (m ++ t) /\ forall j, In j t -> j < length (ops s)).
Proof.
  induction l as [|q l IH]; intros m s I N A.
  - exists (dag s). assert (E : set_dag (dag s) s = s) by (destruct s; reflexivity). rewrite E.
    repeat (split; [first [assumption|reflexivity]|]). intros t T. cbn in T. injection T as <-.
    rewrite app_nil_r. split; [exact A|intros j []].
  - cbn [resolve_groups]. unfold then_. pose proof (resolve_all_state q s) as Sq.
    destruct (resolve_all q s) as [[r|e] s1] eqn:Rq; cbn in Sq; subst s1.
    + destruct (connect_new s n r m I N A) as (g & C1 & C2 & C3 & C4).
      destruct (connect_all n r s) as [[u|e] s1]; cbn in C1, C4; subst s1.
      * destruct u. destruct (C4 eq_refl) as [C5 C6]. destruct (IH (m ++ r) (set_dag g s) C2 C3 C5) as (g' & D1 & D2 & D3 & D4).
        exists g'. destruct (resolve_groups n l (set_dag g s)) as [[t|e] s1]; cbn in D1, D4; subst s1.
        -- cbn. split; [reflexivity|]. split; [exact D2|]. split; [exact D3|]. intros t' T. injection T as <-.
           destruct (D4 t eq_refl) as [D5 D6]. rewrite app_assoc. split; [exact D5|].
           intros j J. apply in_app_or in J. destruct J as [J|J]; [exact (C6 j J)|exact (D6 j J)].
        -- cbn. repeat (split; [first [assumption|reflexivity]|]). discriminate.
      * exists g. cbn. repeat (split; [first [assumption|reflexivity]|]). discriminate.
    + exists (dag s). assert (E : set_dag (dag s) s = s) by (destruct s; reflexivity). rewrite E. cbn.
      repeat (split; [first [assumption|reflexivity]|]). discriminate.
Qed.

Lemma node_invariant s : invariant s -> exists g,
  add_node (dag s) (Z.of_nat (length (g_heap (dag s)))) = Ok (length (g_heap (dag s)), g) /\
  invariant (set_dag g s) /\ newest (set_dag g s) (length (g_heap (dag s))) /\
  ancestors_are (set_dag g s) (length (g_heap (dag s))) [].
Proof.
  intros I. destruct (dy_graph _ (proj2 I)) as (a & R & Ia & Ea & Eb). pose proof (heap_len _ _ R) as HL.
  set (h := length (g_heap (dag s))) in *.
  assert (F : ~ In (Z.of_nat h) (a_ids a)).
  { rewrite Ia. intro H. apply in_map_iff in H. destruct H as (k & K & H). apply in_seq in H. lia. }
  destruct (add_node (dag s) (Z.of_nat h)) as [[n g]|e] eqn:E.
  - destruct (add_represents _ _ _ _ _ R E) as (_ & -> & Rb). rewrite <- HL in *. exists g. split; [reflexivity|].
    assert (Lh : length (g_heap g) = S h).
    { rewrite (heap_len _ _ Rb). cbn. rewrite app_length. cbn. lia. }
    split; [|split].
    + destruct I as [St Dy]. split; [exact (statics_sig s (set_dag g s) eq_refl eq_refl eq_refl St)|].
      constructor; try (destruct Dy; assumption).
      * exists (mkA (a_ids a ++ [Z.of_nat h]) (a_edge a)). split; [exact Rb|]. split; [|split; assumption].
        cbn [a_ids set_dag dag]. rewrite Lh, seq_S, map_app, Ia. reflexivity.
      * intros i o O. cbn [set_dag dag]. rewrite Lh. pose proof (dy_nodes _ Dy i o O) as W. fold h in W. lia.
    + split; [cbn [set_dag dag]; lia|]. exact (dy_nodes _ (proj2 I)).
    + intros b Rb' x. split; [|intros (j & [] & _)]. intro X. exfalso.
      assert (On : exists o, nth_error (g_heap g) h = Some o).
      { destruct (nth_error (g_heap g) h) eqn:Q; [eauto|]. apply nth_error_None in Q. lia. }
      destruct On as (o & On). apply (proj2 (r_anc _ _ Rb' h o On) x) in X.
      apply (proj2 (r_anc _ _ Rb h o On) x) in X. cbn in X. apply (r_range _ _ R) in X. lia.
  - unfold add_node in E. destruct (dict_get _ _) eqn:Q; [|discriminate]. exfalso. apply F.
    rewrite (r_nodes _ _ R) in Q. clear - Q. revert Q. generalize 0 as k. generalize (a_ids a) as l.
    induction l as [|z l IH]; intros k; cbn; [discriminate|]. destruct (Z.eqb_spec (Z.of_nat h) z) as [->|N]; [auto|].
    intro Q. right. exact (IH (S k) Q).
Qed.

(** ** Registering an operation *)
Lemma nth_snoc {A} (l : list A) x i y : nth_error (l ++ [x]) i = Some y ->
  (i < length l /\ nth_error l i = Some y) \/ (i = length l /\ y = x).
Proof.
  intro H. destruct (Nat.lt_ge_cases i (length l)) as [L|L].
  - rewrite nth_error_app1 in H by exact L. auto.
  - rewrite nth_error_app2 in H by exact L. destruct (i - length l) as [|k] eqn:K.
    + injection H as <-. right. split; [lia|reflexivity].
    + destruct k; discriminate.
Qed.
Lemma nth_old {A} (l : list A) x i y : nth_error l i = Some y -> nth_error (l ++ [x]) i = Some y.
Proof. intro H. rewrite nth_error_app1; [exact H|]. apply nth_error_Some. congruence. Qed.
Lemma nth_new {A} (l : list A) x : nth_error (l ++ [x]) (length l) = Some x.
Proof. rewrite nth_error_app2, Nat.sub_diag by lia. reflexivity. Qed.
Lemma nth_lt {A} (l : list A) i y : nth_error l i = Some y -> i < length l.
Proof. intro H. apply nth_error_Some. congruence. Qed.

Lemma key_eqb_eq a b : key_eqb a b = true <-> a = b.
Proof.
  destruct a, b; cbn; try (split; discriminate).
  - rewrite Z.eqb_eq. split; congruence.
  - rewrite String.eqb_eq. split; congruence.
Qed.

Definition register (o : op) (s : sketch) : sketch :=
  let i := length (ops s) in
  let d := (KeyId (o_id o), i) :: op_dict s in
  let d := if is_point (o_kind o) then (KeyName (o_name o), i) :: d else d in
  set_dict d (set_ops (ops s ++ [o]) s).

Lemma assoc_register k o s : assoc key_eqb k (op_dict (register o s)) =
  if orb (key_eqb k (KeyId (o_id o))) (andb (is_point (o_kind o)) (key_eqb k (KeyName (o_name o))))
  then Some (length (ops s)) else assoc key_eqb k (op_dict s).
Proof.
  unfold register. cbn [op_dict set_dict]. destruct (is_point (o_kind o)); cbn [assoc andb].
  - destruct (key_eqb k (KeyName _)), (key_eqb k (KeyId _)); reflexivity.
  - rewrite orb_false_r. destruct (key_eqb k (KeyId _)); reflexivity.
Qed.

Lemma register_invariant o s : invariant s -> newest s (o_node o) -> ancestors_are s (o_node o) (o_refs o) ->
  (forall j, In j (o_refs o) -> j < length (ops s)) ->
  (forall i p, nth_error (ops s) i = Some p -> (o_id p < o_id o)%Z) -> (o_id o <= counter s)%Z ->
  o_dependencies o = o_refs o -> (exists l, o_exprs o = map new_expression l) -> invariant (register o s).
Proof.
  intros [St Dy] [N1 N2] A Rf Lt Le Ed (le & Ee). set (s' := register o s).
  assert (Ops : ops s' = ops s ++ [o]) by reflexivity.
  assert (Nm : forall j n, named s j n -> named s' j n).
  { intros j n (p & P & Q). exists p. rewrite Ops. split; [exact (nth_old _ _ _ _ P)|exact Q]. }
  assert (Nm' : forall j n, named s' j n -> named s j n \/ (j = length (ops s) /\ is_point (o_kind o) = true /\ o_name o = n)).
  { intros j n (p & P & Q). rewrite Ops in P. destruct (nth_snoc _ _ _ _ P) as [[L P']|[-> ->]]; [left; exists p; auto|auto]. }
  assert (Gx : forall i x, good_expr s i x -> good_expr s' i x).
  { intros i x. unfold good_expr. destruct (x_dependencies x); [|auto]. intros [P Q]. split.
    - intros j J. destruct (P j J) as (L & n & K & M). split; [exact L|]. exists n. auto.
    - intros n M. destruct (Q n M) as (j & J & K). exists j. auto. }
  split; constructor.
  - intros i j p q L P Q. rewrite Ops in P, Q. destruct (nth_snoc _ _ _ _ Q) as [[Lq Q']|[-> ->]];
      destruct (nth_snoc _ _ _ _ P) as [[Lp P']|[-> ->]]; try lia.
    + exact (st_ids _ St i j p q L P' Q').
    + exact (Lt i p P').
  - intros i p P. rewrite Ops in P. destruct (nth_snoc _ _ _ _ P) as [[Lp P']|[-> ->]]; [exact (st_counter _ St i p P')|exact Le].
  - intros i j p q L P Q. rewrite Ops in P, Q. destruct (nth_snoc _ _ _ _ Q) as [[Lq Q']|[-> ->]];
      destruct (nth_snoc _ _ _ _ P) as [[Lp P']|[-> ->]]; try lia.
    + exact (st_nodes _ St i j p q L P' Q').
    + exact (N2 i p P').
  - intros i p j P J. rewrite Ops in P. destruct (nth_snoc _ _ _ _ P) as [[Lp P']|[-> ->]]; [exact (st_refs _ St i p j P' J)|exact (Rf j J)].
  - intros i p P. rewrite Ops in P. unfold s'. rewrite assoc_register. destruct (nth_snoc _ _ _ _ P) as [[Lp P']|[-> ->]].
    + cbn [key_eqb]. rewrite andb_false_r, orb_false_r. pose proof (Lt i p P') as Z0.
      destruct (Z.eqb_spec (o_id p) (o_id o)); [lia|]. exact (st_id _ St i p P').
    + cbn [key_eqb]. rewrite Z.eqb_refl. reflexivity.
  - intros i p P K H. rewrite Ops in P. unfold s'. rewrite assoc_register. cbn [key_eqb orb].
    destruct (nth_snoc _ _ _ _ P) as [[Lp P']|[-> ->]].
    + destruct (is_point (o_kind o)) eqn:Ko; cbn [andb].
      * destruct (String.eqb_spec (o_name p) (o_name o)) as [E|E].
        -- exfalso. apply (H (length (ops s)) Lp). exists o. rewrite Ops. split; [apply nth_new|]. auto.
        -- apply (st_name _ St i p P' K). intros j L Q. exact (H j L (Nm _ _ Q)).
      * apply (st_name _ St i p P' K). intros j L Q. exact (H j L (Nm _ _ Q)).
    + rewrite K, String.eqb_refl. reflexivity.
  - intros k i H. unfold s' in H. rewrite assoc_register in H.
    destruct (orb (key_eqb k (KeyId (o_id o))) (andb (is_point (o_kind o)) (key_eqb k (KeyName (o_name o))))) eqn:Q.
    + injection H as <-. apply orb_true_iff in Q. destruct Q as [Q|Q].
      * apply key_eqb_eq in Q. subst k. exists o. rewrite Ops. split; [apply nth_new|reflexivity].
      * apply andb_true_iff in Q. destruct Q as [Q1 Q2]. apply key_eqb_eq in Q2. subst k. exists o. rewrite Ops.
        split; [apply nth_new|auto].
    + pose proof (st_key _ St k i H) as W. destruct k as [z|n]; [|exact (Nm _ _ W)].
      destruct W as (p & P & E). exists p. rewrite Ops. split; [exact (nth_old _ _ _ _ P)|exact E].
  - destruct (dy_graph _ Dy) as (a & R & Ia & Ea & Eb). exists a. split; [exact R|]. split; [exact Ia|]. split.
    + intros x y X. destruct (Ea x y X) as [L|[-> (i & p & e & P & W)]]; [auto|right]. split; [reflexivity|].
      exists i, p, e. rewrite Ops. split; [exact (nth_old _ _ _ _ P)|exact W].
    + assert (No : forall y, ~ a_edge a (o_node o) y \/ (o_node o) < y).
      { intro y. destruct (Nat.lt_ge_cases (o_node o) y) as [L|L]; [auto|left]. intro X.
        destruct (Ea _ _ X) as [L'|[_ (i & p & e & P & Np & _)]]; [lia|]. pose proof (N2 i p P). lia. }
      intros i p j q P Q. rewrite Ops in P, Q. destruct (nth_snoc _ _ _ _ P) as [[Lp P']|[-> ->]];
        destruct (nth_snoc _ _ _ _ Q) as [[Lq Q']|[-> ->]].
      * exact (Eb i p j q P' Q').
      * split.
        -- intro J. pose proof (dy_deps _ Dy i p _ P' J). lia.
        -- intro X. destruct (No (o_node p)) as [N|N]; [destruct (N X)|]. pose proof (N2 i p P'). lia.
      * rewrite Ed. rewrite (A a R). split.
        -- intro J. exists j. split; [exact J|]. exists q. auto.
        -- intros (j' & J' & (q' & Q1 & E)). replace j with j'; [exact J'|].
           destruct (Nat.lt_trichotomy j' j) as [L|[L|L]]; [|exact L|].
           ++ pose proof (st_nodes _ St j' j q' q L Q1 Q'). lia.
           ++ pose proof (st_nodes _ St j j' q q' L Q' Q1). lia.
      * rewrite Ed. split.
        -- intro J. pose proof (Rf _ J). lia.
        -- intro X. destruct (No (o_node o)) as [N|N]; [destruct (N X)|lia].
  - intros i p P. rewrite Ops in P. destruct (nth_snoc _ _ _ _ P) as [[Lp P']|[-> ->]]; [exact (dy_nodes _ Dy i p P')|exact N1].
  - intros i p P. rewrite Ops in P. destruct (nth_snoc _ _ _ _ P) as [[Lp P']|[-> ->]]; [exact (dy_refs _ Dy i p P')|].
    rewrite Ed. apply incl_refl.
  - intros i p j P J. rewrite Ops in *. rewrite app_length. cbn. destruct (nth_snoc _ _ _ _ P) as [[Lp P']|[-> ->]].
    + pose proof (dy_deps _ Dy i p j P' J). lia.
    + rewrite Ed in J. pose proof (Rf j J). lia.
  - intros i p x P X. rewrite Ops in P. destruct (nth_snoc _ _ _ _ P) as [[Lp P']|[-> ->]].
    + apply Gx. exact (dy_exprs _ Dy i p x P' X).
    + rewrite Ee in X. apply in_map_iff in X. destruct X as (e & <- & _). split; reflexivity.
  - intros n j H. destruct (dy_points _ Dy n j H) as [W C]. split; [exact (Nm _ _ W)|].
    intros i p L P. rewrite Ops in P. destruct (nth_snoc _ _ _ _ P) as [[Lp P']|[-> ->]]; [exact (C i p L P')|].
    destruct W as (q & Q & _). apply nth_lt in Q. lia.
Qed.

(** Adding an operation: it is registered last, or nothing is registered. *)
Lemma add_op_ok a id s : invariant s ->
  invariant (snd (add_op a id s)) /\
  (forall e, fst (add_op a id s) = Raise e ->
     ops (snd (add_op a id s)) = ops s /\ op_dict (snd (add_op a id s)) = op_dict s) /\
  (forall i, fst (add_op a id s) = Ok i -> i = length (ops s) /\ exists o,
     ops (snd (add_op a id s)) = ops s ++ [o] /\ o_kind o = a_kind a /\ o_name o = a_name a /\
     map x_source (o_exprs o) = a_exprs a /\ (forall z, id = Some z -> o_id o = z) /\
     o_vector o = None /\ (forall x, In x (o_exprs o) -> x = new_expression (x_source x))) /\
  points (snd (add_op a id s)) = points s /\ segment (snd (add_op a id s)) = segment s /\ cache (snd (add_op a id s)) = cache s.
Proof.
  intro I. unfold add_op. destruct (negb (well_formed a)).
  { cbn. split; [exact I|]. split; [auto|]. split; [discriminate|auto]. }
  destruct (new_object_ge (counter s) id) as [G1 G2].
  destruct (new_object (counter s) id) as [[z|e] c] eqn:Ob; cbn in G1, G2.
  - destruct (G2 z eq_refl) as [-> Lt]. clear G2.
    pose proof (counter_invariant s c G1 I) as I1. set (s1 := set_counter c s) in *.
    destruct (node_invariant s1 I1) as (g & En & I2 & N2 & A2). rewrite En. set (n := length (g_heap (dag s1))) in *.
    set (s2 := set_dag g s1) in *.
    destruct (resolve_groups_ok n (a_groups a) [] s2 I2 N2 A2) as (g' & C1 & C2 & C3 & C4).
    unfold then_. destruct (resolve_groups n (a_groups a) s2) as [[r|e] s3]; cbn in C1, C4; subst s3.
    + destruct (C4 r eq_refl) as [C5 C6]. unfold look, modify, returns, then_. cbn [fst snd].
      set (o := Op (a_kind a) c (a_name a) n r (map new_expression (a_exprs a)) r None None).
      split; [|split; [discriminate|]].
      * apply (register_invariant o (set_dag g' s2) C2 C3 C5 C6).
        -- intros i p P. cbn. pose proof (st_counter _ (proj1 I) i p P). lia.
        -- cbn. lia.
        -- reflexivity.
        -- exists (a_exprs a). reflexivity.
      * split; [|split; [reflexivity|split; reflexivity]]. intros i E. injection E as <-. split; [reflexivity|]. exists o. split; [reflexivity|].
        split; [reflexivity|]. split; [reflexivity|]. split; [cbn; rewrite map_map; apply map_id|]. split.
        -- intros z ->. cbn in Ob. unfold counter_set in Ob. destruct (Z.leb z (counter s)); [discriminate|].
           injection Ob as <-. reflexivity.
        -- split; [reflexivity|]. intros x X. apply in_map_iff in X. destruct X as (e & <- & _). reflexivity.
    + cbn [fst snd]. split; [exact C2|]. split; [split; reflexivity|]. split; [discriminate|]. split; [reflexivity|split; reflexivity].
  - cbn [fst snd]. split; [exact (counter_invariant s c G1 I)|]. split; [split; reflexivity|]. split; [discriminate|]. split; [reflexivity|split; reflexivity].
Qed.
