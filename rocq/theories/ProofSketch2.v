(** The evaluation of sketches keeps the invariant. *)
From Coq Require Import String Reals List ZArith Bool Lia.
From Verif Require Import Base ModelVector ModelGraph SpecGraph GlueGraph ProofGraph ModelCounter ModelSketch SpecSketch ProofSketch.
Import ListNotations.
Local Open Scope nat_scope.

Definition frame (i : nat) (s s' : sketch) : Prop :=
  counter s' = counter s /\ op_dict s' = op_dict s /\ dag s' = dag s /\ points s' = points s /\ cache s' = cache s /\
  sigs s' = sigs s /\ (forall k, k <> i -> nth_error (ops s') k = nth_error (ops s) k).
Definition safe (i : nat) (s s' : sketch) : Prop := (invariant s -> invariant s') /\ frame i s s'.
Lemma frame_refl i s : frame i s s.
Proof. repeat split. Qed.
Lemma frame_trans i a b c : frame i a b -> frame i b c -> frame i a c.
Proof.
  intros (A1 & A2 & A3 & A4 & A5 & A6 & A7) (B1 & B2 & B3 & B4 & B5 & B6 & B7).
  repeat split; try congruence. intros k K. rewrite B7, A7; auto.
Qed.
Lemma safe_order i : preorder (safe i).
Proof.
  split; [intro s; split; [auto|apply frame_refl]|]. intros a b c [I1 F1] [I2 F2]. split; [auto|].
  exact (frame_trans i a b c F1 F2).
Qed.

Lemma put_frame s i o o' : nth_error (ops s) i = Some o -> psig o' = psig o -> frame i s (set_ops (update i o' (ops s)) s).
Proof.
  intros H E. repeat split; [exact (sigs_update s i o o' H E)|]. intros k K. cbn. apply nth_error_update_neq. auto.
Qed.
Lemma with_expr_frame s i j o x x' : nth_error (ops s) i = Some o -> nth_error (o_exprs o) j = Some x ->
  x_source x' = x_source x -> frame i s (with_expr s i j o x').
Proof.
  intros H X E. apply (put_frame s i o _ H). unfold psig; cbn. rewrite (map_source_update _ j x' x X E). reflexivity.
Qed.

Lemma safe_value i j : keeps (safe i) (value i j).
Proof.
  intro s. split; [exact (value_invariant s i j)|].
  destruct (has_expr s i j) as [(o & x & Ho & Hx)|N]; [|rewrite (proj1 (value_none s i j N)); apply frame_refl].
  rewrite (value_eq s i j o x Ho Hx). destruct (x_value x); [apply frame_refl|]. destruct (x_error x); [apply frame_refl|].
  destruct (match x_dependencies x with Some d => Ok d | None => visit_expr s (x_source x) end) as [d|e]; [|apply frame_refl].
  destruct (evaluate s (x_source x)) as [v|[]]; apply (with_expr_frame s i j o x _ Ho Hx); reflexivity.
Qed.
Lemma safe_put i f : (forall o, psig (f o) = psig o) -> (forall o, o_dependencies (f o) = o_dependencies o) ->
  (forall o, o_exprs (f o) = o_exprs o) -> keeps (safe i) (put_op i f).
Proof.
  intros H1 H2 H3 s. unfold put_op, modify. cbn [snd]. destruct (nth_error (ops s) i) as [o|] eqn:O.
  - split; [|exact (put_frame s i o _ O (H1 o))]. intro I. apply (put_invariant s i o _ I O (H1 o) (H2 o)).
    + intros C x. rewrite H3. apply C.
    + intros x. rewrite H3. exact (dy_exprs _ (proj2 I) i o x O).
  - split; [auto|apply frame_refl].
Qed.
Lemma safe_segment i v : keeps (safe i) (modify (set_segment v)).
Proof. intro s. split; [exact (segment_invariant s v)|]. repeat split. Qed.
Lemma safe_ref i o k : keeps (safe i) (ref_vector o k).
Proof.
  intro s. unfold ref_vector. destruct (nth_error (o_refs o) k); [|apply safe_order].
  destruct (nth_error (ops s) n); [|apply safe_order]. destruct (is_point _); apply safe_order.
Qed.
Lemma safe_named i o : keeps (safe i) (named_refs o).
Proof. intro s. unfold named_refs. destruct (forallb _ _); apply safe_order. Qed.
Lemma safe_number i j : keeps (safe i) (number i j).
Proof.
  apply keeps_then; [apply safe_order|apply safe_value|]. intro a. apply keeps_returns, safe_order.
Qed.

Ltac safe_tac :=
  repeat match goal with
  | |- keeps _ (then_ _ _) => apply keeps_then; [apply safe_order| |intro]
  | |- keeps _ (returns _) => apply keeps_returns, safe_order
  | |- keeps _ (value _ _) => apply safe_value
  | |- keeps _ (number _ _) => apply safe_number
  | |- keeps _ (ref_vector _ _) => apply safe_ref
  | |- keeps _ (named_refs _) => apply safe_named
  | |- keeps _ (modify (set_segment _)) => apply safe_segment
  | |- keeps _ (put_op _ _) => apply safe_put; intro; reflexivity
  | |- keeps _ (match ?x with _ => _ end) => destruct x
  end.
Lemma safe_internal i o : keeps (safe i) (eval_internal i o).
Proof. unfold eval_internal. destruct (o_kind o); cbn zeta; safe_tac. Qed.

(** ** Connections *)
Lemma node_exists s i o a : invariant s -> represents (dag s) a -> nth_error (ops s) i = Some o -> exists_node a (o_node o).
Proof.
  intros I R H. unfold exists_node. rewrite <- (heap_len _ _ R). exact (dy_nodes _ (proj2 I) i o H).
Qed.

(** Connecting a node to operations adds these edges and nothing else. *)
Lemma connect_all_ok n : forall l s a, represents (dag s) a -> exists_node a n ->
  (forall j o, nth_error (ops s) j = Some o -> exists_node a (o_node o)) ->
  exists g b, connect_all n l s = ((if forallb (fun j => Nat.ltb j (length (ops s))) l then Ok tt else Raise KeyError), set_dag g s) /\
    represents g b /\ a_ids b = a_ids a /\
    (forall x y, a_edge a x y -> a_edge b x y) /\
    (forall x y, a_edge b x y -> a_edge a x y \/ (y = n /\ exists j, In j l /\ node_of s j x)) /\
    (forallb (fun j => Nat.ltb j (length (ops s))) l = true ->
     forall j p, In j l -> nth_error (ops s) j = Some p -> a_edge b (o_node p) n).
Proof.
  induction l as [|i l IH]; intros s a R N H.
  - exists (dag s), a. split; [destruct s; reflexivity|]. split; [exact R|]. split; [reflexivity|]. split; [auto|].
    split; [auto|]. intros _ j p [].
  - cbn [connect_all forallb]. destruct (nth_error (ops s) i) as [o|] eqn:O.
    + destruct (connect_represents (dag s) a n (o_node o) R (H i o O) N) as (g1 & -> & R1).
      set (a1 := mkA (a_ids a) (fun u v => a_edge a u v \/ (u = o_node o /\ v = n))) in *.
      destruct (IH (set_dag g1 s) a1 R1 N H) as (g & b & E & Rb & Ib & E1 & E2 & E3). exists g, b.
      assert (L : Nat.ltb i (length (ops s)) = true).
      { apply Nat.ltb_lt. apply nth_error_Some. rewrite O. discriminate. }
      rewrite L. cbn [andb]. split; [exact E|]. split; [exact Rb|]. split; [exact Ib|]. split.
      * intros x y X. apply E1. left. exact X.
      * split.
        -- intros x y X. destruct (E2 x y X) as [[A|[-> ->]]|[-> (j & J & Q)]].
           ++ left. exact A.
           ++ right. split; [reflexivity|]. exists i. split; [left; reflexivity|]. exists o. auto.
           ++ right. split; [reflexivity|]. exists j. split; [right; exact J|exact Q].
        -- intros F j p [<-|J] P.
           ++ apply E1. right. assert (p = o) by congruence. subst p. auto.
           ++ exact (E3 F j p J P).
    + assert (L : Nat.ltb i (length (ops s)) = false).
      { apply Nat.ltb_ge. apply nth_error_None. exact O. }
      rewrite L. cbn [andb]. exists (dag s), a. split; [destruct s; reflexivity|]. split; [exact R|].
      split; [reflexivity|]. split; [auto|]. split; [auto|]. discriminate.
Qed.

(** The dependencies of a compiled expression, recorded by its operation. *)
Lemma connect_deps_invariant s i o x d : invariant s -> nth_error (ops s) i = Some o -> In x (o_exprs o) ->
  x_dependencies x = Some d ->
  exists g, let s1 := set_dag g (set_ops (update i (add_dependencies d o) (ops s)) s) in
    (then_ (put_op i (add_dependencies d)) (fun _ => connect_all (o_node o) d)) s = (Ok tt, s1) /\ invariant s1.
Proof.
  intros [St Dy] Ho Hx Hd. pose proof (dy_exprs _ Dy i o x Ho Hx) as G. unfold good_expr in G. rewrite Hd in G.
  destruct G as [G1 G2]. destruct (dy_graph _ Dy) as (a & R & Ia & Ea & Eb).
  set (o' := add_dependencies d o). set (s' := set_ops (update i o' (ops s)) s).
  assert (Hn : forall j p, nth_error (ops s') j = Some p -> exists q, nth_error (ops s) j = Some q /\ o_node p = o_node q /\
     o_refs p = o_refs q /\ o_exprs p = o_exprs q /\ (j <> i -> p = q) /\ (j = i -> o_dependencies p = o_dependencies q ++ d)).
  { intros j p P. cbn in P. destruct (Nat.eq_dec i j) as [<-|N].
    - rewrite (nth_error_update_eq _ _ _ _ _ Ho) in P. injection P as <-. exists o. repeat split; auto. congruence.
    - rewrite nth_error_update_neq in P by exact N. exists p. repeat split; auto. congruence. }
  assert (Ex : forall j p, nth_error (ops s') j = Some p -> exists_node a (o_node p)).
  { intros j p P. destruct (Hn j p P) as (q & Q & -> & _). exact (node_exists s j q a (conj St Dy) R Q). }
  destruct (connect_all_ok (o_node o) d s' a R (node_exists s i o a (conj St Dy) R Ho) Ex)
    as (g & b & E & Rb & Ib & E1 & E2 & E3).
  assert (S2 : sigs s' = sigs s) by (apply (sigs_update s i o o' Ho); reflexivity).
  assert (Len : forallb (fun j => Nat.ltb j (length (ops s'))) d = true).
  { apply forallb_forall. intros j J. apply Nat.ltb_lt. destruct (G1 j J) as (_ & n & (p & P & _) & _).
    rewrite (sig_length s s' S2). apply nth_error_Some. congruence. }
  rewrite Len in E. specialize (E3 Len).
  exists g. cbn zeta. split.
  { unfold then_, put_op, modify. rewrite Ho. exact E. }
  assert (Lh : length (g_heap g) = length (g_heap (dag s))).
  { rewrite (heap_len _ _ Rb), (heap_len _ _ R), Ib. reflexivity. }
  set (s1 := set_dag g s').
  split; [exact (statics_sig s s1 S2 eq_refl eq_refl St)|]. constructor.
  - exists b. split; [exact Rb|]. split; [cbn [s1 dag set_dag]; rewrite Ib, Lh; exact Ia|]. split.
    + intros u v U. destruct (E2 u v U) as [A|[-> (j & J & (p & P & <-))]].
      * destruct (Ea u v A) as [L|[L K]]; [auto|right]. split; [exact L|]. exact (selfish_sig s s1 _ S2 K).
      * destruct (Hn j p P) as (q & Q & -> & _). destruct (G1 j J) as (L & n & (q' & Q' & K & Nm) & M).
        assert (q' = q) by congruence. subst q'. destruct (Nat.eq_dec j i) as [->|Ne].
        -- right. assert (q = o) by congruence. subst q. split; [reflexivity|].
           apply (selfish_sig s s1 _ S2). exists i, o, x. repeat split; auto. rewrite Nm. exact M.
        -- left. apply (st_nodes _ St j i q o); [lia|exact Q|exact Ho].
    + intros k p j q P Q. destruct (Hn k p P) as (p0 & P0 & Np & _ & _ & Pn & Pi).
      destruct (Hn j q Q) as (q0 & Q0 & Nq & _). rewrite Np, Nq.
      pose proof (Eb k p0 j q0 P0 Q0) as B. destruct (Nat.eq_dec k i) as [->|Ne].
      * rewrite (Pi eq_refl). assert (p0 = o) by congruence. subst p0. split.
        -- intro J. apply in_app_or in J. destruct J as [J|J]; [apply E1, B, J|].
           rewrite <- Nq. exact (E3 j q J Q).
        -- intro J. apply in_or_app. destruct (E2 _ _ J) as [A|[_ (j' & J' & (q' & Q' & Nq'))]]; [left; apply B, A|].
           right. replace j with j'; [exact J'|]. destruct (Hn j' q' Q') as (q1 & Q1 & Nq1 & _).
           destruct (Nat.lt_trichotomy j' j) as [L|[L|L]]; [|exact L|].
           ++ pose proof (st_nodes _ St j' j q1 q0 L Q1 Q0). lia.
           ++ pose proof (st_nodes _ St j j' q0 q1 L Q0 Q1). lia.
      * rewrite (Pn Ne). rewrite B. split; [apply E1|]. intro J. destruct (E2 _ _ J) as [A|[Y _]]; [exact A|].
        exfalso. destruct (Nat.lt_trichotomy k i) as [L|[L|L]]; [|exact (Ne L)|].
        -- pose proof (st_nodes _ St k i p0 o L P0 Ho). lia.
        -- pose proof (st_nodes _ St i k o p0 L Ho P0). lia.
  - intros k p P. destruct (Hn k p P) as (q & Q & -> & _). cbn [s1 dag set_dag]. rewrite Lh.
    exact (dy_nodes _ Dy k q Q).
  - intros k p P. destruct (Hn k p P) as (q & Q & _ & Rq & _ & Pn & Pi).
    destruct (Nat.eq_dec k i) as [->|Ne].
    + rewrite (Pi eq_refl), Rq. intros j J. apply in_or_app. left. exact (dy_refs _ Dy i q Q j J).
    + rewrite (Pn Ne). exact (dy_refs _ Dy k q Q).
  - intros k p j P J. rewrite (sig_length s s1 S2). destruct (Hn k p P) as (q & Q & _ & _ & _ & Pn & Pi).
    destruct (Nat.eq_dec k i) as [->|Ne].
    + rewrite (Pi eq_refl) in J. apply in_app_or in J. destruct J as [J|J]; [exact (dy_deps _ Dy i q j Q J)|].
      destruct (G1 j J) as (_ & n & (p' & P' & _) & _). apply nth_error_Some. congruence.
    + rewrite (Pn Ne) in J. exact (dy_deps _ Dy k q j Q J).
  - intros k p y P Y. destruct (Hn k p P) as (q & Q & _ & _ & Xq & _). rewrite Xq in Y.
    apply (good_expr_sig s s1 k y S2). exact (dy_exprs _ Dy k q y Q Y).
  - intros n j J. destruct (dy_points _ Dy n j J) as [N C]. split; [exact (named_sig s s1 j n S2 N)|].
    intros k p L P. destruct (Hn k p P) as (q & Q & _ & _ & Xq & _). intros y Y. rewrite Xq in Y.
    exact (C k q L Q y Y).
Qed.

(** All the expressions of an operation. *)
Lemma connect_expressions_ok i : forall l s o, invariant s -> nth_error (ops s) i = Some o -> incl l (o_exprs o) ->
  let r := connect_expressions i l s in
  invariant (snd r) /\ sigs (snd r) = sigs s /\ points (snd r) = points s /\ counter (snd r) = counter s /\
  op_dict (snd r) = op_dict s /\ cache (snd r) = cache s /\ segment (snd r) = segment s /\
  (forall k, k <> i -> nth_error (ops (snd r)) k = nth_error (ops s) k) /\
  (exists m, nth_error (ops (snd r)) i = Some (add_dependencies m o)) /\
  (fst r = Ok tt -> (forall x, In x l -> x_dependencies x <> None) /\
     exists o', nth_error (ops (snd r)) i = Some o' /\ incl (o_dependencies o) (o_dependencies o') /\
     forall x d, In x l -> x_dependencies x = Some d -> incl d (o_dependencies o')).
Proof.
  induction l as [|x l IH]; intros s o I Ho Hl; cbn zeta.
  - cbn. do 7 (split; [first [assumption|reflexivity]|]). split; [auto|]. split.
    + exists []. rewrite Ho. f_equal. destruct o; unfold add_dependencies; cbn. rewrite app_nil_r. reflexivity.
    + intros _. split; [intros y []|]. exists o. split; [exact Ho|]. split; [apply incl_refl|]. intros y d [].
  - destruct (x_dependencies x) as [d|] eqn:D.
    + destruct (connect_deps_invariant s i o x d I Ho (Hl x (or_introl eq_refl)) D) as (g & E & I1). cbn zeta in E, I1.
      set (s1 := set_dag g (set_ops (update i (add_dependencies d o) (ops s)) s)) in *.
      assert (T : connect_expressions i (x :: l) s = connect_expressions i l s1).
      { revert E. cbn [connect_expressions]. rewrite D. unfold then_, the_op. rewrite Ho. destruct (put_op i (add_dependencies d) s) as [[u|e] w]; [|discriminate].
        intros ->. reflexivity. }
      rewrite T. clear T E.
      assert (Ho1 : nth_error (ops s1) i = Some (add_dependencies d o)) by exact (nth_error_update_eq _ _ _ _ _ Ho).
      destruct (IH s1 (add_dependencies d o) I1 Ho1 (fun y Y => Hl y (or_intror Y)))
        as (A1 & A2 & A3 & A4 & A5 & A6 & A7 & A8 & (m & A9) & A10).
      split; [exact A1|]. split; [rewrite A2; apply (sigs_update s i o _ Ho); reflexivity|].
      split; [rewrite A3; reflexivity|]. split; [rewrite A4; reflexivity|]. split; [rewrite A5; reflexivity|].
      split; [rewrite A6; reflexivity|]. split; [rewrite A7; reflexivity|]. split.
      * intros k K. rewrite (A8 k K). apply nth_error_update_neq. auto.
      * split.
        -- exists (d ++ m). rewrite A9. f_equal. destruct o; unfold add_dependencies; cbn. rewrite app_assoc. reflexivity.
        -- intro F. destruct (A10 F) as (B1 & o' & B2 & B3 & B4). split.
           ++ intros y [<-|Y]; [congruence|exact (B1 y Y)].
           ++ exists o'. split; [exact B2|]. cbn in B3. split.
              ** intros j J. apply B3. apply in_or_app. left. exact J.
              ** intros y dy [<-|Y] Dy; [|exact (B4 y dy Y Dy)]. assert (dy = d) by congruence. subst dy.
                 intros j J. apply B3. apply in_or_app. right. exact J.
    + cbn [connect_expressions]. rewrite D. cbn. do 7 (split; [first [assumption|reflexivity]|]). split; [auto|]. split.
      * exists []. rewrite Ho. f_equal. destruct o; unfold add_dependencies; cbn. rewrite app_nil_r. reflexivity.
      * discriminate.
Qed.
