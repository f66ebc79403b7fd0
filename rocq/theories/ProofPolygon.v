(** Lemmas on polygons. *)
From Coq Require Import Bool Reals List ZArith Lra Lia Psatz Permutation.
From Verif Require Import Base ModelIter ProofIter ModelVector SpecVector ProofVector ModelRoot
  ModelTransformation ModelLine SpecLine ProofLine ProofSegment ModelPolygon SpecPolygon.
Import ListNotations.
Local Open Scope R_scope.
Local Open Scope result_scope.

(** ** Sums *)
Lemma sum_list_acc l : forall a, fold_left Rplus l a = a + sumR l.
Proof. induction l as [|x l IH]; intro a; cbn; [ring|]. rewrite IH. ring. Qed.
Lemma sum_list_ok l : sum_list l = sumR l.
Proof. unfold sum_list. rewrite sum_list_acc. ring. Qed.
Lemma sumR_app l m : sumR (l ++ m) = sumR l + sumR m.
Proof. induction l as [|x l IH]; cbn; [ring|]. rewrite IH. ring. Qed.
Lemma sumR_perm l m : Permutation l m -> sumR l = sumR m.
Proof. induction 1; cbn; lra. Qed.
Lemma sumR_ext {A} (f g : A -> R) l : (forall x, In x l -> f x = g x) ->
  sumR (map f l) = sumR (map g l).
Proof.
  induction l as [|x l IH]; intro H; [reflexivity|]. cbn. rewrite (H x (or_introl eq_refl)), IH; [reflexivity|].
  intros y Hy. apply H. right. exact Hy.
Qed.
Lemma sumR_plus {A} (f g : A -> R) l : sumR (map (fun x => f x + g x) l) = sumR (map f l) + sumR (map g l).
Proof. induction l as [|x l IH]; cbn; [ring|]. rewrite IH. ring. Qed.
Lemma sumR_scale {A} k (f : A -> R) l : sumR (map (fun x => k * f x) l) = k * sumR (map f l).
Proof. induction l as [|x l IH]; cbn; [ring|]. rewrite IH. ring. Qed.
Lemma sumR_0 {A} (l : list A) : sumR (map (fun _ => 0) l) = 0.
Proof. induction l as [|x l IH]; cbn; lra. Qed.

(** ** The cyclic edges *)
Fixpoint chain (l : list vec) : list (vec * vec) :=
  match l with
  | a :: ((b :: _) as rest) => (a, b) :: chain rest
  | _ => []
  end.
Definition swap (e : vec * vec) : vec * vec := (snd e, fst e).

Lemma chain_combine t : forall a z, chain ((a :: t) ++ [z]) = combine (a :: t) (t ++ [z]).
Proof.
  induction t as [|b t IH]; intros a z; [reflexivity|].
  change (chain ((a :: b :: t) ++ [z])) with ((a, b) :: chain ((b :: t) ++ [z])). rewrite IH. reflexivity.
Qed.
Lemma ring_chain a t : ring (a :: t) = chain ((a :: t) ++ [a]).
Proof. symmetry. apply chain_combine. Qed.
Lemma chain_snoc l : forall a b, chain (l ++ [a; b]) = chain (l ++ [a]) ++ [(a, b)].
Proof.
  induction l as [|x l IH]; intros a b; [reflexivity|]. destruct l as [|y l]; [reflexivity|].
  change (chain ((x :: y :: l) ++ [a; b])) with ((x, y) :: chain ((y :: l) ++ [a; b])).
  rewrite IH. reflexivity.
Qed.
Lemma chain_rev l : chain (rev l) = rev (map swap (chain l)).
Proof.
  induction l as [|a l IH]; [reflexivity|]. destruct l as [|b l]; [reflexivity|].
  change (rev (a :: b :: l)) with ((rev l ++ [b]) ++ [a]). rewrite <- app_assoc. cbn [app].
  rewrite chain_snoc. change (rev l ++ [b]) with (rev (b :: l)). rewrite IH. reflexivity.
Qed.
Lemma ring_rotate a t : Permutation (ring (t ++ [a])) (ring (a :: t)).
Proof.
  destruct t as [|b u]; [apply Permutation_refl|].
  change ((b :: u) ++ [a]) with (b :: (u ++ [a])). rewrite !ring_chain.
  change ((b :: u ++ [a]) ++ [b]) with (((b :: u) ++ [a]) ++ [b]). rewrite <- app_assoc. cbn [app].
  change (b :: u ++ [a; b]) with ((b :: u) ++ [a; b]). rewrite chain_snoc.
  change (chain (a :: b :: u ++ [a])) with ((a, b) :: chain ((b :: u) ++ [a])).
  apply Permutation_sym, Permutation_cons_append.
Qed.
Lemma ring_rev l : Permutation (ring (rev l)) (map swap (ring l)).
Proof.
  destruct l as [|a t]; [apply Permutation_refl|]. cbn [rev].
  eapply Permutation_trans; [apply ring_rotate|]. rewrite !ring_chain.
  replace ((a :: rev t) ++ [a]) with (rev ((a :: t) ++ [a])).
  - rewrite chain_rev. apply Permutation_sym, Permutation_rev.
  - rewrite rev_app_distr. cbn. reflexivity.
Qed.
Lemma ring_map f l : ring (map f l) = map (fun e => (f (fst e), f (snd e))) (ring l).
Proof.
  destruct l as [|a t]; [reflexivity|]. unfold ring. cbn [map].
  change [f a] with (map f [a]). rewrite <- map_app.
  change (f a :: map f t) with (map f (a :: t)).
  generalize (a :: t) (t ++ [a]). induction l as [|x l IH]; intros [|y m]; cbn; try reflexivity.
  rewrite IH. reflexivity.
Qed.
Lemma ring_len l : length (ring l) = length l.
Proof.
  destruct l as [|a t]; [reflexivity|]. unfold ring. rewrite combine_length, app_length. cbn [length]. lia.
Qed.
Lemma ring_nth l i d : (i < length l)%nat ->
  nth_error (ring l) i = Some (nth i l d, nth ((i + 1) mod length l) l d).
Proof.
  intro H. destruct l as [|a t]; [cbn in H; lia|]. unfold ring.
  assert (L : length (combine (a :: t) (t ++ [a])) = length (a :: t)).
  { rewrite combine_length, app_length. cbn [length]. lia. }
  rewrite (nth_error_nth' _ (d, d)) by lia. rewrite combine_nth by (rewrite app_length; cbn; lia).
  f_equal. f_equal. destruct (Nat.eq_dec i (length t)) as [->|Hi].
  - replace (length t + 1)%nat with (length (a :: t)) by (cbn; lia). rewrite Nat.mod_same by (cbn; lia).
    rewrite app_nth2, Nat.sub_diag by lia. reflexivity.
  - cbn in H. rewrite Nat.mod_small by (cbn; lia). replace (i + 1)%nat with (S i) by lia.
    cbn [nth]. rewrite app_nth1 by lia. reflexivity.
Qed.
Lemma ring_telescope (f : vec -> R) l : sumR (map (fun e => f (snd e) - f (fst e)) (ring l)) = 0.
Proof.
  destruct l as [|a t]; [reflexivity|]. rewrite ring_chain.
  assert (G : forall t a z, sumR (map (fun e => f (snd e) - f (fst e)) (chain ((a :: t) ++ [z]))) = f z - f a).
  { clear. induction t as [|b t IH]; intros a z; [cbn; ring|].
    change (chain ((a :: b :: t) ++ [z])) with ((a, b) :: chain ((b :: t) ++ [z])). cbn [map sumR fst snd].
    rewrite IH. ring. }
  rewrite G. ring.
Qed.

Lemma columns_ok l : l <> [] -> closed_columns l = Ok (ring l).
Proof.
  destruct l as [|a t]; [congruence|]. intros _. unfold closed_columns. rewrite closed_iterator_ok. cbn [bind].
  rewrite removelast_last. reflexivity.
Qed.
Lemma edges_ok l : polygon_edges l = Ok (map (fun e => Seg (fst e) (snd e)) (ring l)).
Proof.
  unfold polygon_edges. destruct l as [|a t]; [reflexivity|].
  rewrite (closed_pairwise_some _ _ a). cbn [map_result]. do 2 f_equal.
  symmetry. apply (nth_ext _ _ (a, a) (a, a)).
  - rewrite ring_len, map_length, seq_length. reflexivity.
  - intros i Hi. rewrite ring_len in Hi.
    pose proof (ring_nth (a :: t) i a Hi) as E. apply nth_error_nth with (d := (a, a)) in E. rewrite E.
    set (g := fun i => (nth i (a :: t) a, nth ((i + 1) mod length (a :: t)) (a :: t) a)).
    rewrite (nth_indep _ (a, a) (g 0%nat)) by (rewrite map_length, seq_length; exact Hi).
    rewrite (map_nth g), seq_nth by exact Hi. reflexivity.
Qed.

(** ** Area and barycenter *)
Definition o0 := V 0 0.

Lemma sweep_cross o l : sweep o l = / 2 * sumR (map column_cross (ring l)).
Proof.
  unfold sweep. rewrite <- sumR_scale.
  transitivity (sumR (map (fun e => / 2 * column_cross e
      + - / 2 * ((vx o * vy (snd e) - vy o * vx (snd e)) - (vx o * vy (fst e) - vy o * vx (fst e)))) (ring l))).
  - apply sumR_ext. intros [a b] _. unfold tri, column_cross. cbn. lra.
  - rewrite sumR_plus, (sumR_scale (- / 2)), (ring_telescope (fun p => vx o * vy p - vy o * vx p)). ring.
Qed.
Lemma sweep_any o o' l : sweep o l = sweep o' l.
Proof. rewrite !sweep_cross. reflexivity. Qed.

Lemma moment_x o l : vx (moment o l) = / 6 * sumR (map (fun e => (vx (fst e) + vx (snd e)) * column_cross e) (ring l)).
Proof.
  unfold moment. cbn [vx]. rewrite <- sumR_scale.
  transitivity (sumR (map (fun e => / 6 * ((vx (fst e) + vx (snd e)) * column_cross e)
     + (- (vx o / 6) * ((vx o * vy (snd e) - vy o * vx (snd e) + vx (snd e) * vy (snd e))
                         - (vx o * vy (fst e) - vy o * vx (fst e) + vx (fst e) * vy (fst e)))
        + (vy o / 6) * (vx (snd e) * vx (snd e) - vx (fst e) * vx (fst e)))) (ring l))).
  - apply sumR_ext. intros [a b] _. unfold tri, column_cross. cbn. field.
  - rewrite !sumR_plus, !sumR_scale.
    rewrite (ring_telescope (fun p => vx o * vy p - vy o * vx p + vx p * vy p)).
    rewrite (ring_telescope (fun p => vx p * vx p)). ring.
Qed.
Lemma moment_y o l : vy (moment o l) = / 6 * sumR (map (fun e => (vy (fst e) + vy (snd e)) * column_cross e) (ring l)).
Proof.
  unfold moment. cbn [vy]. rewrite <- sumR_scale.
  transitivity (sumR (map (fun e => / 6 * ((vy (fst e) + vy (snd e)) * column_cross e)
     + (- (vy o / 6) * ((vx o * vy (snd e) - vy o * vx (snd e) - vx (snd e) * vy (snd e))
                         - (vx o * vy (fst e) - vy o * vx (fst e) - vx (fst e) * vy (fst e)))
        + - (vx o / 6) * (vy (snd e) * vy (snd e) - vy (fst e) * vy (fst e)))) (ring l))).
  - apply sumR_ext. intros [a b] _. unfold tri, column_cross. cbn. field.
  - rewrite !sumR_plus, !sumR_scale.
    rewrite (ring_telescope (fun p => vx o * vy p - vy o * vx p - vx p * vy p)).
    rewrite (ring_telescope (fun p => vy p * vy p)). ring.
Qed.

Lemma measures_ok l : l <> [] -> exists m, compute_area_barycenter l = Ok m /\
  m_area m = Rabs (sweep o0 l) /\
  m_sign m = (if Req_EM_T (sweep o0 l) 0 then None else Some (sign (sweep o0 l))) /\
  (sweep o0 l = 0 -> m_barycenter m = hd o0 l) /\
  (sweep o0 l <> 0 -> vscale (m_barycenter m) (sweep o0 l) = moment o0 l).
Proof.
  intro H. unfold compute_area_barycenter. rewrite columns_ok by exact H. cbn [bind].
  rewrite !sum_list_ok. rewrite <- (sweep_cross o0). set (A := sweep o0 l) in *.
  destruct (Reqb_spec A 0) as [E|E].
  - destruct l as [|a t]; [congruence|]. change (py_index (a :: t) 0) with (Ok a). cbn [bind].
    eexists. split; [reflexivity|]. cbn [m_area m_sign m_barycenter]. clearbody A. subst A. rewrite Rabs_R0.
    split; [reflexivity|]. destruct (Req_EM_T 0 0); [|lra]. split; [reflexivity|]. split; [reflexivity|]. lra.
  - eexists. split; [reflexivity|]. cbn [m_area m_sign m_barycenter].
    split; [reflexivity|]. destruct (Req_EM_T A 0); [lra|]. split; [reflexivity|]. split; [lra|].
    intros _. unfold vscale. cbn [vx vy]. destruct (moment o0 l) as [mx my] eqn:M.
    pose proof (moment_x o0 l) as X. pose proof (moment_y o0 l) as Y. rewrite M in X, Y. cbn [vx vy] in X, Y.
    apply vec_eq; cbn [vx vy]; [rewrite X|rewrite Y]; field; exact E.
Qed.

(** ** Loops *)
Lemma forall_loop_ok {A} (f : A -> result bool) (P : A -> Prop) l :
  (forall x, In x l -> exists b, f x = Ok b /\ (b = true <-> P x)) ->
  exists b, forall_loop f l = Ok b /\ (b = true <-> forall x, In x l -> P x).
Proof.
  induction l as [|x l IH]; intro H.
  - exists true. split; [reflexivity|]. split; [intros _ y []|reflexivity].
  - destruct (H x (or_introl eq_refl)) as (b & E & I). cbn [forall_loop]. rewrite E. cbn [bind].
    destruct b.
    + destruct IH as (b & E' & I'); [intros y Hy; apply H; right; exact Hy|].
      exists b. split; [exact E'|]. rewrite I'. split.
      * intros HP y [<-|Hy]; [apply I; reflexivity|apply HP, Hy].
      * intros HP y Hy. apply HP. right. exact Hy.
    + exists false. split; [reflexivity|]. split; [discriminate|]. intro HP.
      apply I. apply HP. left. reflexivity.
Qed.

Lemma enumerate_in {A} (l : list A) i x : In (i, x) (enumerate l) <-> nth_error l i = Some x.
Proof.
  unfold enumerate.
  assert (G : forall l a, In (i, x) (combine (seq a (length l)) l) <-> (a <= i)%nat /\ nth_error l (i - a) = Some x).
  { clear l. induction l as [|y l IH]; intro a; cbn [length seq combine In].
    - split; [intros []|]. intros [_ H]. destruct (i - a)%nat; discriminate H.
    - rewrite IH. split.
      + intros [H|[H1 H2]].
        * injection H as <- <-. rewrite Nat.sub_diag. split; [lia|reflexivity].
        * split; [lia|]. replace (i - a)%nat with (S (i - S a)) by lia. exact H2.
      + intros [H1 H2]. destruct (Nat.eq_dec a i) as [->|Hn].
        * left. rewrite Nat.sub_diag in H2. injection H2 as ->. reflexivity.
        * right. split; [lia|]. replace (i - a)%nat with (S (i - S a)) in H2 by lia. exact H2. }
  rewrite G, Nat.sub_0_r. split; [intros [_ H]; exact H|]. intro H. split; [lia|exact H].
Qed.

(** ** Simplicity *)
Lemma veqb_true a b : veqb a b = true <-> a = b.
Proof.
  unfold veqb. rewrite andb_true_iff. split.
  - intros [H1 H2]. destruct (Reqb_spec (vx a) (vx b)), (Reqb_spec (vy a) (vy b)); try discriminate.
    apply vec_eq; assumption.
  - intros ->. rewrite !Reqb_refl. auto.
Qed.
Lemma veqb_dec (a b : vec) : a = b \/ a <> b.
Proof.
  destruct (veqb a b) eqn:E; [left; apply veqb_true, E|right]. intro H. apply veqb_true in H. congruence.
Qed.

Lemma between_ends a b : between a b a /\ between a b b.
Proof. split; [exists 0|exists 1]; split; try lra; split; ring. Qed.

Lemma simple_pair_ok e f : exists b, simple_pair (Seg (fst e) (snd e)) (Seg (fst f) (snd f)) = Ok b /\
  (b = true <-> meet_at_ends e f).
Proof.
  unfold simple_pair, meet_at_ends. destruct e as [a b], f as [c d]. cbn [fst snd].
  destruct (Rlt_dec (5 / 10 ^ 8) (Rabs (crossv (vsub b a) (vsub d c)))) as [N|N].
  - destruct (segment_intersection_ok (Seg a b) (Seg c d) N) as (q & t & E & S1 & S2).
    rewrite E. cbn [bind]. unfold on_segment in *. cbn [s_p0 s_p1] in *. destruct t.
    + destruct (S1 eq_refl) as [B1 B2].
      assert (U : forall v, between a b v -> between c d v -> v = q).
      { intros v H1 H2. apply S2; assumption. }
      pose proof (between_ends a b) as [Ea Eb]. pose proof (between_ends c d) as [Ec Ed].
      assert (M : (forall v, between a b v -> between c d v -> (v = a \/ v = b) /\ (v = c \/ v = d))
                  <-> (q = a \/ q = b) /\ (q = c \/ q = d)).
      { split; [intro H; apply H; assumption|]. intros H v H1 H2. rewrite (U v H1 H2). exact H. }
      unfold share_vertex_with. cbn [s_p0 s_p1].
      destruct (orb (veqb a c) (veqb a d)) eqn:E1.
      * assert (Hac : a = c \/ a = d) by (apply orb_true_iff in E1; rewrite !veqb_true in E1; exact E1).
        assert (a = q) by (destruct Hac; subst; apply U; assumption).
        exists (veqb a q). split; [reflexivity|]. rewrite veqb_true.
        split; [intros _ _; apply M; subst q; split; [left; reflexivity|exact Hac]|].
        intros _; assumption.
      * destruct (orb (veqb b c) (veqb b d)) eqn:E2.
        -- assert (Hbc : b = c \/ b = d) by (apply orb_true_iff in E2; rewrite !veqb_true in E2; exact E2).
           assert (b = q) by (destruct Hbc; subst; apply U; assumption).
           exists (veqb b q). split; [reflexivity|]. rewrite veqb_true.
           split; [intros _ _; apply M; subst q; split; [right; reflexivity|exact Hbc]|].
           intros _; assumption.
        -- exists false. split; [reflexivity|]. split; [discriminate|]. intro H. exfalso.
           apply M in H; [|exact N]. apply orb_false_iff in E1, E2.
           destruct E1 as [E1 E1'], E2 as [E2 E2'].
           assert (X : forall u v : vec, veqb u v = false -> u <> v).
           { intros u v Huv Heq. apply veqb_true in Heq. congruence. }
           apply X in E1, E1', E2, E2'. destruct H as [[Hq|Hq] [Hr|Hr]]; congruence.
    + exists true. split; [reflexivity|]. split; [intros _ _|reflexivity].
      intros v H1 H2. destruct (S2 v H1 H2) as [H3 _]. discriminate.
  - exists true. split; [|split; [intros _ H; contradiction|reflexivity]].
    unfold segment_intersection, intersection_abscissae, is_parallel_cross, is_parallel, round7_is_zero.
    replace (Rleb (Rabs (cross _ _)) (5 / 10 ^ 8)) with true; [reflexivity|].
    symmetry. apply Rleb_true. unfold to_line, line_from_two_points. cbn [l_v s_p0 s_p1].
    change (Rabs (crossv (vsub b a) (vsub d c)) <= 5 / 10 ^ 8). lra.
Qed.

Lemma simple_test_ok l : exists b,
  test_is_simple (map (fun e => Seg (fst e) (snd e)) (ring l)) = Ok b /\ (b = true <-> simple l).
Proof.
  unfold test_is_simple. set (E := map _ (ring l)).
  assert (NE : forall i s, In (i, s) (enumerate E) -> exists e, nth_error (ring l) i = Some e /\ s = Seg (fst e) (snd e)).
  { intros i s H. apply enumerate_in in H. unfold E in H. rewrite nth_error_map in H.
    destruct (nth_error (ring l) i) as [e|]; [|discriminate]. injection H as <-. eauto. }
  destruct (forall_loop_ok (fun e1 => forall_loop (fun e2 =>
      if Nat.eqb (fst e1) (fst e2) then Ok true else simple_pair (snd e1) (snd e2)) (enumerate E))
      (fun e1 => forall e2, In e2 (enumerate E) -> fst e1 <> fst e2 ->
         meet_at_ends (s_p0 (snd e1), s_p1 (snd e1)) (s_p0 (snd e2), s_p1 (snd e2))) (enumerate E))
    as (b & Eb & Ib).
  - intros [i s] Hs. apply NE in Hs as (e & He & ->).
    apply (forall_loop_ok _ (fun e2 => i <> fst e2 ->
         meet_at_ends (fst e, snd e) (s_p0 (snd e2), s_p1 (snd e2)))).
    intros [j s'] Hs'. apply NE in Hs' as (f & Hf & ->). cbn [fst snd s_p0 s_p1].
    destruct (Nat.eqb_spec i j) as [->|Hij].
    + exists true. split; [reflexivity|]. split; [congruence|reflexivity].
    + destruct (simple_pair_ok (fst e, snd e) (fst f, snd f)) as (c & Ec & Ic). exists c.
      split; [exact Ec|]. rewrite Ic. split; [intros H _; exact H|intro H; apply H, Hij].
  - exists b. split; [exact Eb|]. rewrite Ib. clear - NE. split.
    + intros H i j e f Hij He Hf.
      assert (Ie : In (i, Seg (fst e) (snd e)) (enumerate E)).
      { apply enumerate_in. unfold E. rewrite nth_error_map, He. reflexivity. }
      assert (If : In (j, Seg (fst f) (snd f)) (enumerate E)).
      { apply enumerate_in. unfold E. rewrite nth_error_map, Hf. reflexivity. }
      specialize (H _ Ie _ If Hij). cbn in H. destruct e, f. exact H.
    + intros H [i s] Hs [j s'] Hs' Hij. apply NE in Hs as (e & He & ->). apply NE in Hs' as (f & Hf & ->).
      cbn in Hij |- *. specialize (H i j e f Hij He Hf). destruct e, f. exact H.
Qed.

(** ** The object and its caches *)
Section Object.
Variable l : list vec.
Hypothesis L3 : (3 <= length l)%nat.
Let E := map (fun e => Seg (fst e) (snd e)) (ring l).
Variable sb : bool.
Hypothesis SB : test_is_simple E = Ok sb.
Variable cb : bool.
Hypothesis CB : test_is_convex E = Ok cb.
Variable m : measures.
Hypothesis ME : compute_area_barycenter l = Ok m.

Record fits (p : polygon) : Prop := {
  f_points : p_points p = l;
  f_edges : c_edges p = None \/ c_edges p = Some E;
  f_simple : c_simple p = None \/ c_simple p = Some sb;
  f_convex : c_convex p = None \/ c_convex p = Some (andb sb cb);
  f_measures : c_measures p = None \/ (sb = true /\ c_measures p = Some m);
  f_clockwise : c_clockwise p = None \/
    (sb = true /\ exists s, m_sign m = Some s /\ c_clockwise p = Some (Rltb s 0));
  f_inertia : c_inertia p = None \/ (sb = true /\ c_inertia p = Some (compute_inertia l)) }.

(** What a method answers: independent of the caches. *)
Definition answers {A} (f : method A) (r : result A) : Prop :=
  forall p, fits p -> fst (f p) = r /\ fits (snd (f p)).

Lemma then_answers {A B} (f : method A) (k : A -> method B) r g :
  answers f r -> (forall a, r = Ok a -> answers (k a) (g a)) ->
  answers (then_ f k) (bind r g).
Proof.
  intros Hf Hk p Hp. unfold then_. destruct (Hf p Hp) as [E1 F1]. destruct (f p) as [x p'].
  cbn in E1, F1. subst x. destruct r as [a|e]; [|split; [reflexivity|exact F1]].
  apply Hk; [reflexivity|exact F1].
Qed.
Lemma ret_answers {A} (a : A) : answers (ret a) (Ok a).
Proof. intros p Hp. split; [reflexivity|exact Hp]. Qed.
Lemma lift_answers {A} (r : result A) : answers (lift r) r.
Proof. intros p Hp. split; [reflexivity|exact Hp]. Qed.
Lemma self_answers {A} (k : polygon -> method A) r :
  (forall p, fits p -> answers (k p) r) -> answers (then_ self k) r.
Proof. intros H p Hp. unfold then_, self. apply H; exact Hp. Qed.

Lemma set_answers (f : method unit) :
  (forall p, fits p -> fst (f p) = Ok tt /\ fits (snd (f p))) -> answers f (Ok tt).
Proof. intros H p Hp. apply H, Hp. Qed.

Ltac setter := let r := fresh "r" in let Hr := fresh "Hr" in intros r Hr; split; [reflexivity|]; destruct Hr; constructor; cbn; eauto.

Lemma get_edges_ok : answers get_edges (Ok E).
Proof.
  apply self_answers. intros p Hp. destruct (f_edges p Hp) as [->| ->]; [|apply ret_answers].
  rewrite (f_points p Hp), edges_ok.
  change (Ok E) with (bind (Ok E) (fun e : list segment => bind (Ok tt) (fun _ => Ok e))).
  eapply then_answers; [apply lift_answers|]. intros a Ha. injection Ha as <-.
  eapply then_answers; [|intros; apply ret_answers]. apply set_answers. setter.
Qed.
Lemma get_simple_ok : answers get_is_simple (Ok sb).
Proof.
  apply self_answers. intros p Hp. destruct (f_simple p Hp) as [->| ->]; [|apply ret_answers].
  change (Ok sb) with (bind (Ok E) (fun _ : list segment => bind (Ok sb) (fun b => bind (Ok tt) (fun _ => Ok b)))).
  eapply then_answers; [apply get_edges_ok|]. intros a Ha. injection Ha as <-. rewrite SB.
  eapply then_answers; [apply lift_answers|]. intros a Ha. injection Ha as <-.
  eapply then_answers; [|intros; apply ret_answers]. apply set_answers. setter.
Qed.
Lemma get_convex_ok : answers get_is_convex (Ok (andb sb cb)).
Proof.
  apply self_answers. intros p Hp. destruct (f_convex p Hp) as [->| ->]; [|apply ret_answers].
  change (Ok (andb sb cb)) with (bind (Ok sb) (fun b => bind (Ok (andb b cb)) (fun b => bind (Ok tt) (fun _ => Ok b)))).
  eapply then_answers; [apply get_simple_ok|]. intros a Ha. injection Ha as <-.
  eapply then_answers.
  - destruct sb; [|apply ret_answers]. change (Ok (true && cb)%bool) with (bind (Ok E) (fun _ : list segment => Ok cb)).
    eapply then_answers; [apply get_edges_ok|]. intros a Ha. injection Ha as <-. rewrite CB. apply lift_answers.
  - intros a Ha. injection Ha as <-.
    eapply then_answers; [|intros; apply ret_answers]. apply set_answers. setter.
Qed.
Lemma check_area_ok : forall p, fits p -> fst (check_area p) = Ok tt /\ fits (snd (check_area p)) /\
  c_measures (snd (check_area p)) = (if sb then Some m else None).
Proof.
  intros p Hp. unfold check_area, then_, self. destruct (get_simple_ok p Hp) as [E1 F1].
  destruct (get_is_simple p) as [x p']. cbn in E1, F1. subst x.
  pose proof (f_measures p' F1) as FM. pose proof (f_points p' F1) as FP. destruct sb eqn:Hs.
  - destruct FM as [FM|[_ FM]]; rewrite FM.
    + rewrite FP, ME. cbn. split; [reflexivity|]. split; [|reflexivity]. destruct F1; constructor; cbn; eauto.
    + cbn. split; [reflexivity|]. split; [exact F1|exact FM].
  - cbn. split; [reflexivity|]. split; [exact F1|]. destruct FM as [FM|[FM _]]; [exact FM|congruence].
Qed.
Lemma check_then {A} (k : polygon -> method A) r :
  (forall p, fits p -> c_measures p = (if sb then Some m else None) -> answers (k p) r) ->
  answers (then_ check_area (fun _ => then_ self k)) r.
Proof.
  intros H p Hp. destruct (check_area_ok p Hp) as (E1 & F1 & M1). unfold then_, self.
  destruct (check_area p) as [x p']. cbn in E1, F1, M1. subst x. apply H; auto.
Qed.
Lemma get_area_ok : answers get_area (Ok (if sb then Some (m_area m) else None)).
Proof.
  apply check_then. intros p Hp ->. destruct sb; apply ret_answers.
Qed.
Lemma get_barycenter_ok : answers get_barycenter (if sb then Ok (m_barycenter m) else Raise AttributeError).
Proof. apply check_then. intros p Hp ->. destruct sb; [apply ret_answers|apply lift_answers]. Qed.
Definition clockwise_of : result (option bool) :=
  if sb then match m_sign m with Some s => Ok (Some (Rltb s 0)) | None => Raise AttributeError end
  else Ok None.
Lemma get_clockwise_ok : answers get_is_clockwise clockwise_of.
Proof.
  change clockwise_of with (bind (Ok sb) (fun _ => clockwise_of)).
  eapply then_answers; [apply get_simple_ok|]. intros a Ha. injection Ha as <-. unfold clockwise_of.
  case_eq sb; intro Hs; cbn [negb]; [|apply ret_answers].
  apply self_answers. intros p Hp. pose proof (f_clockwise p Hp) as [->|(_ & s & Es & ->)].
  - intros q Hq. revert q Hq. change (answers
      (then_ check_area (fun _ => then_ self (fun p => match c_measures p with
        | Some (Measures _ (Some s) _) => then_ (set_clockwise (Rltb s 0)) (fun _ => ret (Some (Rltb s 0)))
        | _ => lift (Raise AttributeError) end)))
      (match m_sign m with Some s => Ok (Some (Rltb s 0)) | None => Raise AttributeError end)).
    apply check_then. intros q Hq Mq. rewrite Hs in Mq. rewrite Mq. destruct m as [ma ms mb] eqn:Em. cbn [m_sign].
    destruct ms as [s|]; [|apply lift_answers].
    change (Ok (Some (Rltb s 0))) with (bind (Ok tt) (fun _ => Ok (Some (Rltb s 0)))).
    eapply then_answers; [|intros; apply ret_answers]. apply set_answers.
    intros r Hr; split; [reflexivity|]. destruct Hr; constructor; cbn; eauto.
    right. split; [exact Hs|]. exists s. rewrite Em. auto.
  - rewrite Es. apply ret_answers.
Qed.
Lemma get_inertia_ok : answers get_inertia (if sb then Ok (compute_inertia l) else Raise AttributeError).
Proof.
  change (if sb then Ok (compute_inertia l) else Raise AttributeError)
    with (bind (Ok sb) (fun b : bool => if b then Ok (compute_inertia l) else Raise AttributeError)).
  eapply then_answers; [apply get_simple_ok|]. intros a Ha. injection Ha as <-.
  apply self_answers. intros p Hp. destruct (f_inertia p Hp) as [->|[-> ->]]; [|apply ret_answers].
  rewrite (f_points p Hp). case_eq sb; intro Hs; [|apply lift_answers].
  change (Ok (compute_inertia l)) with (bind (Ok tt) (fun _ => Ok (compute_inertia l))).
  eapply then_answers; [|intros; apply ret_answers]. apply set_answers.
  intros r Hr; split; [reflexivity|]. destruct Hr; constructor; cbn; eauto.
Qed.
Lemma get_perimeter_ok : answers get_perimeter (Ok (edges_perimeter E)).
Proof.
  change (Ok (edges_perimeter E)) with (bind (Ok E) (fun e => Ok (edges_perimeter e))).
  eapply then_answers; [apply get_edges_ok|]. intros. apply ret_answers.
Qed.
Lemma get_inside_ok q : answers (get_is_point_inside q) (polygon_is_point_inside E q).
Proof.
  change (polygon_is_point_inside E q) with (bind (Ok E) (fun e => polygon_is_point_inside e q)).
  eapply then_answers; [apply get_edges_ok|]. intros. apply lift_answers.
Qed.

Lemma ask_pure q : exists r, answers (ask q) r.
Proof.
  destruct q; cbn [ask]; eexists; (eapply then_answers; [|intros; apply ret_answers]).
  - apply get_simple_ok. - apply get_convex_ok. - apply get_area_ok. - apply get_barycenter_ok.
  - apply get_clockwise_ok. - apply get_inertia_ok. - apply get_perimeter_ok. - apply get_inside_ok.
Qed.

Lemma fits_fresh : fits (Poly l None None None None None None).
Proof. constructor; cbn; auto. Qed.
Lemma fits_after qs : forall p, fits p -> fits (after qs p).
Proof.
  unfold after. induction qs as [|q qs IH]; intros p Hp; [exact Hp|]. cbn [fold_left].
  apply IH. destruct (ask_pure q) as (r & H). apply H, Hp.
Qed.
Lemma ask_history qs q : 
  fst (ask q (after qs (Poly l None None None None None None))) = fst (ask q (Poly l None None None None None None)).
Proof.
  destruct (ask_pure q) as (r & H).
  rewrite (proj1 (H _ (fits_after qs _ fits_fresh))), (proj1 (H _ fits_fresh)). reflexivity.
Qed.
End Object.
