(** The evaluation of a whole sketch. *)
From Coq Require Import String Reals List ZArith Bool Lia Lra.
From Verif Require Import Base ModelVector SpecVector ProofVector ModelLine SpecLine ModelConic SpecConic GlueConic ModelGraph ModelCounter
  ModelSketch SpecSketch GlueSketch ProofSketch ProofSketch2 ProofSketch3 ProofSketch4 ProofSketch5 ProofSketch6 ProofSketch7.
Import ListNotations.
Local Open Scope R_scope.

(** ** The number of expressions *)
Definition arity (s : sketch) : Prop := forall i o, nth_error (ops s) i = Some o -> length (o_exprs o) = snd (signature (o_kind o)).
Lemma arity_sig s s' : sigs s' = sigs s -> arity s -> arity s'.
Proof.
  intros E A i o Ho. destruct (sig_nth s' s i o (eq_sym E) Ho) as (o' & Ho' & G). pose proof (A i o' Ho') as Q.
  destruct (psig_fields _ _ G) as (K & _ & _ & _ & _ & X). apply (f_equal (@length _)) in X. rewrite !map_length in X. congruence.
Qed.
Lemma add_op_well_formed a id s i : fst (add_op a id s) = Ok i -> well_formed a = true.
Proof. unfold add_op. destruct (well_formed a); [reflexivity|]. cbn. discriminate. Qed.
Lemma add_arity a id s : invariant s -> arity s -> arity (snd (add_op a id s)).
Proof.
  intros Iv A. destruct (add_op_ok a id s Iv) as (_ & E1 & E2 & _).
  pose proof (add_op_well_formed a id s) as W.
  destruct (fst (add_op a id s)) as [n|e].
  - destruct (E2 n eq_refl) as (-> & o & P & K & _ & X & _). specialize (W _ eq_refl). intros i p. rewrite P.
    destruct (Nat.lt_ge_cases i (length (ops s))) as [Hi|Hi].
    + rewrite nth_error_app1 by exact Hi. apply A.
    + rewrite nth_error_app2 by exact Hi. intro Hp. destruct (i - length (ops s))%nat as [|[|]]; try discriminate. injection Hp as <-.
      unfold well_formed in W. apply andb_prop in W. destruct W as [_ W]. apply Nat.eqb_eq in W.
      apply (f_equal (@length _)) in X. rewrite map_length in X. congruence.
  - destruct (E1 e eq_refl) as [P _]. unfold arity. rewrite P. exact A.
Qed.
Lemma dirty_sigs i j s : sigs (snd (set_dirty i j s)) = sigs s.
Proof.
  destruct (has_expr s i j) as [(o & x & Ho & Hx)|N].
  - unfold set_dirty, then_, the_expr. rewrite Ho, Hx, (put_expr_eq s i j o _ Ho). cbn [snd].
    apply (with_expr_frame s i j o x _ Ho Hx). reflexivity.
  - unfold set_dirty, then_, the_expr. destruct (nth_error (ops s) i) as [o|] eqn:O; [|reflexivity].
    destruct (nth_error (o_exprs o) j) as [x|] eqn:X; [destruct (N o x eq_refl X)|reflexivity].
Qed.
Lemma dirty_cache i j s : cache (snd (set_dirty i j s)) = cache s.
Proof.
  destruct (has_expr s i j) as [(o & x & Ho & Hx)|N].
  - unfold set_dirty, then_, the_expr. rewrite Ho, Hx, (put_expr_eq s i j o _ Ho). reflexivity.
  - unfold set_dirty, then_, the_expr. destruct (nth_error (ops s) i) as [o|] eqn:O; [|reflexivity].
    destruct (nth_error (o_exprs o) j) as [x|] eqn:X; [destruct (N o x eq_refl X)|reflexivity].
Qed.
Lemma happen_arity e s : invariant s -> arity s -> arity (happen e s).
Proof.
  intros Iv A. destruct e as [a id|id| |i j|i j|k]; cbn [happen].
  - exact (add_arity a id s Iv A).
  - exact A.
  - refine (arity_sig s _ _ A). apply (eval_ops_ok (length (ops s)) 0 s Iv); [lia|]. intros; lia.
  - refine (arity_sig s _ _ A). apply (safe_value i j s).
  - refine (arity_sig s _ _ A). apply dirty_sigs.
  - exact A.
Qed.
Lemma history_both l : forall s, invariant s -> arity s -> invariant (history l s) /\ arity (history l s).
Proof.
  induction l as [|e l IH]; intros s Iv A; [auto|]. apply IH; [apply happen_invariant|apply happen_arity]; assumption.
Qed.
Lemma new_arity c m : arity (new_sketch c m).
Proof. intros i o H. destruct i; discriminate. Qed.

(** ** One operation *)
Lemma at_ref_ext s s' o o' k p : o_refs o' = o_refs o ->
  (forall j, In j (o_refs o) -> nth_error (ops s') j = nth_error (ops s) j) -> at_ref s o k p -> at_ref s' o' k p.
Proof.
  intros E N (j & q & H1 & H2 & H3). exists j, q. rewrite E. split; [exact H1|]. split; [|exact H3].
  rewrite N; [exact H2|exact (nth_error_In _ _ H1)].
Qed.
Lemma placed_ext s s' o o' :
  o_kind o' = o_kind o -> o_refs o' = o_refs o -> o_exprs o' = o_exprs o -> o_vector o' = o_vector o -> o_controls o' = o_controls o ->
  (forall j, In j (o_refs o) -> nth_error (ops s') j = nth_error (ops s) j) -> placed s o -> placed s' o'.
Proof.
  intros E1 E2 E3 E4 E5 N. unfold placed. rewrite E1, E4, E5.
  assert (A : forall k x, at_expr o k x -> at_expr o' k x) by (intros k x; unfold at_expr; rewrite E3; auto).
  assert (Q : forall k p, at_ref s o k p -> at_ref s' o' k p) by (intros k p; apply at_ref_ext; assumption).
  destruct (o_kind o); try exact (fun x => x).
  - intros (x & y & H1 & H2 & H3). exists x, y. auto 10.
  - intros (a & b & l & p & H1 & H2 & H3 & H4). exists a, b, l, p. auto 10.
  - intros (a & b & l & p & H1 & H2 & H3 & H4). exists a, b, l, p. auto 10.
  - intros (a & b & c & d & H1 & H2 & H3 & H4 & H5). exists a, b, c, d. auto 10.
  - intros (a & b & c & d & p & H1 & H2 & H3 & H4 & H5). exists a, b, c, d, p. rewrite E3. 
    split; [auto|]. split; [auto|]. split; [|auto]. destruct H3; auto 10.
  - intros (a & b & c & d & H1 & H2 & H3 & H4 & H5). exists a, b, c, d. auto 10.
  - intros (a & b & H1 & H2 & H3). exists a, b. auto 10.
  - intros (a & b & c & d & e & f & p & q & H1 & H2 & H3 & H4 & H5 & H6 & H7). exists a, b, c, d, e, f, p, q. auto 10.
Qed.
Lemma own_segment_ext s s' o o' v : o_kind o' = o_kind o -> o_refs o' = o_refs o ->
  (forall j, In j (o_refs o) -> nth_error (ops s') j = nth_error (ops s) j) -> own_segment s o v -> own_segment s' o' v.
Proof.
  intros E1 E2 N (K & a & b & H1 & H2 & H3). split; [rewrite E1; exact K|]. exists a, b.
  split; [exact (at_ref_ext _ _ _ _ _ _ E2 N H1)|]. split; [exact (at_ref_ext _ _ _ _ _ _ E2 N H2)|exact H3].
Qed.

(** The state in which the expressions of the operation are evaluated *)
Definition registered (i : nat) (o : op) (s : sketch) : sketch :=
  if is_point (o_kind o) then set_points ((o_name o, i) :: points s) s else s.
Lemma registered_ops i o s : ops (registered i o s) = ops s.
Proof. unfold registered. destruct (is_point _); reflexivity. Qed.
Lemma registered_segment i o s : segment (registered i o s) = segment s.
Proof. unfold registered. destruct (is_point _); reflexivity. Qed.

Lemma named_refs_ok o s r s' : named_refs o s = (Ok r, s') -> s' = s.
Proof. unfold named_refs. destruct (forallb _ _); congruence. Qed.
Lemma point_evaluated i s o0 s' : nth_error (ops s) i = Some o0 -> (forall j, In j (o_refs o0) -> j <> i) ->
  length (o_exprs o0) = snd (signature (o_kind o0)) -> eval_point i o0 s = (Ok tt, s') ->
  exists o, evaluated i (registered i o0 s) o0 s' o.
Proof.
  intros Ho Rf Ar H. unfold eval_point in H. unfold registered. destruct (is_point (o_kind o0)) eqn:K.
  - step H. unfold modify in E. injection E as _ <-. step H. apply named_refs_ok in E. subst. 
    apply internal_ok; [exact Ho|exact Rf|exact Ar|]. rewrite <- H. reflexivity.
  - destruct (o_kind o0) eqn:K'; try discriminate K.
    + apply returns_inv in H. destruct H as [_ ->]. apply passive; [exact Ho|rewrite K'; exact Ar|auto|reflexivity].
    + apply returns_inv in H. destruct H as [_ ->]. apply passive; [exact Ho|rewrite K'; exact Ar|auto|reflexivity].
    + step H. apply named_refs_ok in E. subst. apply internal_ok; [exact Ho|exact Rf|rewrite K'; exact Ar|exact H].
Qed.

Lemma op_evaluated i s s' o0 : invariant s -> arity s -> nth_error (ops s) i = Some o0 ->
  (forall k p, (k < i)%nat -> nth_error (ops s) k = Some p -> compiled p) ->
  eval_op i s = (Ok tt, s') ->
  points s' = points (registered i o0 s) /\ cache s' = cache s /\ (segment s = None -> segment s' = None) /\
  (forall k, k <> i -> nth_error (ops s') k = nth_error (ops s) k) /\
  exists o, nth_error (ops s') i = Some o /\ psig o = psig o0 /\ placed s' o /\
    forall j e, nth_error (o_exprs o) j = Some e ->
     exists x, nth_error (o_exprs o0) j = Some x /\ x_source x = x_source e /\
     (x_value e = None -> o_kind o = KNormal /\ j = 0%nat /\ x_error e = true) /\
     (fresh x -> segment s = None -> forall w, x_value e = Some w ->
        exists sg, evaluate (set_segment sg (registered i o0 s)) (x_source e) = Ok w /\ (forall v, sg = Some v -> own_segment s' o v)).
Proof.
  intros Iv Ar Ho C H.
  assert (Rf : forall j, In j (o_refs o0) -> j <> i).
  { intros j J. pose proof (st_refs _ (proj1 Iv) i o0 j Ho J). lia. }
  rewrite (eval_op_eq i s o0 Ho) in H. step H. destruct r.
  destruct (point_evaluated i s o0 s0 Ho Rf (Ar i o0 Ho) E) as (o1 & [V1 V2 V3 V4 V5 V6 V7]).
  pose proof (eval_point_ok i s o0 Iv Ho C) as [I1 _]. rewrite E in I1. cbn in I1.
  step H. unfold the_op in E0. rewrite V1 in E0. injection E0 as <- <-.
  destruct (connect_expressions_ok i (o_exprs o1) s0 o1 I1 V1 (incl_refl _)) as (_ & _ & D3 & _ & _ & D6 & D7 & D8 & (m & D9) & _).
  rewrite H in D3, D6, D7, D8, D9. cbn in D3, D6, D7, D8, D9.
  destruct V2 as (_ & _ & _ & W1 & W2 & _ & W3). rewrite registered_ops in W3. rewrite registered_segment in V6, V7.
  assert (Rf1 : forall j, In j (o_refs o1) -> nth_error (ops s') j = nth_error (ops s0) j).
  { intros j J. apply D8. apply Rf. destruct (psig_fields _ _ V3) as (_ & _ & _ & _ & R' & _). rewrite <- R'. exact J. }
  split; [congruence|]. split; [rewrite D6, W2; unfold registered; destruct (is_point _); reflexivity|].
  split; [intro Sn; rewrite D7; exact (V6 Sn)|]. split; [intros k K; rewrite (D8 k K); exact (W3 k K)|].
  exists (add_dependencies m o1). split; [exact D9|]. split; [exact V3|]. split.
  - exact (placed_ext s0 s' o1 _ eq_refl eq_refl eq_refl eq_refl eq_refl Rf1 V5).
  - intros j e Hj. destruct (V7 j e Hj) as (x & X1 & X2 & X3 & X4). exists x. split; [exact X1|]. split; [exact X2|]. split; [exact X3|].
    intros Fr Sn w Hw. destruct (X4 Fr Sn w Hw) as (sg & G1 & G2). exists sg. split; [exact G1|].
    intros v Hv. exact (own_segment_ext s0 s' o1 _ v eq_refl eq_refl Rf1 (G2 v Hv)).
Qed.

(** ** C33: every operation is at its place *)
Lemma eval_ops_placed n : forall i s s', invariant s -> arity s -> (i + n <= length (ops s))%nat ->
  (forall k p, (k < i)%nat -> nth_error (ops s) k = Some p -> recorded p) ->
  (forall k p, (k < i)%nat -> nth_error (ops s) k = Some p -> placed s p) ->
  eval_ops (seq i n) s = (Ok tt, s') ->
  forall k p, (k < i + n)%nat -> nth_error (ops s') k = Some p -> placed s' p.
Proof.
  induction n as [|n IH]; intros i s s' Iv A L C P H.
  - cbn in H. injection H as <-. intros k p K. apply P. lia.
  - cbn [seq eval_ops] in H. step H. destruct r.
    destruct (nth_error (ops s) i) as [o0|] eqn:Ho; [|apply nth_error_None in Ho; lia].
    assert (C' : forall k p, (k < i)%nat -> nth_error (ops s) k = Some p -> compiled p) by (intros k p K Hp; exact (recorded_compiled p (C k p K Hp))).
    destruct (op_evaluated i s s0 o0 Iv A Ho C' E) as (_ & _ & _ & F & o & O1 & O2 & O3 & _).
    destruct (eval_op_ok i s Iv) as (A1 & (A2 & A3 & A4 & A5 & A6) & A7); [lia|exact C'|]. rewrite E in *. cbn [fst snd] in *.
    destruct (A7 eq_refl) as (o' & O4 & O5). assert (o' = o) by congruence. subst o'.
    intros k p K. apply (IH (S i) s0 s' A1 (arity_sig _ _ A5 A)); [rewrite (sig_length _ _ A5); lia| |  |exact H|lia].
    + intros k' p' K' Hp'. destruct (Nat.eq_dec k' i) as [->|N]; [replace p' with o by congruence; exact O5|].
      rewrite (F k' N) in Hp'. apply (C k' p'); [lia|exact Hp'].
    + intros k' p' K' Hp'. destruct (Nat.eq_dec k' i) as [->|N]; [replace p' with o by congruence; exact O3|].
      rewrite (F k' N) in Hp'. refine (placed_ext s s0 p' p' eq_refl eq_refl eq_refl eq_refl eq_refl _ (P k' p' ltac:(lia) Hp')).
      intros j J. apply F. pose proof (st_refs _ (proj1 Iv) k' p' j Hp' J). lia.
Qed.

Theorem all_placed l c m s' : eval_sketch (history l (new_sketch c m)) = (Ok tt, s') ->
  forall i o, nth_error (ops s') i = Some o -> placed s' o.
Proof.
  set (s := history l (new_sketch c m)).
  destruct (history_both l _ (new_sketch_invariant c m) (new_arity c m)) as [Iv A]. fold s in Iv, A.
  intros H i o Ho. apply (eval_ops_placed (length (ops s)) 0 s s' Iv A) with (k := i); try assumption; try lia.
  destruct (eval_ops_ok (length (ops s)) 0 s Iv) as (_ & _ & _ & _ & Sg & _); [lia|intros; lia|].
  unfold eval_sketch in H. rewrite H in Sg. rewrite <- (sig_length s s' Sg). apply nth_lt in Ho. exact Ho.
Qed.

(** ** C33: the value of an expression is the value of what is written *)
Lemma evaluate_means s (known : string -> R -> Prop) (where_ : string -> vec -> Prop) (current : vec -> Prop) :
  (forall n x, assoc String.eqb n (cache s) = Some x -> known n x) ->
  (forall n p, point_vector s n = Ok (Some p) -> where_ n p) ->
  (forall v, segment s = Some v -> current v) ->
  forall e w, evaluate s e = Ok w -> means known where_ current e w.
Proof.
  intros Hk Hw Hc. 
  assert (Bin : forall (r1 r2 : result R) f w, bind r1 (fun x => bind r2 (fun y => f x y)) = Ok w ->
     exists x y : R, r1 = Ok x /\ r2 = Ok y /\ f x y = Ok (w : R)).
  { intros [x|] [y|] f w E; try discriminate. exists x, y. auto. }
  induction e as [x|n|a IHa|a IHa b IHb|a IHa b IHb|a IHa b IHb|a IHa b IHb|f args]; intros w H; cbn [evaluate] in H.
  - injection H as <-. constructor.
  - destruct (assoc _ _ _) as [v|] eqn:E; [|discriminate]. injection H as <-. constructor. auto.
  - destruct (evaluate s a) as [x|]; [|discriminate]. injection H as <-. constructor. auto.
  - apply Bin in H. destruct H as (x & y & H1 & H2 & H). injection H as <-. constructor; auto.
  - apply Bin in H. destruct H as (x & y & H1 & H2 & H). injection H as <-. constructor; auto.
  - apply Bin in H. destruct H as (x & y & H1 & H2 & H). injection H as <-. constructor; auto.
  - apply Bin in H. destruct H as (x & y & H1 & H2 & H). unfold fdiv in H. destruct (Reqb_spec y 0) as [->|N]; [discriminate|].
    injection H as <-. constructor; auto.
  - assert (Two : forall (g : option vec -> option vec -> result R), 
      match args with
      | [name1; name2] => bind (point_vector s name1) (fun p1 => bind (point_vector s name2) (fun p2 => g p1 p2))
      | _ => Raise TypeError
      end = Ok w -> exists n1 n2 p1 p2, args = [n1; n2] /\ point_vector s n1 = Ok p1 /\ point_vector s n2 = Ok p2 /\ g p1 p2 = Ok w).
    { intros g. destruct args as [|n1 [|n2 [|]]]; try discriminate. 
      destruct (point_vector s n1) as [p1|] eqn:P1; [|discriminate]. destruct (point_vector s n2) as [p2|] eqn:P2; [|discriminate].
      intro G. exists n1, n2, p1, p2. auto. }
    destruct f; cbn [call] in H.
    + apply (Two (fun p1 p2 => bind (difference p2 p1) (fun v => Ok (magnitude v)))) in H.
      destruct H as (n1 & n2 & p1 & p2 & -> & P1 & P2 & H). destruct p2 as [q|]; [|discriminate]. destruct p1 as [p|]; [|discriminate].
      injection H as <-. rewrite magnitude_len. replace (len (vsub q p)) with (dist p q); [constructor; auto|].
      unfold dist, len, vsub. cbn. f_equal. ring.
    + apply (Two (fun p1 p2 => bind (difference p2 p1) orientation)) in H.
      destruct H as (n1 & n2 & p1 & p2 & -> & P1 & P2 & H). destruct p2 as [q|]; [|discriminate]. destruct p1 as [p|]; [|discriminate].
      change (orientation (vsub q p) = Ok w) in H. apply (m_angle _ _ _ n1 n2 p q); auto. intro L. 
      change (V (vx q - vx p) (vy q - vy p)) with (vsub q p) in *. destruct (orientation_ok (vsub q p)) as (t & T & Q).
      { intros [N1 N2]. unfold len in L. rewrite N1, N2 in L. replace (0 * 0 + 0 * 0) with 0 in L by ring. rewrite sqrt_0 in L. lra. }
      assert (t = w) by congruence. subst t. exact Q.
    + destruct args; [|discriminate]. destruct (segment s) as [v|] eqn:E; [|discriminate]. injection H as <-. rewrite magnitude_len. constructor. auto.
    + apply (Two (fun p1 p2 => Ok 0)) in H. destruct H as (n1 & n2 & p1 & p2 & -> & P1 & P2 & H). injection H as <-. constructor.
Qed.


Lemma means_mono (k k' : string -> R -> Prop) (l l' : string -> vec -> Prop) (c c' : vec -> Prop) :
  (forall n x, k n x -> k' n x) -> (forall n p, l n p -> l' n p) -> (forall v, c v -> c' v) ->
  forall e w, means k l c e w -> means k' l' c' e w.
Proof. intros Hk Hl Hc e w M. induction M; econstructor; eauto. Qed.
Lemma located_ext s s' i n p : (forall k, (k <= i)%nat -> nth_error (ops s') k = nth_error (ops s) k) ->
  located s i n p -> located s' i n p.
Proof.
  intros F (j & q & (L & D & N) & Q & V0). exists j, q. split; [|split; [rewrite F by exact L; exact Q|exact V0]].
  split; [exact L|]. split; [rewrite F by exact L; exact D|]. intros k p' K. rewrite F by lia. apply N, K.
Qed.
Lemma explained_ext s s' i o : cache s' = cache s -> (forall k, (k <= i)%nat -> nth_error (ops s') k = nth_error (ops s) k) ->
  (forall j, In j (o_refs o) -> (j < i)%nat) -> explained s i o -> explained s' i o.
Proof.
  intros Ec F Rf X j e Hj. destruct (X j e Hj) as [(w & W & M)|Q]; [left|right; exact Q]. exists w. split; [exact W|].
  refine (means_mono _ _ _ _ _ _ _ _ _ _ _ M).
  - rewrite Ec. auto.
  - intros n p. apply located_ext, F.
  - intros v. apply own_segment_ext; auto. intros k K. apply F. specialize (Rf k K). lia.
Qed.

(** The points registered before the operation [i]. *)
Definition known_points (s : sketch) (i : nat) : Prop :=
  forall name j, assoc String.eqb name (points s) = Some j ->
  (j < i)%nat /\ named s j name /\ forall k, (j < k < i)%nat -> ~ named s k name.

Lemma eval_ops_explained n : forall i s s', invariant s -> arity s -> (i + n <= length (ops s))%nat ->
  (forall k p, (k < i)%nat -> nth_error (ops s) k = Some p -> recorded p) ->
  (forall k p, (k < i)%nat -> nth_error (ops s) k = Some p -> explained s k p) ->
  (forall k p, (i <= k)%nat -> nth_error (ops s) k = Some p -> o_vector p = None /\ forall x, In x (o_exprs p) -> fresh x) ->
  segment s = None -> known_points s i ->
  eval_ops (seq i n) s = (Ok tt, s') ->
  forall k p, (k < i + n)%nat -> nth_error (ops s') k = Some p -> explained s' k p.
Proof.
  induction n as [|n IH]; intros i s s' Iv A L C X Fr Sn Kp H.
  - cbn in H. injection H as <-. intros k p K. apply X. lia.
  - cbn [seq eval_ops] in H. step H. destruct r.
    destruct (nth_error (ops s) i) as [o0|] eqn:Ho; [|apply nth_error_None in Ho; lia].
    assert (C' : forall k p, (k < i)%nat -> nth_error (ops s) k = Some p -> compiled p) by (intros k p K Hp; exact (recorded_compiled p (C k p K Hp))).
    destruct (op_evaluated i s s0 o0 Iv A Ho C' E) as (Pt & Ca & Sn' & F & o & O1 & O2 & O3 & O6). specialize (Sn' Sn).
    destruct (eval_op_ok i s Iv) as (A1 & (A2 & A3 & A4 & A5 & A6) & A7); [lia|exact C'|]. rewrite E in *. cbn [fst snd] in *.
    destruct (A7 eq_refl) as (o' & O4 & O5). assert (o' = o) by congruence. subst o'.
    destruct (psig_fields _ _ O2) as (G1 & _ & G3 & _ & G5 & _). destruct (Fr i o0 (le_n i) Ho) as [Vn Xf].
    assert (Kp1 : known_points s0 (S i)).
    { intros name j Hj. rewrite Pt in Hj. unfold registered in Hj.
      destruct (is_point (o_kind o0)) eqn:K.
      - cbn in Hj. destruct (String.eqb_spec name (o_name o0)) as [->|N].
        + injection Hj as <-. split; [lia|]. split; [exists o; split; [exact O1|]; split; congruence|]. intros; lia.
        + destruct (Kp name j Hj) as (K1 & K2 & K3). split; [lia|]. split; [exact (named_sig s s0 j name A5 K2)|].
          intros k Hk Q. destruct (Nat.eq_dec k i) as [->|Nk].
          * destruct Q as (q & Q1 & _ & Q2). assert (q = o) by congruence. subst q. apply N. congruence.
          * apply (K3 k); [lia|]. exact (named_sig s0 s k name (eq_sym A5) Q).
      - destruct (Kp name j Hj) as (K1 & K2 & K3). split; [lia|]. split; [exact (named_sig s s0 j name A5 K2)|].
          intros k Hk Q. destruct (Nat.eq_dec k i) as [->|Nk].
          * destruct Q as (q & Q1 & Q3 & _). assert (q = o) by congruence. subst q. congruence.
          * apply (K3 k); [lia|]. exact (named_sig s0 s k name (eq_sym A5) Q). }
    intros k p K. apply (IH (S i) s0 s' A1 (arity_sig _ _ A5 A)); [rewrite (sig_length _ _ A5); lia| | | |exact Sn'|exact Kp1|exact H|lia].
    + intros k' p' K' Hp'. destruct (Nat.eq_dec k' i) as [->|N]; [replace p' with o by congruence; exact O5|].
      rewrite (F k' N) in Hp'. apply (C k' p'); [lia|exact Hp'].
    + intros k' p' K' Hp'. destruct (Nat.eq_dec k' i) as [->|N].
      * assert (p' = o) by congruence. subst p'. intros j e Hj. destruct (O6 j e Hj) as (x & X1 & X2 & X3 & X4).
        destruct (x_value e) as [w|] eqn:W; [left|right; destruct (X3 eq_refl) as (? & ? & ?); auto].
        exists w. split; [reflexivity|]. destruct (X4 (Xf x (nth_error_In _ _ X1)) Sn w eq_refl) as (sg & S1 & S2).
        apply (evaluate_means (set_segment sg (registered i o0 s))); [..|exact S1].
        -- intros nm y. rewrite Ca. unfold registered. destruct (is_point _); auto.
        -- intros nm q Hq. unfold point_vector in Hq. cbn [points set_segment ops] in Hq. rewrite <- Pt, registered_ops in Hq.
           destruct (assoc _ _ _) as [jj|] eqn:As; [|discriminate]. destruct (nth_error (ops s) jj) as [pp|] eqn:Pp; [|discriminate].
           injection Hq as Hq. destruct (Kp1 nm jj As) as (L1 & L2 & L3).
           assert (Ne : jj <> i) by (intros ->; congruence). exists jj, pp. split; [|split; [rewrite F by exact Ne; exact Pp|exact Hq]].
           split; [lia|]. split; [exact L2|]. intros kk pp' Hkk Hp2 Hp3 Hp4. apply (L3 kk); [lia|]. exists pp'. auto.
        -- intros v Hv. exact (S2 v Hv).
      * rewrite (F k' N) in Hp'. apply (explained_ext s s0 k' p' Ca); [intros q Hq; apply F; lia| |apply X; [lia|exact Hp']].
        intros j J. exact (st_refs _ (proj1 Iv) k' p' j Hp' J).
    + intros k' p' K' Hp'. rewrite F in Hp' by lia. apply (Fr k' p'); [lia|exact Hp'].
Qed.

(** A sketch which was built and never evaluated *)
Definition unread (s : sketch) : Prop :=
  points s = [] /\ segment s = None /\
  forall k p, nth_error (ops s) k = Some p -> o_vector p = None /\ forall x, In x (o_exprs p) -> fresh x.
Lemma quiet_unread e s : invariant s -> quiet e -> unread s -> unread (happen e s).
Proof.
  intros Iv Q (P & Sg & U). destruct e as [a id|id| |i j|i j|k]; try contradiction; cbn [happen].
  - destruct (add_op_ok a id s Iv) as (_ & E1 & E2 & E3 & E4 & _). split; [congruence|]. split; [congruence|].
    destruct (fst (add_op a id s)) as [n|e].
    + destruct (E2 n eq_refl) as (-> & o & O & _ & _ & _ & _ & Vn & X). rewrite O. intros k p Hk.
      destruct (Nat.lt_ge_cases k (length (ops s))) as [Hi|Hi].
      * rewrite nth_error_app1 in Hk by exact Hi. exact (U k p Hk).
      * rewrite nth_error_app2 in Hk by exact Hi. destruct (k - length (ops s))%nat as [|[|]]; try discriminate. injection Hk as <-.
        split; [exact Vn|]. intros x Hx. rewrite (X x Hx). split; reflexivity.
    + destruct (E1 e eq_refl) as [O _]. rewrite O. exact U.
  - exact (conj P (conj Sg U)).
  - exact (conj P (conj Sg U)).
Qed.
Lemma history_unread l : Forall quiet l -> forall s, invariant s -> unread s -> unread (history l s).
Proof.
  induction 1 as [|e l Q _ IH]; intros s Iv U; [exact U|]. apply IH; [apply happen_invariant, Iv|apply quiet_unread; assumption].
Qed.

Lemma history_cache l : forall s, invariant s -> cache (history l s) = cache s.
Proof.
  induction l as [|e l IH]; intros s Iv; [reflexivity|]. change (history (e :: l) s) with (history l (happen e s)).
  rewrite IH by (apply happen_invariant, Iv). destruct e as [a id|id| |i j|i j|k]; cbn [happen]; try reflexivity.
  - apply (add_op_ok a id s Iv).
  - apply (eval_ops_ok (length (ops s)) 0 s Iv); [lia|]. intros; lia.
  - apply (safe_value i j s).
  - apply dirty_cache.
Qed.
Theorem all_explained l c m s' : Forall quiet l -> eval_sketch (history l (new_sketch c m)) = (Ok tt, s') ->
  cache s' = m /\ forall i o, nth_error (ops s') i = Some o -> explained s' i o.
Proof.
  intro Q. set (s := history l (new_sketch c m)).
  destruct (history_both l _ (new_sketch_invariant c m) (new_arity c m)) as [Iv A]. fold s in Iv, A.
  destruct (history_unread l Q (new_sketch c m) (new_sketch_invariant c m)) as (P & Sg & U).
  { split; [reflexivity|]. split; [reflexivity|]. intros k p H. destruct k; discriminate. }
  fold s in P, Sg, U. intro H.
  destruct (eval_ops_ok (length (ops s)) 0 s Iv) as (_ & _ & _ & Ca & Si & _); [lia|intros; lia|].
  unfold eval_sketch in H. rewrite H in Si, Ca. cbn in Si, Ca. split.
  - rewrite Ca. exact (history_cache l (new_sketch c m) (new_sketch_invariant c m)).
  - intros i o Ho. apply (eval_ops_explained (length (ops s)) 0 s s' Iv A) with (k := i); try assumption; try lia.
    + intros k p _. apply U.
    + intros name j Hj. rewrite P in Hj. discriminate.
    + rewrite <- (sig_length s s' Si). apply nth_lt in Ho. exact Ho.
Qed.
