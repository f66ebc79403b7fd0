(** The evaluation places the points. *)
From Coq Require Import String Reals List ZArith Bool Lia Lra.
From Verif Require Import Base ModelVector SpecVector ProofVector ModelLine SpecLine ProofLine ModelConic SpecConic GlueConic ProofConic2
  ModelSketch SpecSketch GlueSketch ProofSketch ProofSketch2 ProofSketch3.
Import ListNotations.
Local Open Scope R_scope.

Definition fresh (x : expression) : Prop := x_value x = None /\ x_error x = false.
Definition alike (o o' : op) : Prop := psig o' = psig o /\ o_vector o' = o_vector o /\ o_controls o' = o_controls o /\
  o_dependencies o' = o_dependencies o.

(** One value: the operation [i] gets the value of its expression [j]. *)
Lemma value_step s i j o v s' : nth_error (ops s) i = Some o -> value i j s = (Ok v, s') ->
  exists o' x e, nth_error (ops s') i = Some o' /\ frame i s s' /\ same_vectors s s' /\ alike o o' /\
    nth_error (o_exprs o) j = Some x /\ nth_error (o_exprs o') j = Some e /\ x_source e = x_source x /\
    x_value e = v /\ (v = None -> x_error e = true) /\
    (fresh x -> forall w, v = Some w -> evaluate s (x_source x) = Ok w) /\
    (forall k, k <> j -> nth_error (o_exprs o') k = nth_error (o_exprs o) k).
Proof.
  intros Ho E. pose proof (safe_value i j s) as [_ F]. rewrite E in F. cbn [snd] in F.
  destruct (nth_error (o_exprs o) j) as [x|] eqn:Hx.
  2:{ destruct (value_none s i j) as [_ (e & W)]; [intros o1 x1 H1 H2; congruence|]. rewrite E in W. discriminate. }
  rewrite (value_eq s i j o x Ho Hx) in E.
  assert (K : forall v0, Ok v0 = Ok v -> s = s' -> x_value x = v0 -> (v0 = None -> x_error x = true) -> ~ fresh x ->
    exists o' x0 e, nth_error (ops s') i = Some o' /\ frame i s s' /\ same_vectors s s' /\ alike o o' /\
    Some x = Some x0 /\ nth_error (o_exprs o') j = Some e /\ x_source e = x_source x0 /\
    x_value e = v /\ (v = None -> x_error e = true) /\
    (fresh x0 -> forall w, v = Some w -> evaluate s (x_source x0) = Ok w) /\
    (forall k, k <> j -> nth_error (o_exprs o') k = nth_error (o_exprs o) k)).
  { intros v0 H1 H2 H3 H4 H5. injection H1 as ->. subst s'. exists o, x, x. repeat split; auto. intros w; contradiction. }
  destruct (x_value x) as [v0|] eqn:Xv.
  { injection E as E1 E2. apply (K (Some v0)); [congruence|exact E2|reflexivity|discriminate|intros [Q _]; congruence]. }
  destruct (x_error x) eqn:Xe.
  { injection E as E1 E2. apply (K None); [congruence|exact E2|reflexivity|auto|intros [_ Q]; congruence]. }
  clear K. destruct (match x_dependencies x with Some d => Ok d | None => visit_expr s (x_source x) end) as [d|e]; [|discriminate].
  assert (K : forall e, x_source e = x_source x -> x_value e = v -> (v = None -> x_error e = true) -> with_expr s i j o e = s' ->
    (forall w, v = Some w -> evaluate s (x_source x) = Ok w) ->
    exists o' x0 e, nth_error (ops s') i = Some o' /\ frame i s s' /\ same_vectors s s' /\ alike o o' /\
    Some x = Some x0 /\ nth_error (o_exprs o') j = Some e /\ x_source e = x_source x0 /\
    x_value e = v /\ (v = None -> x_error e = true) /\
    (fresh x0 -> forall w, v = Some w -> evaluate s (x_source x0) = Ok w) /\
    (forall k, k <> j -> nth_error (o_exprs o') k = nth_error (o_exprs o) k)).
  { intros e H1 H2 H3 H4 H5. subst s'. exists (set_exprs (update j e (o_exprs o)) o), x, e.
    split; [exact (nth_error_update_eq _ _ _ _ _ Ho)|]. split; [exact F|]. split; [exact (with_expr_vectors s i j o e Ho)|].
    split. { split; [|repeat split]. unfold psig; cbn. rewrite (map_source_update _ j e x Hx H1). reflexivity. }
    split; [reflexivity|]. split; [exact (nth_error_update_eq _ _ _ _ _ Hx)|]. split; [exact H1|]. split; [exact H2|].
    split; [exact H3|]. split; [intros _; exact H5|]. intros k N. cbn. apply nth_error_update_neq. auto. }
  destruct (evaluate s (x_source x)) as [w|[]] eqn:Ev; try discriminate E; injection E as E1 E2.
  - apply (K (Expr (x_source x) (Some d) (Some w) false)); [reflexivity|exact E1|intro; congruence|exact E2|].
    intros w' Hw. congruence.
  - apply (K (Expr (x_source x) (Some d) None true)); [reflexivity|exact E1|reflexivity|exact E2|].
    intros w' Hw. congruence.
Qed.

Lemma alike_refl o : alike o o.
Proof. repeat split. Qed.
Lemma alike_trans a b c : alike a b -> alike b c -> alike a c.
Proof. intros (A1 & A2 & A3 & A4) (B1 & B2 & B3 & B4). repeat split; congruence. Qed.
Lemma same_vectors_refl s : same_vectors s s.
Proof. repeat split. Qed.
Lemma same_vectors_trans a b c : same_vectors a b -> same_vectors b c -> same_vectors a c.
Proof. intros (A1 & A2 & A3 & A4) (B1 & B2 & B3 & B4). repeat split; congruence. Qed.
Lemma segment_vectors s s' v : same_vectors s s' -> same_vectors (set_segment v s) (set_segment v s').
Proof. intros (A1 & A2 & A3 & A4). repeat split; assumption. Qed.

(** In the middle of the evaluation of the operation [i], which was [o0] in the state [s0], with the
    current segment [sg]: what has been obtained in the state [s] *)
Record midway (i : nat) (s0 : sketch) (o0 : op) (sg : option vec) (s : sketch) (o : op) (done : nat -> Prop) : Prop := {
  mw_op : nth_error (ops s) i = Some o;
  mw_alike : alike o0 o;
  mw_frame : frame i s0 s;
  mw_vectors : same_vectors (set_segment sg s0) s;
  mw_done : forall j e, done j -> nth_error (o_exprs o) j = Some e ->
     (x_value e = None -> x_error e = true) /\
     exists x, nth_error (o_exprs o0) j = Some x /\ x_source x = x_source e /\
       (fresh x -> forall w, x_value e = Some w -> evaluate (set_segment sg s0) (x_source e) = Ok w);
  mw_todo : forall j, ~ done j -> nth_error (o_exprs o) j = nth_error (o_exprs o0) j }.

Lemma midway_start i s o sg : nth_error (ops s) i = Some o -> midway i s o sg (set_segment sg s) o (fun _ => False).
Proof.
  intro H. constructor; [exact H|apply alike_refl|repeat split|apply same_vectors_refl|intros j e []|reflexivity].
Qed.
Lemma midway_value i s0 o0 sg s o done j v s' : midway i s0 o0 sg s o done -> ~ done j -> value i j s = (Ok v, s') ->
  exists o', midway i s0 o0 sg s' o' (fun k => k = j \/ done k) /\
    (exists e, nth_error (o_exprs o') j = Some e /\ x_value e = v /\ (v = None -> x_error e = true)) /\
    (forall k, k <> j -> nth_error (o_exprs o') k = nth_error (o_exprs o) k).
Proof.
  intros M Nd E. destruct (value_step s i j o v s' (mw_op _ _ _ _ _ _ _ M) E)
    as (o' & x & e & H1 & H2 & H3 & H4 & H5 & H6 & H7 & H8 & H9 & H10 & H11).
  exists o'. split; [|split; [exists e; auto|exact H11]]. constructor.
  - exact H1.
  - exact (alike_trans _ _ _ (mw_alike _ _ _ _ _ _ _ M) H4).
  - exact (frame_trans _ _ _ _ (mw_frame _ _ _ _ _ _ _ M) H2).
  - exact (same_vectors_trans _ _ _ (mw_vectors _ _ _ _ _ _ _ M) H3).
  - intros k e' [->|D] Hk.
    + assert (e' = e) by congruence. subst e'. split; [rewrite H8; exact H9|].
      rewrite (mw_todo _ _ _ _ _ _ _ M j Nd) in H5. exists x. split; [exact H5|]. split; [congruence|].
      intros Fr w Hw. rewrite H7. rewrite <- (evaluate_same _ _ _ (mw_vectors _ _ _ _ _ _ _ M)).
      apply (H10 Fr w). congruence.
    + assert (N : k <> j) by (intro; subst; contradiction). rewrite (H11 k N) in Hk. exact (mw_done _ _ _ _ _ _ _ M k e' D Hk).
  - intros k Nk. rewrite H11 by tauto. apply (mw_todo _ _ _ _ _ _ _ M). tauto.
Qed.
Lemma midway_number i s0 o0 sg s o done j v s' : midway i s0 o0 sg s o done -> ~ done j -> number i j s = (Ok v, s') ->
  exists o', midway i s0 o0 sg s' o' (fun k => k = j \/ done k) /\ at_expr o' j v /\
    (forall k, k <> j -> nth_error (o_exprs o') k = nth_error (o_exprs o) k).
Proof.
  intros M Nd E. unfold number in E. apply then_inv in E. destruct E as (w & s1 & E1 & E2). unfold returns in E2.
  destruct w as [w|]; [|discriminate]. injection E2 as -> <-.
  destruct (midway_value i s0 o0 sg s o done j (Some v) s1 M Nd E1) as (o' & M' & (e & X & Y & _) & K).
  exists o'. split; [exact M'|]. split; [exists e; auto|exact K].
Qed.

(** The references are other operations, evaluated before. *)
Lemma ref_vector_ok o k s v s' : ref_vector o k s = (Ok v, s') -> s' = s /\ exists j p,
  nth_error (o_refs o) k = Some j /\ nth_error (ops s) j = Some p /\ o_vector p = v.
Proof.
  unfold ref_vector. destruct (nth_error (o_refs o) k) as [j|]; [|discriminate].
  destruct (nth_error (ops s) j) as [p|] eqn:P; [|discriminate]. destruct (is_point (o_kind p)); [|discriminate].
  intro E. injection E as <- <-. eauto 6.
Qed.
Lemma at_ref_frame i s s' o o' k a : frame i s s' -> (forall j, In j (o_refs o) -> j <> i) -> o_refs o' = o_refs o ->
  at_ref s o k a -> at_ref s' o' k a.
Proof.
  intros (_ & _ & _ & _ & _ & _ & F) N E (j & q & H1 & H2 & H3). exists j, q. rewrite E. split; [exact H1|]. split; [|exact H3].
  rewrite F; [exact H2|]. apply N. exact (nth_error_In _ _ H1).
Qed.
Lemma alike_refs o o' : alike o o' -> o_refs o' = o_refs o /\ o_kind o' = o_kind o.
Proof. intros (A & _). destruct (psig_fields _ _ A) as (? & _ & _ & _ & ? & _). auto. Qed.

(** What is obtained when the evaluation of the operation succeeds. *)
Record evaluated (i : nat) (s0 : sketch) (o0 : op) (s : sketch) (o : op) : Prop := {
  ev_op : nth_error (ops s) i = Some o;
  ev_frame : frame i s0 s;
  ev_psig : psig o = psig o0;
  ev_deps : o_dependencies o = o_dependencies o0;
  ev_placed : placed s o;
  ev_segment : segment s0 = None -> segment s = None;
  ev_done : forall j e, nth_error (o_exprs o) j = Some e ->
     exists x, nth_error (o_exprs o0) j = Some x /\ x_source x = x_source e /\
     (x_value e = None -> o_kind o = KNormal /\ j = 0%nat /\ x_error e = true) /\
     (fresh x -> segment s0 = None -> forall w, x_value e = Some w ->
        exists sg, evaluate (set_segment sg s0) (x_source e) = Ok w /\ (forall v, sg = Some v -> own_segment s o v)) }.

(** The end of an evaluation: the vector or the control points are assigned. *)
Lemma put_op_eq s i o f : nth_error (ops s) i = Some o -> put_op i f s = (Ok tt, set_ops (update i (f o) (ops s)) s).
Proof. intro H. unfold put_op, modify. rewrite H. reflexivity. Qed.

Lemma finish i s0 o0 sg s o done f : midway i s0 o0 sg s o done ->
  (forall o, psig (f o) = psig o) -> (forall o, o_dependencies (f o) = o_dependencies o) -> (forall o, o_exprs (f o) = o_exprs o) ->
  (forall j, (j < length (o_exprs o0))%nat -> done j) ->
  (forall j e, nth_error (o_exprs o) j = Some e -> x_value e = None -> o_kind o0 = KNormal /\ j = 0%nat) ->
  (segment s0 = None -> forall v, sg = Some v -> (o_kind o0 = KAlong \/ o_kind o0 = KNormal) /\
      exists a b, at_ref s o 0 a /\ at_ref s o 1 b /\ v = vsub b a) ->
  (forall j, In j (o_refs o0) -> j <> i) ->
  let s1 := set_ops (update i (f o) (ops s)) s in
  placed s1 (f o) ->
  forall s2, (s2 = s1 /\ sg = segment s0 \/ s2 = set_segment None s1) -> evaluated i s0 o0 s2 (f o).
Proof.
  intros M F1 F2 F3 D Nn Sg Rf s1 P s2 S2. destruct M as [M1 M2 M3 M4 M5 M6].
  destruct M2 as (A1 & A2 & A3 & A4).
  assert (Fr : frame i s s1) by exact (put_frame s i o (f o) M1 (F1 o)).
  assert (Fr2 : frame i s1 s2) by (destruct S2 as [[-> _]| ->]; [apply frame_refl|repeat split]).
  assert (Op : ops s2 = ops s1) by (destruct S2 as [[-> _]| ->]; reflexivity).
  destruct (psig_fields _ _ A1) as (K1 & _ & _ & _ & R1 & X1). destruct (psig_fields _ _ (F1 o)) as (K2 & _ & _ & _ & R2 & _).
  constructor.
  - rewrite Op. exact (nth_error_update_eq _ _ _ _ _ M1).
  - exact (frame_trans _ _ _ _ M3 (frame_trans _ _ _ _ Fr Fr2)).
  - rewrite F1. exact A1.
  - rewrite F2. exact A4.
  - unfold placed in *. unfold at_ref in *. rewrite Op. exact P.
  - intro N. destruct S2 as [[-> E]| ->]; [|reflexivity]. destruct M4 as (_ & M4 & _).
    change (segment s1) with (segment s). rewrite M4. cbn. congruence.
  - intros j e Hj. rewrite F3 in Hj.
    assert (L : (j < length (o_exprs o0))%nat).
    { apply nth_lt in Hj. apply (f_equal (@length _)) in X1. rewrite !map_length in X1. lia. }
    destruct (M5 j e (D j L) Hj) as (V0 & x & Hx & Sx & Ev). exists x. split; [exact Hx|]. split; [exact Sx|]. split.
    + intro N. destruct (Nn j e Hj N) as [N1 N2]. rewrite K2, K1. auto.
    + intros Fx Ns w W. exists sg. split; [exact (Ev Fx w W)|]. intros v Hv. destruct (Sg Ns v Hv) as (Kn & a & b & Ra & Rb & ->).
      split; [rewrite K2, K1; exact Kn|]. exists a, b.
      assert (T : forall k c, at_ref s o k c -> at_ref s2 (f o) k c).
      { intros k c. apply (at_ref_frame i s s2); [exact (frame_trans _ _ _ _ Fr Fr2)| |exact R2]. rewrite R1. exact Rf. }
      split; [exact (T _ _ Ra)|]. split; [exact (T _ _ Rb)|]. reflexivity.
Qed.
