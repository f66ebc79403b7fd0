(** Invariants of sketches. *)
From Coq Require Import String Reals List ZArith Bool Lia.
From Verif Require Import Base ModelVector ModelGraph SpecGraph GlueGraph ProofGraph ModelCounter ModelSketch SpecSketch GlueSketch.
Import ListNotations.
Local Open Scope nat_scope.

(** ** Actions *)
Lemma then_inv {A B} (m : action A) (k : A -> action B) s b s' : then_ m k s = (Ok b, s') ->
  exists a s1, m s = (Ok a, s1) /\ k a s1 = (Ok b, s').
Proof. unfold then_. destruct (m s) as [[a|e] s1]; [eauto|discriminate]. Qed.
Lemma then_snd {A B} (m : action A) (k : A -> action B) s : 
  (exists a s1, m s = (Ok a, s1) /\ snd (then_ m k s) = snd (k a s1) /\ fst (then_ m k s) = fst (k a s1)) \/
  (exists e, fst (m s) = Raise e /\ snd (then_ m k s) = snd (m s) /\ fst (then_ m k s) = Raise e).
Proof. unfold then_. destruct (m s) as [[a|e] s1]; [left|right]; [exists a, s1|exists e]; auto. Qed.

(** A property of states kept by an action. *)
Definition keeps (P : sketch -> sketch -> Prop) {A} (m : action A) : Prop := forall s, P s (snd (m s)).
Definition preorder (P : sketch -> sketch -> Prop) : Prop :=
  (forall s, P s s) /\ (forall a b c, P a b -> P b c -> P a c).
Lemma keeps_returns P {A} (r : result A) : preorder P -> keeps P (returns r).
Proof. intros [H _] s. apply H. Qed.
Lemma keeps_look P : preorder P -> keeps P look.
Proof. intros [H _] s. apply H. Qed.
Lemma keeps_then P {A B} (m : action A) (k : A -> action B) : preorder P ->
  keeps P m -> (forall a, keeps P (k a)) -> keeps P (then_ m k).
Proof.
  intros [_ T] Hm Hk s. unfold then_. specialize (Hm s). destruct (m s) as [[a|e] s1]; [|exact Hm].
  exact (T _ _ _ Hm (Hk a s1)).
Qed.

(** ** The static part *)
Definition psig (o : op) := (o_kind o, o_id o, o_name o, o_node o, o_refs o, map x_source (o_exprs o)).
Definition sigs (s : sketch) := map psig (ops s).

Lemma nth_map_inv {A B} (f : A -> B) l i y : nth_error (map f l) i = Some y ->
  exists x, nth_error l i = Some x /\ f x = y.
Proof. revert i. induction l; intros [|i] H; try discriminate; [injection H as <-; exists a; split; reflexivity|exact (IHl i H)]. Qed.
Lemma nth_map {A B} (f : A -> B) l i x : nth_error l i = Some x -> nth_error (map f l) i = Some (f x).
Proof. apply map_nth_error. Qed.
Lemma map_update {A B} (f : A -> B) l i x : map f (update i x l) = update i (f x) (map f l).
Proof. revert i. induction l; intros [|i]; cbn; [..|rewrite IHl]; reflexivity. Qed.
Lemma update_same {A} (l : list A) i x : nth_error l i = Some x -> update i x l = l.
Proof. revert i. induction l; intros [|i] H; try discriminate; cbn; [injection H as ->; reflexivity|rewrite IHl; auto]. Qed.
Lemma sigs_update s i o o' : nth_error (ops s) i = Some o -> psig o' = psig o ->
  map psig (update i o' (ops s)) = sigs s.
Proof. intros H E. rewrite map_update, E. apply update_same, nth_map, H. Qed.
Lemma sig_nth s s' i o : sigs s' = sigs s -> nth_error (ops s) i = Some o ->
  exists o', nth_error (ops s') i = Some o' /\ psig o' = psig o.
Proof. intros E H. apply nth_map_inv. fold (sigs s'). rewrite E. apply nth_map, H. Qed.
Lemma sig_length s s' : sigs s' = sigs s -> length (ops s') = length (ops s).
Proof. intro E. unfold sigs in E. apply (f_equal (@length _)) in E. rewrite !map_length in E. exact E. Qed.
Lemma psig_fields o o' : psig o' = psig o -> o_kind o' = o_kind o /\ o_id o' = o_id o /\ o_name o' = o_name o /\
  o_node o' = o_node o /\ o_refs o' = o_refs o /\ map x_source (o_exprs o') = map x_source (o_exprs o).
Proof. unfold psig. intro E. injection E. intros. repeat split; assumption. Qed.

Definition named (s : sketch) (j : nat) (name : string) : Prop :=
  exists p, nth_error (ops s) j = Some p /\ is_point (o_kind p) = true /\ o_name p = name.
Definition node_of (s : sketch) (j : nat) (n : node) : Prop :=
  exists p, nth_error (ops s) j = Some p /\ o_node p = n.
Definition compiled (o : op) : Prop := forall x, In x (o_exprs o) -> x_dependencies x <> None.

Lemma named_sig s s' j n : sigs s' = sigs s -> named s j n -> named s' j n.
Proof.
  intros E (p & H & K & N). destruct (sig_nth _ _ _ _ E H) as (q & Q & F).
  destruct (psig_fields _ _ F) as (F1 & _ & F3 & _). exists q. rewrite F1, F3. auto.
Qed.
Lemma node_of_sig s s' j n : sigs s' = sigs s -> node_of s j n -> node_of s' j n.
Proof.
  intros E (p & H & K). destruct (sig_nth _ _ _ _ E H) as (q & Q & F).
  destruct (psig_fields _ _ F) as (_ & _ & _ & F4 & _). exists q. rewrite F4. auto.
Qed.
Lemma in_sources o o' x : map x_source (o_exprs o') = map x_source (o_exprs o) -> In x (o_exprs o) ->
  exists x', In x' (o_exprs o') /\ x_source x' = x_source x.
Proof.
  intros E H. apply (in_map x_source) in H. rewrite <- E in H. apply in_map_iff in H.
  destruct H as (x' & F & H). eauto.
Qed.
Lemma selfish_sig s s' n : sigs s' = sigs s -> selfish s n -> selfish s' n.
Proof.
  intros E (i & o & x & H & N & K & X & M). destruct (sig_nth _ _ _ _ E H) as (q & Q & F).
  destruct (psig_fields _ _ F) as (F1 & _ & F3 & F4 & _ & F6).
  destruct (in_sources _ _ _ F6 X) as (x' & X' & S').
  exists i, q, x'. rewrite F4, F1, F3, S'. auto.
Qed.

(** ** The invariant *)
Record statics (s : sketch) : Prop := {
  st_ids : forall i j o p, i < j -> nth_error (ops s) i = Some o -> nth_error (ops s) j = Some p ->
      (o_id o < o_id p)%Z;
  st_counter : forall i o, nth_error (ops s) i = Some o -> (o_id o <= counter s)%Z;
  st_nodes : forall i j o p, i < j -> nth_error (ops s) i = Some o -> nth_error (ops s) j = Some p ->
      o_node o < o_node p;
  st_refs : forall i o j, nth_error (ops s) i = Some o -> In j (o_refs o) -> j < i;
  st_id : forall i o, nth_error (ops s) i = Some o -> assoc key_eqb (KeyId (o_id o)) (op_dict s) = Some i;
  st_name : forall i o, nth_error (ops s) i = Some o -> is_point (o_kind o) = true ->
      (forall j, i < j -> ~ named s j (o_name o)) -> assoc key_eqb (KeyName (o_name o)) (op_dict s) = Some i;
  st_key : forall k i, assoc key_eqb k (op_dict s) = Some i ->
      match k with
      | KeyId z => exists o, nth_error (ops s) i = Some o /\ o_id o = z
      | KeyName n => named s i n
      end }.

(** What a compiled expression of the operation [i] records. *)
Definition good_expr (s : sketch) (i : nat) (x : expression) : Prop :=
  match x_dependencies x with
  | None => x_value x = None /\ x_error x = false
  | Some d =>
      (forall j, In j d -> j <= i /\ exists n, named s j n /\ measures_with (x_source x) n) /\
      (forall n, measures_with (x_source x) n -> exists j, In j d /\ named s j n)
  end.

Definition edges_ok (s : sketch) (a : agraph) : Prop :=
  (forall x y, a_edge a x y -> x < y \/ (x = y /\ selfish s x)) /\
  (forall i o j p, nth_error (ops s) i = Some o -> nth_error (ops s) j = Some p ->
     (In j (o_dependencies o) <-> a_edge a (o_node p) (o_node o))).
Record dynamics (s : sketch) : Prop := {
  dy_graph : exists a, represents (dag s) a /\
     a_ids a = map Z.of_nat (seq 0 (length (g_heap (dag s)))) /\ edges_ok s a;
  dy_nodes : forall i o, nth_error (ops s) i = Some o -> o_node o < length (g_heap (dag s));
  dy_refs : forall i o, nth_error (ops s) i = Some o -> incl (o_refs o) (o_dependencies o);
  dy_deps : forall i o j, nth_error (ops s) i = Some o -> In j (o_dependencies o) -> j < length (ops s);
  dy_exprs : forall i o x, nth_error (ops s) i = Some o -> In x (o_exprs o) -> good_expr s i x;
  dy_points : forall n j, In (n, j) (points s) -> named s j n /\
     (forall i o, i < j -> nth_error (ops s) i = Some o -> compiled o) }.

Definition invariant (s : sketch) : Prop := statics s /\ dynamics s.

Lemma statics_sig s s' : sigs s' = sigs s -> counter s' = counter s -> op_dict s' = op_dict s ->
  statics s -> statics s'.
Proof.
  intros E C D H.
  assert (B : forall i o', nth_error (ops s') i = Some o' -> exists o, nth_error (ops s) i = Some o /\ psig o = psig o')
    by (intros i o' Ho; exact (sig_nth s' s i o' (eq_sym E) Ho)).
  assert (F : forall i o', nth_error (ops s') i = Some o' -> exists o, nth_error (ops s) i = Some o /\
     o_id o = o_id o' /\ o_node o = o_node o' /\ o_refs o = o_refs o' /\ o_kind o = o_kind o' /\ o_name o = o_name o').
  { intros i o' Ho. destruct (B i o' Ho) as (o & O & G). destruct (psig_fields _ _ G) as (? & ? & ? & ? & ? & _).
    exists o. repeat split; assumption. }
  constructor.
  - intros i j o p L Ho Hp. destruct (F _ _ Ho) as (o1 & O1 & <- & _). destruct (F _ _ Hp) as (p1 & P1 & <- & _).
    exact (st_ids _ H _ _ _ _ L O1 P1).
  - intros i o Ho. destruct (F _ _ Ho) as (o1 & O1 & <- & _). rewrite C. exact (st_counter _ H _ _ O1).
  - intros i j o p L Ho Hp. destruct (F _ _ Ho) as (o1 & O1 & _ & <- & _). destruct (F _ _ Hp) as (p1 & P1 & _ & <- & _).
    exact (st_nodes _ H _ _ _ _ L O1 P1).
  - intros i o j Ho Hj. destruct (F _ _ Ho) as (o1 & O1 & _ & _ & R1 & _). rewrite <- R1 in Hj.
    exact (st_refs _ H _ _ _ O1 Hj).
  - intros i o Ho. destruct (F _ _ Ho) as (o1 & O1 & <- & _). rewrite D. exact (st_id _ H _ _ O1).
  - intros i o Ho K N. destruct (F _ _ Ho) as (o1 & O1 & _ & _ & _ & K1 & N1). rewrite D, <- N1.
    apply (st_name _ H i o1 O1); [congruence|]. intros j L Q. apply (N j L). rewrite <- N1.
    exact (named_sig s s' j _ E Q).
  - intros k i A. rewrite D in A. pose proof (st_key _ H _ _ A) as Q. destruct k as [z|n].
    + destruct Q as (o & O & Z0). destruct (sig_nth s s' i o E O) as (o' & O' & G).
      destruct (psig_fields _ _ G) as (_ & G2 & _). exists o'. split; [exact O'|congruence].
    + exact (named_sig s s' i n E Q).
Qed.

Lemma good_expr_sig s s' i x : sigs s' = sigs s -> good_expr s i x -> good_expr s' i x.
Proof.
  intros E. unfold good_expr. destruct (x_dependencies x) as [d|]; [|auto]. intros [P Q]. split.
  - intros j J. destruct (P j J) as (L & n & N & M). split; [exact L|]. exists n. split; [|exact M].
    exact (named_sig _ _ _ _ E N).
  - intros n M. destruct (Q n M) as (j & J & N). exists j. split; [exact J|]. exact (named_sig _ _ _ _ E N).
Qed.

(** An update of one operation which keeps what the invariant sees. *)
Lemma put_invariant s i o o' : invariant s -> nth_error (ops s) i = Some o -> psig o' = psig o ->
  o_dependencies o' = o_dependencies o -> (compiled o -> compiled o') ->
  (forall x, In x (o_exprs o') -> good_expr s i x) -> invariant (set_ops (update i o' (ops s)) s).
Proof.
  intros [St Dy] H E D C G. pose proof (sigs_update s i o o' H E) as S1.
  set (s' := set_ops (update i o' (ops s)) s). assert (S2 : sigs s' = sigs s) by exact S1.
  destruct (psig_fields _ _ E) as (_ & _ & _ & En & Er & _).
  assert (B : forall k p', nth_error (ops s') k = Some p' -> exists p, nth_error (ops s) k = Some p /\
     o_node p' = o_node p /\ o_refs p' = o_refs p /\ o_dependencies p' = o_dependencies p /\ (compiled p -> compiled p') /\
     (k = i /\ p' = o' \/ p' = p)).
  { intros k p' Hp. cbn in Hp. destruct (Nat.eq_dec i k) as [<-|N].
    - rewrite (nth_error_update_eq _ _ _ _ _ H) in Hp. injection Hp as <-. exists o. repeat split; auto.
    - rewrite nth_error_update_neq in Hp by exact N. exists p'. repeat split; auto. }
  split; [exact (statics_sig s s' S2 eq_refl eq_refl St)|]. constructor.
  - destruct (dy_graph _ Dy) as (a & R & I & Ea & Eb). exists a. split; [exact R|]. split; [exact I|]. split.
    + intros x y Hxy. destruct (Ea x y Hxy) as [L|[L S3]]; [auto|right]. split; [exact L|]. exact (selfish_sig _ _ _ S2 S3).
    + intros k p' j q' Hp Hq. destruct (B _ _ Hp) as (p & P1 & P2 & _ & P3 & _).
      destruct (B _ _ Hq) as (q & Q1 & Q2 & _). rewrite P2, P3, Q2. exact (Eb _ _ _ _ P1 Q1).
  - intros k p' Hp. destruct (B _ _ Hp) as (p & P1 & P2 & _). rewrite P2. exact (dy_nodes _ Dy _ _ P1).
  - intros k p' Hp. destruct (B _ _ Hp) as (p & P1 & _ & P3 & P4 & _). rewrite P3, P4. exact (dy_refs _ Dy _ _ P1).
  - intros k p' j Hp Hj. destruct (B _ _ Hp) as (p & P1 & _ & _ & P4 & _). rewrite P4 in Hj.
    rewrite (sig_length s s' S2). exact (dy_deps _ Dy _ _ _ P1 Hj).
  - intros k p' x Hp Hx. apply (good_expr_sig s s' k x S2). destruct (B _ _ Hp) as (p & P1 & _ & _ & _ & _ & [[-> ->]| ->]).
    + exact (G x Hx).
    + exact (dy_exprs _ Dy _ _ _ P1 Hx).
  - intros n j Hn. destruct (dy_points _ Dy n j Hn) as [N P]. split; [exact (named_sig _ _ _ _ S2 N)|].
    intros k p' L Hp. destruct (B _ _ Hp) as (p & P1 & _ & _ & _ & P5 & _). apply P5. exact (P k p L P1).
Qed.

Lemma segment_invariant s v : invariant s -> invariant (set_segment v s).
Proof.
  intros [St Dy]. split; [exact (statics_sig s (set_segment v s) eq_refl eq_refl eq_refl St)|]. destruct Dy. constructor; assumption.
Qed.

(** ** The value of an expression *)
Lemma update_update {A} (l : list A) i x y : update i x (update i y l) = update i x l.
Proof. revert i. induction l; intros [|i]; cbn; [..|rewrite IHl]; reflexivity. Qed.

Definition with_expr (s : sketch) (i j : nat) (o : op) (x : expression) : sketch :=
  set_ops (update i (set_exprs (update j x (o_exprs o)) o) (ops s)) s.

Definition same_vectors (s s' : sketch) : Prop :=
  points s' = points s /\ segment s' = segment s /\ cache s' = cache s /\ map o_vector (ops s') = map o_vector (ops s).
Lemma point_vector_same s s' n : same_vectors s s' -> point_vector s' n = point_vector s n.
Proof.
  intros (P & _ & _ & V0). unfold point_vector. rewrite P. destruct (assoc _ _ _) as [i|]; [|reflexivity].
  destruct (nth_error (ops s) i) as [o|] eqn:E.
  - pose proof (nth_map o_vector _ _ _ E) as F. rewrite <- V0 in F. destruct (nth_map_inv _ _ _ _ F) as (o' & -> & ->).
    reflexivity.
  - destruct (nth_error (ops s') i) as [o'|] eqn:E'; [|reflexivity].
    pose proof (nth_map o_vector _ _ _ E') as F. rewrite V0 in F. destruct (nth_map_inv _ _ _ _ F) as (o & E1 & _).
    congruence.
Qed.
Lemma evaluate_same s s' e : same_vectors s s' -> evaluate s' e = evaluate s e.
Proof.
  intro H. induction e; cbn [evaluate]; rewrite ?IHe, ?IHe1, ?IHe2; try reflexivity.
  - destruct H as (_ & _ & -> & _). reflexivity.
  - unfold call. destruct f; try (destruct args as [|n1 [|n2 [|]]]; try reflexivity;
      rewrite !(point_vector_same _ _ _ H); reflexivity).
    destruct H as (_ & -> & _). reflexivity.
Qed.
Lemma with_expr_vectors s i j o x : nth_error (ops s) i = Some o -> same_vectors s (with_expr s i j o x).
Proof.
  intro H. repeat split. cbn. rewrite map_update. apply update_same. apply (nth_map o_vector) in H. exact H.
Qed.

Lemma put_expr_eq s i j o x : nth_error (ops s) i = Some o -> put_expr i j x s = (Ok tt, with_expr s i j o x).
Proof. intro H. unfold put_expr, put_op, modify. rewrite H. reflexivity. Qed.

Lemma value_eq s i j o x : nth_error (ops s) i = Some o -> nth_error (o_exprs o) j = Some x ->
  value i j s =
  match x_value x, x_error x with
  | None, false =>
      match match x_dependencies x with Some d => Ok d | None => visit_expr s (x_source x) end with
      | Raise e => (Raise e, s)
      | Ok d =>
          match evaluate s (x_source x) with
          | Ok v => (Ok (Some v), with_expr s i j o (Expr (x_source x) (Some d) (Some v) false))
          | Raise NameError => (Ok None, with_expr s i j o (Expr (x_source x) (Some d) None true))
          | Raise e => (Raise e, with_expr s i j o (Expr (x_source x) (Some d) None false))
          end
      end
  | v, _ => (Ok v, s)
  end.
Proof.
  intros Ho Hx. unfold value. unfold then_ at 1, the_expr at 1. rewrite Ho, Hx.
  destruct (x_value x) as [v|] eqn:Ev; [reflexivity|]. destruct (x_error x) eqn:Ee; [reflexivity|].
  destruct (x_dependencies x) as [d|] eqn:Ed.
  - assert (Ex : x = Expr (x_source x) (Some d) None false) by (destruct x; cbn in *; congruence).
    assert (W : with_expr s i j o (Expr (x_source x) (Some d) None false) = s).
    { unfold with_expr. rewrite <- Ex. rewrite (update_same (o_exprs o) j x Hx).
      replace (set_exprs (o_exprs o) o) with o by (destruct o; reflexivity).
      rewrite (update_same (ops s) i o Ho). destruct s; reflexivity. }
    rewrite W. unfold then_, returns, the_expr. rewrite Ho, Hx. unfold look.
    destruct (evaluate s (x_source x)) as [v|[]]; rewrite ?(put_expr_eq s i j o _ Ho), ?Ed; reflexivity.
  - unfold then_ at 1 2 3 4, look at 1, returns at 1.
    destruct (visit_expr s (x_source x)) as [d|e]; [|reflexivity].
    rewrite (put_expr_eq s i j o _ Ho).
    set (x1 := Expr (x_source x) (Some d) None false).
    assert (Ho1 : nth_error (ops (with_expr s i j o x1)) i = Some (set_exprs (update j x1 (o_exprs o)) o))
      by (exact (nth_error_update_eq _ _ _ _ _ Ho)).
    assert (Hx1 : nth_error (o_exprs (set_exprs (update j x1 (o_exprs o)) o)) j = Some x1)
      by (exact (nth_error_update_eq _ _ _ _ _ Hx)).
    unfold then_ at 1, the_expr at 1. rewrite Ho1, Hx1. unfold then_ at 1, look.
    rewrite (evaluate_same s _ _ (with_expr_vectors s i j o x1 Ho)). cbn [x_source x1 x_dependencies].
    assert (Wx : forall x2, with_expr (with_expr s i j o x1) i j (set_exprs (update j x1 (o_exprs o)) o) x2 =
       with_expr s i j o x2).
    { intro x2. unfold with_expr. cbn [ops set_ops]. rewrite update_update. cbn [o_exprs set_exprs].
      rewrite update_update. reflexivity. }
    destruct (evaluate s (x_source x)) as [v|[]]; unfold then_; rewrite ?(put_expr_eq _ i j _ _ Ho1), ?Wx; reflexivity.
Qed.

Lemma assoc_in {B} n (d : list (string * B)) v : assoc String.eqb n d = Some v -> In (n, v) d.
Proof.
  induction d as [|[k w] d IH]; cbn; [discriminate|]. destruct (String.eqb_spec n k) as [->|N].
  - intro H. injection H as ->. auto.
  - auto.
Qed.

Lemma visit_ok s e d : visit_expr s e = Ok d ->
  (forall j, In j d -> exists n, measures_with e n /\ assoc String.eqb n (points s) = Some j) /\
  (forall n, measures_with e n -> exists j, In j d /\ assoc String.eqb n (points s) = Some j).
Proof.
  unfold measures_with. revert d.
  assert (B : forall a b d, (forall d, visit_expr s a = Ok d ->
      (forall j, In j d -> exists n, called (fun f => f = FLine) a n /\ assoc String.eqb n (points s) = Some j) /\
      (forall n, called (fun f => f = FLine) a n -> exists j, In j d /\ assoc String.eqb n (points s) = Some j)) ->
    (forall d, visit_expr s b = Ok d ->
      (forall j, In j d -> exists n, called (fun f => f = FLine) b n /\ assoc String.eqb n (points s) = Some j) /\
      (forall n, called (fun f => f = FLine) b n -> exists j, In j d /\ assoc String.eqb n (points s) = Some j)) ->
    bind (visit_expr s a) (fun l => bind (visit_expr s b) (fun m => Ok (l ++ m))) = Ok d ->
    (forall j, In j d -> exists n, (called (fun f => f = FLine) a n \/ called (fun f => f = FLine) b n) /\
       assoc String.eqb n (points s) = Some j) /\
    (forall n, called (fun f => f = FLine) a n \/ called (fun f => f = FLine) b n ->
       exists j, In j d /\ assoc String.eqb n (points s) = Some j)).
  { intros a b d Ha Hb. destruct (visit_expr s a) as [l|]; [|discriminate].
    destruct (visit_expr s b) as [m|]; [|discriminate]. cbn. intro E. injection E as <-.
    destruct (Ha l eq_refl) as [A1 A2]. destruct (Hb m eq_refl) as [B1 B2]. split.
    - intros j J. apply in_app_or in J. destruct J as [J|J].
      + destruct (A1 j J) as (n & N & P). exists n. auto.
      + destruct (B1 j J) as (n & N & P). exists n. auto.
    - intros n [N|N].
      + destruct (A2 n N) as (j & J & P). exists j. split; [apply in_or_app; auto|exact P].
      + destruct (B2 n N) as (j & J & P). exists j. split; [apply in_or_app; auto|exact P]. }
  induction e as [| |a IH|a IHa b IHb|a IHa b IHb|a IHa b IHb|a IHa b IHb|f args]; intros d;
    try (exact (B a b d IHa IHb)); cbn [visit_expr called].
  - intro E. injection E as <-. split; [intros j []|intros n []].
  - intro E. injection E as <-. split; [intros j []|intros n []].
  - exact (IH d).
  - destruct f; try (intro E; injection E as <-; split; [intros j []|intros n [F _]; discriminate]).
    revert d. induction args as [|n args IH]; intros d; cbn [traverse].
    + intro E. injection E as <-. split; [intros j []|intros n [_ []]].
    + unfold name_to_point at 1. destruct (assoc String.eqb n (points s)) as [j0|] eqn:A; [|discriminate].
      cbn [bind]. destruct (traverse (name_to_point s) args) as [l|]; [|discriminate]. cbn [bind].
      intro E. injection E as <-. destruct (IH l eq_refl) as [P Q]. split.
      * intros j [<-|J]; [exists n; split; [split; [reflexivity|left; reflexivity]|exact A]|].
        destruct (P j J) as (m & [_ M] & K). exists m. split; [split; [reflexivity|right; exact M]|exact K].
      * intros m [_ [<-|M]]; [exists j0; split; [left; reflexivity|exact A]|].
        destruct (Q m (conj eq_refl M)) as (j & J & K). exists j. split; [right; exact J|exact K].
Qed.

Lemma In_update {A} (l : list A) i x y : In y (update i x l) -> y = x \/ In y l.
Proof.
  revert i. induction l; intros [|i]; cbn; try tauto.
  - intros [H|H]; auto.
  - intros [H|H]; [auto|]. destruct (IHl i H); auto.
Qed.
Lemma map_source_update (l : list expression) j x y : nth_error l j = Some y -> x_source x = x_source y ->
  map x_source (update j x l) = map x_source l.
Proof. intros H E. rewrite map_update, E. apply update_same, nth_map, H. Qed.

(** Replacing an expression by one which is as good. *)
Lemma with_expr_invariant s i j o x x' : invariant s -> nth_error (ops s) i = Some o ->
  nth_error (o_exprs o) j = Some x -> x_source x' = x_source x ->
  (x_dependencies x <> None -> x_dependencies x' <> None) -> good_expr s i x' -> invariant (with_expr s i j o x').
Proof.
  intros I Ho Hx Es Ed G. apply (put_invariant s i o _ I Ho); [|reflexivity|..].
  - unfold psig; cbn. rewrite (map_source_update _ j x' x Hx Es). reflexivity.
  - intros C y Y. cbn in Y. apply In_update in Y. destruct Y as [->|Y]; [|exact (C y Y)].
    apply Ed, C. exact (nth_error_In _ _ Hx).
  - intros y Y. cbn in Y. apply In_update in Y. destruct Y as [->|Y]; [exact G|].
    exact (dy_exprs _ (proj2 I) i o y Ho Y).
Qed.

Lemma visit_good s i o x d v e : invariant s -> nth_error (ops s) i = Some o -> In x (o_exprs o) ->
  match x_dependencies x with Some d => Ok d | None => visit_expr s (x_source x) end = Ok d ->
  good_expr s i (Expr (x_source x) (Some d) v e).
Proof.
  intros I Ho Hx E. destruct (x_dependencies x) as [d0|] eqn:D.
  - injection E as ->. pose proof (dy_exprs _ (proj2 I) i o x Ho Hx) as G. unfold good_expr in *. rewrite D in G. exact G.
  - destruct (visit_ok _ _ _ E) as [P Q]. split; cbn [x_source].
    + intros j J. destruct (P j J) as (n & M & A). apply assoc_in in A.
      destruct (dy_points _ (proj2 I) n j A) as [N C]. split.
      * destruct (Nat.le_gt_cases j i) as [L|L]; [exact L|]. exfalso. exact (C i o L Ho x Hx D).
      * exists n. split; [exact N|exact M].
    + intros n M. destruct (Q n M) as (j & J & A). apply assoc_in in A.
      destruct (dy_points _ (proj2 I) n j A) as [N _]. exists j. split; [exact J|exact N].
Qed.

Lemma value_none s i j : (forall o x, nth_error (ops s) i = Some o -> nth_error (o_exprs o) j = Some x -> False) ->
  snd (value i j s) = s /\ exists e, fst (value i j s) = Raise e.
Proof.
  intro H. unfold value, then_, the_expr. destruct (nth_error (ops s) i) as [o|] eqn:O; [|cbn; eauto].
  destruct (nth_error (o_exprs o) j) as [x|] eqn:X; [destruct (H o x eq_refl X)|cbn; eauto].
Qed.
Lemma has_expr s i j : (exists o x, nth_error (ops s) i = Some o /\ nth_error (o_exprs o) j = Some x) \/
  (forall o x, nth_error (ops s) i = Some o -> nth_error (o_exprs o) j = Some x -> False).
Proof.
  destruct (nth_error (ops s) i) as [o|]; [|right; discriminate].
  destruct (nth_error (o_exprs o) j) as [x|] eqn:X; [left; eauto|right; intros o' x E; injection E as <-; congruence].
Qed.

Lemma value_invariant s i j : invariant s -> invariant (snd (value i j s)).
Proof.
  intro I. destruct (has_expr s i j) as [(o & x & Ho & Hx)|N]; [|rewrite (proj1 (value_none s i j N)); exact I].
  rewrite (value_eq s i j o x Ho Hx). destruct (x_value x); [exact I|]. destruct (x_error x); [exact I|].
  destruct (match x_dependencies x with Some d => Ok d | None => visit_expr s (x_source x) end) as [d|e] eqn:D; [|exact I].
  pose proof (nth_error_In _ _ Hx) as X.
  assert (W : forall v e, invariant (with_expr s i j o (Expr (x_source x) (Some d) v e))).
  { intros v e. apply (with_expr_invariant s i j o x _ I Ho Hx); [reflexivity|discriminate|].
    exact (visit_good s i o x d v e I Ho X D). }
  destruct (evaluate s (x_source x)) as [v|[]]; apply W.
Qed.
Lemma dirty_invariant s i j : invariant s -> invariant (snd (set_dirty i j s)).
Proof.
  intro I. destruct (has_expr s i j) as [(o & x & Ho & Hx)|N].
  - unfold set_dirty, then_, the_expr. rewrite Ho, Hx, (put_expr_eq s i j o _ Ho). cbn [snd].
    apply (with_expr_invariant s i j o x _ I Ho Hx); [reflexivity|auto|].
    pose proof (dy_exprs _ (proj2 I) i o x Ho (nth_error_In _ _ Hx)) as G. unfold good_expr in *. cbn.
    destruct (x_dependencies x); [exact G|auto].
  - unfold set_dirty, then_, the_expr. destruct (nth_error (ops s) i) as [o|] eqn:O; [|exact I].
    destruct (nth_error (o_exprs o) j) as [x|] eqn:X; [destruct (N o x eq_refl X)|exact I].
Qed.
