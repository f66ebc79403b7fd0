(** Lemmas on Valentina files, fifth part: writing then reading, operations and whole sketches. *)
From Coq Require Import ZArith String Ascii List Bool Lia.
From Verif Require Import Base ModelSketch ModelFormula ModelMeasure ModelXml ModelColor ModelStyle ModelValentina SpecXml SpecValentina
  ProofSketch ProofSketch3 ProofSketch4 ProofValentina ProofValentina2 ProofValentina3 ProofValentina4.
Import ListNotations.
Local Open Scope nat_scope.

Section Whole.
Context {float : Type} (float_str : float -> text) (float_parse : text -> result float) (db : database) (black : color) (parse : text -> expr).
Hypothesis Hf : faithful float_str float_parse.
Notation state := (state float).
Notation description := (@description float).
Notation write := (write float float_str float_parse db).
Notation read := (read float float_str float_parse db black parse).
Notation read_all := (read_all float float_str float_parse db black parse).
Notation write_all := (write_all float float_str float_parse db).
Notation is_operation := (is_operation parse).

Lemma reachable_invariant (st : state) : reachable st -> invariant (st_sketch _ st).
Proof. intros ((l & c & m & E) & _). rewrite E. apply history_invariant, new_sketch_invariant. Qed.
Lemma holds_known s z : holds_id s z -> known_in s z.
Proof. intros (o & O & E). apply In_nth_error in O. destruct O as (j & O). exists j, o. auto. Qed.

Lemma one_round_trip (st : state) i d (st' : state) : is_operation st i d -> writable d -> reachable st' ->
  (counter (st_sketch _ st') < d_id d)%Z -> (forall z, In z (d_points d) -> holds_id (st_sketch _ st') z) ->
  exists e d' st'', write st i = Ok e /\ read e st' = (Ok (Some (length (ops (st_sketch _ st')))), st'') /\
    is_operation st'' (length (ops (st_sketch _ st'))) d' /\ same d d' /\
    (forall j x, is_operation st' j x -> is_operation st'' j x).
Proof.
  intros Op W R Lt Kn. destruct (write_says float_str float_parse db parse Hf st i d Op W) as (e & d' & E & Hs & Sm & _).
  destruct (read_known float_str float_parse db black parse e d' st') as (st'' & E2 & _ & _ & _ & _ & O1 & O2 & _); try assumption.
  - exact (reachable_invariant st' R).
  - exact (proj2 R).
  - rewrite (same_id _ _ Sm). exact Lt.
  - intros z Z. rewrite (same_points _ _ Sm) in Z. apply holds_known, Kn, Z.
  - exists e, d', st''. auto.
Qed.

(** *** Whole sketches *)
Lemma is_operation_unique (st : state) i d d' : is_operation st i d -> is_operation st i d' -> d = d'.
Proof.
  intros (o & x & O & X & A1 & A2 & A3 & A4 & A5 & A6 & A7 & A8 & A9 & A10) (o' & x' & O' & X' & B1 & B2 & B3 & B4 & B5 & B6 & B7 & B8 & B9 & B10).
  rewrite O in O'. injection O' as <-. rewrite X in X'. injection X' as <-.
  assert (Q : d_points d = d_points d').
  { clear - A4 B4. revert A4 B4. generalize (o_refs o) (d_points d) (d_points d'). intros r l l' H. revert l'.
    induction H as [|r0 z r l (p & P & E) H IH]; intros l' H'; inversion H' as [|? z' ? m (p' & P' & E') H2]; subst; [reflexivity|].
    rewrite P in P'. injection P' as <-. f_equal. exact (IH _ H2). }
  destruct d, d'. cbn in *. congruence.
Qed.

Lemma elements_of (st : state) : forall n k, (forall i, k <= i < k + n -> exists d, is_operation st i d /\ writable d) ->
  exists l ds, traverse (write st) (seq k n) = Ok l /\ Forall2 (says float_parse db) l ds /\ length ds = n /\
    forall j d', nth_error ds j = Some d' -> exists d, is_operation st (k + j) d /\ writable d /\ same d d' /\
      (d_kind d = KSpline -> exists t, d_color d' = PText _ t /\ py_str _ float_str (d_color d) = Ok t).
Proof.
  induction n as [|n IH]; intros k H; cbn [seq traverse].
  - exists [], []. split; [reflexivity|]. split; [constructor|]. split; [reflexivity|]. intros [|j] d' E; discriminate.
  - destruct (H k) as (d & Op & W); [lia|]. destruct (write_says float_str float_parse db parse Hf st k d Op W) as (e & d' & E & Hs & Sm & Sp).
    destruct (IH (S k)) as (l & ds & E2 & F & L & Q); [intros i Hi; apply H; lia|].
    exists (e :: l), (d' :: ds). rewrite E, E2. cbn [bind]. split; [reflexivity|]. split; [constructor; assumption|]. split; [cbn; lia|].
    intros [|j] x X; cbn in X.
    + injection X as <-. exists d. rewrite Nat.add_0_r. auto.
    + destruct (Q j x X) as (y & Y). exists y. replace (k + S j) with (S k + j) by lia. exact Y.
Qed.

Lemma elements_readable (s : sketch) : statics s -> forall l ds, Forall2 (says float_parse db) l ds -> forall k c known,
  (forall j d', nth_error ds j = Some d' -> exists o, nth_error (ops s) (k + j) = Some o /\ o_id o = d_id d' /\
     Forall2 (fun r z => exists p, nth_error (ops s) r = Some p /\ o_id p = z) (o_refs o) (d_points d')) ->
  (forall o, nth_error (ops s) k = Some o -> (c < o_id o)%Z) ->
  (forall i o, i < k -> nth_error (ops s) i = Some o -> In (o_id o) known) ->
  readable float_parse db c known l ds.
Proof.
  intro Sg. induction 1 as [|e d' l ds Hs F IH]; intros k c known H Hc Hk; [constructor|].
  destruct (H 0 d' eq_refl) as (o & O & Ei & Fr). rewrite Nat.add_0_r in O.
  apply readable_add.
  - exact Hs.
  - rewrite <- Ei. exact (Hc o O).
  - intros z Z. assert (Q : exists r p, In r (o_refs o) /\ nth_error (ops s) r = Some p /\ o_id p = z).
    { clear - Fr Z. induction Fr as [|r z' rs zs (p & P & E) Fr IH]; [destruct Z|]. destruct Z as [<-|Z]; [exists r, p; cbn; auto|].
      destruct (IH Z) as (r' & p' & A & B). exists r', p'. cbn. auto. }
    destruct Q as (r & p & R & P & <-). apply (Hk r p); [exact (st_refs _ Sg k o r O R)|exact P].
  - apply (IH (S k)).
    + intros j x X. destruct (H (S j) x X) as (y & Y). exists y. replace (S k + j) with (k + S j) by lia. exact Y.
    + intros p P. rewrite <- Ei. apply (st_ids _ Sg k (S k) o p); auto.
    + intros i p Hi P. destruct (Nat.eq_dec i k) as [->|N]; [left; rewrite <- Ei; congruence|]. right. apply (Hk i p); [lia|exact P].
Qed.

Lemma same_maps {A B C} (f : A -> C) (g : B -> C) : forall l m, length l = length m ->
  (forall j a, nth_error l j = Some a -> exists b, nth_error m j = Some b /\ g b = f a) -> map f l = map g m.
Proof.
  induction l as [|a l IH]; intros [|b m] L H; try discriminate; [reflexivity|]. cbn. f_equal.
  - destruct (H 0 a eq_refl) as (b' & E & G). injection E as <-. auto.
  - apply IH; [injection L; auto|]. intros j x X. exact (H (S j) x X).
Qed.
Lemma whole_round_trip_last (st : state) : reachable st ->
  (forall i, i < length (ops (st_sketch _ st)) -> exists d, is_operation st i d /\ writable d) ->
  exists l, write_all st = Ok l /\ forall c m, (forall o, In o (ops (st_sketch _ st)) -> (c < o_id o)%Z) ->
    exists st', read_all l (empty float c m) = (Ok tt, st') /\ counter (st_sketch _ st') = last (map o_id (ops (st_sketch _ st))) c /\ same_sketch (st_sketch _ st) (st_sketch _ st') /\
      forall i d, is_operation st i d -> exists d', is_operation st' i d' /\ same d d' /\
        (d_kind d = KSpline -> exists t, d_color d' = PText _ t /\ py_str _ float_str (d_color d) = Ok t).
Proof.
  intros R H. pose proof (reachable_invariant st R) as I. destruct (elements_of st (length (ops (st_sketch _ st))) 0) as (l & ds & E & F & Ld & Q).
  { intros i Hi. apply H. lia. }
  exists l. split; [exact E|]. intros c m Hc.
  assert (Rd : readable float_parse db c [] l ds).
  { apply (elements_readable (st_sketch _ st) (proj1 I) l ds F 0).
    - intros j d' D. destruct (Q j d' D) as (d & (o & x & O & X & A1 & A2 & A3 & A4 & _) & _ & Sm & _). exists o. split; [exact O|].
      rewrite (same_id _ _ Sm), (same_points _ _ Sm). split; [exact A2|exact A4].
    - intros o O. apply Hc. exact (nth_error_In _ _ O).
    - intros i o Hi. lia. }
  destruct (read_readable_last float_str float_parse db black parse l c [] ds (empty float c m) [] Rd) as (st' & E2 & I' & L1 & L2 & Lc & O2); try reflexivity.
  - apply new_sketch_invariant.
  - intros z [].
  - intros [|i] d D; discriminate.
  - exists st'. cbn [app] in L2, O2. split; [exact E2|].
    assert (G : forall i d, is_operation st i d -> exists d', is_operation st' i d' /\ same d d' /\
        (d_kind d = KSpline -> exists t, d_color d' = PText _ t /\ py_str _ float_str (d_color d) = Ok t)).
    { intros i d Op. pose proof Op as (o & x & O & _). assert (Hi : i < length ds) by (rewrite Ld; apply nth_error_Some; congruence).
      destruct (nth_error ds i) as [d'|] eqn:D; [|apply nth_error_None in D; lia].
      destruct (Q i d' D) as (d0 & Op0 & _ & Sm & Sp). cbn in Op0. rewrite (is_operation_unique st i d d0 Op Op0). exists d'. split; [exact (O2 i d' D)|auto]. }
    split; [|split; [|exact G]].
    { rewrite Lc. f_equal. apply same_maps; [exact Ld|]. intros j d' D. destruct (Q j d' D) as (d & (o & x & O & _ & _ & A2 & _) & _ & Sm & _).
      exists o. split; [exact O|]. rewrite A2. symmetry. exact (same_id _ _ Sm). }
    assert (Go : forall i o, nth_error (ops (st_sketch _ st)) i = Some o -> exists o', nth_error (ops (st_sketch _ st')) i = Some o' /\ same_op o o').
    { intros i o O. assert (Hi : i < length (ops (st_sketch _ st))) by (apply nth_error_Some; congruence).
      destruct (H i Hi) as (d & Op & W). destruct (G i d Op) as (d' & Op' & Sm & _).
      destruct Op as (o1 & x & O1 & X & A1 & A2 & A3 & A4 & A5 & A6 & _). rewrite O in O1. injection O1 as <-.
      destruct Op' as (o' & x' & O' & X' & B1 & B2 & B3 & B4 & B5 & B6 & _). exists o'. split; [exact O'|].
      split; [rewrite B1, A1; exact (same_kind _ _ Sm)|]. split; [rewrite B2, A2; exact (same_id _ _ Sm)|]. split.
      { intro P. assert (Lb : labelled (d_kind d)). { rewrite A1 in P. pose proof (w_kind _ W) as Wk. destruct (d_kind d); cbn in *; try discriminate; try tauto; congruence. }
        destruct (same_label _ _ Sm Lb) as (En & _). rewrite En, <- A3 in B3.
        rewrite <- (string_of_list_ascii_of_string (o_name o')), B3. apply string_of_list_ascii_of_string. }
      split; [|rewrite B6, A6, (same_formulas _ _ Sm); reflexivity].
      rewrite (same_points _ _ Sm) in B4. revert A4 B4. generalize (o_refs o) (o_refs o') (d_points d). clear - I' G O2 Q Ld L2 I H.
      intros r r' l A. revert r'. induction A as [|a z r l (p & P & Ep) A IH]; intros r' B; inversion B as [|a' ? r2 ? (p' & P' & Ep') B2]; subst; [reflexivity|].
      f_equal; [|exact (IH _ B2)].
      assert (Ha : a < length (ops (st_sketch _ st))) by (apply nth_error_Some; congruence).
      destruct (H a Ha) as (da & Opa & _). destruct (G a da Opa) as (da' & Opa' & Sma & _).
      destruct Opa as (o1 & x & O1 & _ & _ & A2 & _). destruct Opa' as (o2 & x2 & O2' & _ & _ & B2' & _).
      rewrite P in O1. injection O1 as <-.
      assert (Eq : o_id o2 = o_id p') by (rewrite B2', (same_id _ _ Sma), <- A2; congruence).
      destruct (Nat.lt_total a' a) as [Lt|[E|Lt]]; [|exact E|].
      - pose proof (st_ids _ (proj1 I') a' a p' o2 Lt P' O2'). lia.
      - pose proof (st_ids _ (proj1 I') a a' o2 p' Lt O2' P'). lia. }
    assert (Lo : length (ops (st_sketch _ st')) = length (ops (st_sketch _ st))) by lia.
    clear - Go Lo. unfold same_sketch. revert Go Lo. generalize (ops (st_sketch _ st)) (ops (st_sketch _ st')).
    intro a. induction a as [|o a IH]; intros [|o' b] Go Lo; try discriminate; constructor.
    + destruct (Go 0 o eq_refl) as (x & X & Y). injection X as <-. exact Y.
    + apply IH; [|cbn in Lo; lia]. intros i p P. exact (Go (S i) p P).
Qed.
Lemma whole_round_trip (st : state) : reachable st ->
  (forall i, i < length (ops (st_sketch _ st)) -> exists d, is_operation st i d /\ writable d) ->
  exists l, write_all st = Ok l /\ forall c m, (forall o, In o (ops (st_sketch _ st)) -> (c < o_id o)%Z) ->
    exists st', read_all l (empty float c m) = (Ok tt, st') /\ same_sketch (st_sketch _ st) (st_sketch _ st') /\
      forall i d, is_operation st i d -> exists d', is_operation st' i d' /\ same d d' /\
        (d_kind d = KSpline -> exists t, d_color d' = PText _ t /\ py_str _ float_str (d_color d) = Ok t).
Proof.
  intros R H. destruct (whole_round_trip_last st R H) as (l & E & K). exists l. split; [exact E|]. intros c m Hc.
  destruct (K c m Hc) as (st' & A1 & _ & A2). exists st'. auto.
Qed.
End Whole.
