(** Property C152: the sketches of the geometry engine. *)
From Coq Require Import String List Bool Arith Reals.
From Verif Require Import Base ModelVector ModelLine ModelPlan SpecVector ProofVector.
Import ListNotations.
Local Open Scope string_scope.
Local Open Scope list_scope.

Lemma known_in l n : known l n = true <-> In n l.
Proof.
  unfold known. rewrite existsb_exists. split; [intros (x & I & E); apply String.eqb_eq in E; subst; exact I|].
  intros I. exists n. split; [exact I|apply String.eqb_refl].
Qed.
Lemma kept_not names l n : In n names -> known (filter (fun k => negb (known names k)) l) n = false.
Proof.
  intros I. destruct (known _ n) eqn:E; [|reflexivity]. apply known_in in E. apply filter_In in E. destruct E as [_ E].
  assert (K : known names n = true) by (apply known_in; exact I). rewrite K in E. discriminate E.
Qed.
(** How a call binds its arguments: it succeeds exactly when there are not too many, none is given twice or unknown, and none is missing. *)
Theorem C152_call : forall params others n keywords, is_ok (bind_call params others n keywords) <->
  n <= length params /\ (forall k, In k keywords -> ~ In k (firstn n (map fst params))) /\
  (others = true \/ forall k, In k keywords -> In k (map fst params)) /\
  (forall p, In (p, false) (skipn n params) -> In p keywords).
Proof.
  intros params others n keywords. unfold bind_call. cbv zeta.
  destruct (Nat.ltb_spec (length params) n) as [A|A]; [split; [intros [? E]; discriminate | intros [B _]; exfalso; apply (Nat.lt_irrefl n); eapply Nat.le_lt_trans; eauto]|].
  destruct (existsb (known keywords) (firstn n (map fst params))) eqn:B.
  { split; [intros [? E]; discriminate|]. intros (_ & H & _). apply existsb_exists in B. destruct B as (x & I & K). apply known_in in K. exfalso. exact (H x K I). }
  destruct (negb others && existsb (fun k => negb (known (map fst params) k)) keywords) eqn:C.
  { split; [intros [? E]; discriminate|]. intros (_ & _ & H & _). apply andb_prop in C. destruct C as [O C]. apply existsb_exists in C. destruct C as (x & I & K).
    destruct H as [H|H]; [subst; discriminate O|]. apply H in I. apply known_in in I. rewrite I in K. discriminate K. }
  destruct (existsb (fun p => negb (snd p) && negb (known keywords (fst p))) (skipn n params)) eqn:D.
  { split; [intros [? E]; discriminate|]. intros (_ & _ & _ & H). apply existsb_exists in D. destruct D as ((p, b) & I & K). cbn [fst snd] in K.
    apply andb_prop in K. destruct K as [K1 K2]. destruct b; [discriminate K1|]. apply H in I. apply known_in in I. rewrite I in K2. discriminate K2. }
  split; [intros _|intros _; eexists; reflexivity]. split; [exact A|]. split; [|split].
  - intros k I J. assert (X : existsb (known keywords) (firstn n (map fst params)) = true) by (apply existsb_exists; exists k; split; [exact J|apply known_in; exact I]). congruence.
  - destruct others; [left; reflexivity|right]. intros k I. cbn [negb andb] in C. apply known_in. destruct (known (map fst params) k) eqn:K; [reflexivity|].
    assert (X : existsb (fun k => negb (known (map fst params) k)) keywords = true) by (apply existsb_exists; exists k; rewrite K; split; [exact I|reflexivity]). congruence.
  - intros p I. apply known_in. destruct (known keywords p) eqn:K; [reflexivity|].
    assert (X : existsb (fun p => negb (snd p) && negb (known keywords (fst p))) (skipn n params) = true) by (apply existsb_exists; exists (p, false); cbn [fst snd]; rewrite K; split; [exact I|reflexivity]). congruence.
Qed.
Print Assumptions C152_call.

(** The module cannot be imported where annotations are evaluated; it can be since python 3.14. *)
Theorem C152_import_refuted : load false imported module = Raise NameError /\ is_ok (load true imported module).
Proof. split; [reflexivity|]. eexists. reflexivity. Qed.
Print Assumptions C152_import_refuted.
(** The annotation of SketchLine in its own class is the only cause *)
Theorem C152_import_repaired : is_ok (load false ("SketchLine" :: imported) module).
Proof. eexists. reflexivity. Qed.
Print Assumptions C152_import_repaired.

(** Then no point, middle, line or segment can be made, whatever the keywords. *)
Lemma point_never v keywords : sketch_point v keywords = Raise TypeError.
Proof.
  unfold sketch_point. unfold bind_call at 1. cbv zeta. change (map fst [("sketch", false); ("vector", false)]) with ["sketch"; "vector"].
  change (Nat.ltb (length [("sketch", false); ("vector", false)]) 2) with false. cbv iota.
  destruct (existsb (known keywords) (firstn 2 ["sketch"; "vector"])); [reflexivity|]. cbn [negb andb]. cbv iota. cbn [skipn existsb bind].
  unfold primitive_init. unfold bind_call. cbv zeta. cbn [length Nat.ltb Nat.leb firstn existsb skipn negb andb map fst snd].
  rewrite (kept_not ["sketch"; "vector"] keywords "sketch") by (left; reflexivity). cbn [negb orb].
  destruct (existsb _ _); reflexivity.
Qed.
Theorem C152_points_refuted : forall x y p1 p2 keywords, point x y keywords = Raise TypeError /\ middle p1 p2 keywords = Raise TypeError.
Proof. intros. split; apply point_never. Qed.
Print Assumptions C152_points_refuted.
Theorem C152_lines_refuted : forall p1 p2 keywords, line_ keywords = Raise TypeError /\ hline keywords = Raise TypeError /\ vline keywords = Raise TypeError /\
  segment_ p1 p2 keywords = Raise TypeError.
Proof. intros. repeat split. Qed.
Print Assumptions C152_lines_refuted.
(** Neither can a line be made directly; a segment can, alone, without a sketch, a name or a description. *)
Theorem C152_direct_refuted : forall n keywords, (sketch_line n keywords = Raise TypeError \/ sketch_line n keywords = Raise NameError) /\
  (forall p1 p2, is_ok (sketch_segment 2 p1 p2 keywords) <-> keywords = []) /\ (forall p1 p2, sketch_segment 2 p1 p2 [] = Ok (DSegment (Seg p1 p2))).
Proof.
  intros n keywords. split; [|split].
  - unfold sketch_line, object_init, bind_call. cbv zeta. repeat (match goal with |- context [if ?b then _ else _] => destruct b end; cbn [bind]; auto).
  - intros p1 p2. split.
    + intros [r E]. unfold sketch_segment, object_init in E. destruct (bind_call [("point1", false); ("point2", false)] true 2 keywords) as [kg|] eqn:B; [|discriminate E].
      cbn [bind] in E. destruct (bind_call [] false 0 kg) as [u|] eqn:C; [|discriminate E].
      assert (O1 : is_ok (bind_call [("point1", false); ("point2", false)] true 2 keywords)) by (eexists; exact B).
      assert (O2 : is_ok (bind_call [] false 0 kg)) by (eexists; exact C).
      apply C152_call in O1. apply C152_call in O2. destruct O1 as (_ & D & _). destruct O2 as (_ & _ & [F|F] & _); [discriminate F|].
      assert (K : kg = filter (fun k => negb (known ["point1"; "point2"] k)) keywords).
      { revert B. unfold bind_call. cbv zeta. repeat (match goal with |- context [if ?b then _ else _] => destruct b end); intros B; try discriminate B. injection B as <-. reflexivity. }
      destruct keywords as [|k l]; [reflexivity|]. exfalso. specialize (D k (or_introl eq_refl)). apply (F k). rewrite K. apply filter_In. split; [left; reflexivity|].
      destruct (known ["point1"; "point2"] k) eqn:N; [|reflexivity]. apply known_in in N. exfalso. apply D. exact N.
    + intros ->. eexists. reflexivity.
  - reflexivity.
Qed.
Print Assumptions C152_direct_refuted.
(** Distance is the distance. *)
Theorem C152_distance : forall a b, distance a b = dist a b.
Proof. intros a b. unfold distance. rewrite magnitude_len, len_dist0. apply dist_sym. Qed.
Print Assumptions C152_distance.
Example C152_case : is_ok (bind_call [("sketch", false); ("vector", false)] true 2 ["name"]) /\ distance (V 1 1) (V 4 5) = 5%R.
Proof.
  split; [eexists; reflexivity|]. rewrite C152_distance. unfold dist. cbn [vx vy]. replace ((1 - 4) * (1 - 4) + (1 - 5) * (1 - 5))%R with (5 * 5)%R by ring.
  apply sqrt_square. apply (IZR_le 0 5). discriminate.
Qed.
