(** What the bounding box of a path holds. *)
From Coq Require Import Reals List Lra Lia Bool.
From Verif Require Import Base ModelVector ModelTransformation ModelLine ModelBezier ModelConic ModelPath ModelPathBox
  SpecVector SpecLine SpecBezier SpecConic SpecPath SpecPathBox GluePath ProofVector ProofSegment ProofConic ProofArc ProofPath ProofPath2 ProofPath3 ProofPath4 ProofPathBox.
Import ListNotations.
Local Open Scope R_scope.
Local Open Scope result_scope.

Lemma covers_refl b : covers b b. Proof. unfold covers. lra. Qed.
Lemma covers_trans a b c : covers a b -> covers b c -> covers a c. Proof. unfold covers. lra. Qed.
Lemma covers_left a b : covers (bunion a b) a.
Proof. unfold covers, bunion, iunion; cbn. repeat split; auto using Rmin_l, Rmax_l. Qed.
Lemma covers_right a b : covers (bunion a b) b.
Proof. unfold covers, bunion, iunion; cbn. repeat split; auto using Rmin_r, Rmax_r. Qed.
Lemma covers_union c a b : covers c a -> covers c b -> covers c (bunion a b).
Proof.
  unfold covers, bunion, iunion; cbn. intros (A1 & A2 & A3 & A4) (B1 & B2 & B3 & B4).
  repeat split; auto using Rmin_glb, Rmax_lub.
Qed.
Lemma covers_in c b x : covers c b -> in_box b x -> in_box c x.
Proof. unfold covers, in_box. lra. Qed.

Lemma piece_box_some g : exists b, piece_box g = Some b.
Proof.
  destruct g as [s|c|c|[s|e]]; cbn [piece_box]; unfold bounding_box_from_points, ellipse_bounding_box; cbn [bbox_loop]; try (eexists; reflexivity).
  destruct (Reqb (e_angle e) 0); eexists; reflexivity.
Qed.

(** ** The loop *)
Lemma pboxes_spec p l : forall acc v, pboxes l acc p = Ok v ->
  (forall i, In i l -> exists g, pgeometry p i = Ok g) /\
  match v with
  | None => acc = None /\ l = []
  | Some b =>
      (forall b0, acc = Some b0 -> covers b b0) /\
      (forall i g b', In i l -> pgeometry p i = Ok g -> piece_box g = Some b' -> covers b b') /\
      (forall c, (forall b0, acc = Some b0 -> covers c b0) ->
         (forall i g b', In i l -> pgeometry p i = Ok g -> piece_box g = Some b' -> covers c b') -> covers c b)
  end.
Proof.
  induction l as [|i l IH]; intros acc v H; cbn [pboxes] in H.
  - injection H as <-. split; [intros i []|]. destruct acc as [b|]; [|auto].
    split; [intros b0 E; injection E as <-; apply covers_refl|]. split; [intros i g b' []|]. intros c A _. apply A. reflexivity.
  - destruct (pgeometry p i) as [g|] eqn:G; [|discriminate]. cbn [bind] in H. apply IH in H. destruct H as [D H].
    split; [intros j [<-|J]; eauto|]. destruct (piece_box_some g) as [b1 B1]. rewrite B1 in H.
    destruct v as [b|].
    + destruct H as (H1 & H2 & H3). destruct acc as [b0|]; cbn [grow] in H1, H3.
      * pose proof (H1 _ eq_refl) as C. split; [|split].
        -- intros b' E. injection E as <-. apply (covers_trans _ _ _ C), covers_left.
        -- intros j h b' [<-|J] G' E; [|apply (H2 j h b' J G' E)].
           assert (h = g) by congruence. subst h. assert (b' = b1) by congruence. subst b'. apply (covers_trans _ _ _ C), covers_right.
        -- intros c A B. apply H3.
           ++ intros b' E. injection E as <-. apply covers_union; [apply A; reflexivity|]. apply (B i g b1 (or_introl eq_refl) G B1).
           ++ intros j h b' J. apply (B j h b' (or_intror J)).
      * pose proof (H1 _ eq_refl) as C. split; [|split].
        -- discriminate.
        -- intros j h b' [<-|J] G' E; [|apply (H2 j h b' J G' E)].
           assert (h = g) by congruence. subst h. assert (b' = b1) by congruence. subst b'. exact C.
        -- intros c A B. apply H3.
           ++ intros b' E. injection E as <-. apply (B i g b1 (or_introl eq_refl) G B1).
           ++ intros j h b' J. apply (B j h b' (or_intror J)).
    + destruct H as [H _]. destruct acc; discriminate.
Qed.
Lemma pboxes_defined p l : forall acc, (forall i, In i l -> is_ok (pgeometry p i)) -> is_ok (pboxes l acc p).
Proof.
  induction l as [|i l IH]; intros acc H; cbn [pboxes]; [eexists; reflexivity|].
  destruct (H i (or_introl eq_refl)) as [g ->]. cbn [bind]. apply IH. intros j J. apply H. right. exact J.
Qed.
Lemma pboxes_raises p l : forall acc e, pboxes l acc p = Raise e ->
  exists l1 i l2, l = l1 ++ i :: l2 /\ (forall j, In j l1 -> is_ok (pgeometry p j)) /\ pgeometry p i = Raise e.
Proof.
  induction l as [|i l IH]; intros acc e H; cbn [pboxes] in H; [discriminate|].
  destruct (pgeometry p i) as [g|e'] eqn:G; cbn [bind] in H.
  - destruct (IH _ _ H) as (l1 & j & l2 & -> & A & B). exists (i :: l1), j, l2. split; [reflexivity|]. split; [|exact B].
    intros k [<-|K]; [rewrite G; eexists; reflexivity|apply A, K].
  - injection H as <-. exists [], i, l. repeat split; [intros j []|exact G].
Qed.

(** ** The box of a piece *)
Lemma between_box b p q x : in_box b p -> in_box b q -> between p q x -> in_box b x.
Proof. intros (P1 & P2) (Q1 & Q2) (t & T & X & Y). unfold in_box. rewrite X, Y. split; split; nra. Qed.
Lemma lerp_box lo hi a b t : lo <= a <= hi -> lo <= b <= hi -> 0 <= t <= 1 -> lo <= a + t * (b - a) <= hi.
Proof. intros. split; nra. Qed.
Lemma quad_box b p q r t : in_box b p -> in_box b q -> in_box b r -> 0 <= t <= 1 -> in_box b (bezier [p; q; r] t).
Proof.
  intros (P1 & P2) (Q1 & Q2) (R1 & R2) T. unfold in_box, bezier. cbn [length Nat.sub map casteljau level hd vx vy].
  split; repeat apply lerp_box; auto.
Qed.
Lemma cubic_box b p q r s t : in_box b p -> in_box b q -> in_box b r -> in_box b s -> 0 <= t <= 1 -> in_box b (bezier [p; q; r; s] t).
Proof.
  intros (P1 & P2) (Q1 & Q2) (R1 & R2) (S1 & S2) T. unfold in_box, bezier. cbn [length Nat.sub map casteljau level hd vx vy].
  split; repeat apply lerp_box; auto.
Qed.

Definition round (g : piece) : Prop := match g with GArc (ArcEllipse e) => 0 < e_rx e /\ 0 < e_ry e | _ => True end.
Lemma piece_holds g b x : piece_box g = Some b -> ~ turned g -> round g -> on_piece g x -> in_box b x.
Proof.
  intros B T R. destruct g as [s|c|c|[s|e]]; cbn [piece_box on_piece] in *.
  1: destruct (bounding_box_ok [s_p0 s; s_p1 s]) as (b' & E & H & _); [discriminate|].
  2: destruct (bounding_box_ok [q0 c; q1 c; q2 c]) as (b' & E & H & _); [discriminate|].
  3: destruct (bounding_box_ok [c0 c; c1 c; c2 c; c3p c]) as (b' & E & H & _); [discriminate|].
  4: destruct (bounding_box_ok [s_p0 s; s_p1 s]) as (b' & E & H & _); [discriminate|].
  1-4: assert (b' = b) by congruence; subst b'.
  - apply between_box; apply H; cbn; auto.
  - intros (t & Ht & ->). apply quad_box; try exact Ht; apply H; cbn; auto.
  - intros (t & Ht & ->). apply cubic_box; try exact Ht; apply H; cbn; auto.
  - apply between_box; apply H; cbn; auto.
  - cbn in T, R. destruct (Req_dec (e_angle e) 0) as [A|A]; [|contradiction].
    destruct (ellipse_box_ok e A (proj1 R) (proj2 R)) as (b' & E & H & _). assert (b' = b) by congruence. subst b'. rewrite A. apply H.
Qed.
Lemma piece_least g b c : piece_box g = Some b -> ~ elliptic g -> (forall x, determines g x -> in_box c x) -> covers c b.
Proof.
  intros B T D. destruct g as [s|q|q|[s|e]]; cbn [piece_box determines] in *; [| | | |destruct T; exact I].
  1: destruct (bounding_box_ok [s_p0 s; s_p1 s]) as (b' & E & _ & H); [discriminate|].
  2: destruct (bounding_box_ok [q0 q; q1 q; q2 q]) as (b' & E & _ & H); [discriminate|].
  3: destruct (bounding_box_ok [c0 q; c1 q; c2 q; c3p q]) as (b' & E & _ & H); [discriminate|].
  4: destruct (bounding_box_ok [s_p0 s; s_p1 s]) as (b' & E & _ & H); [discriminate|].
  all: assert (b' = b) by congruence; subst b'; apply H; intros x I; cbn in I; apply D; intuition.
Qed.

Lemma svg_arc_round p1 p2 rx ry a large sweep e : svg_arc p1 p2 rx ry a large sweep = Ok (ArcEllipse e) -> 0 < e_rx e /\ 0 < e_ry e.
Proof.
  unfold svg_arc. destruct (Reqb_spec rx 0) as [|X]; [discriminate|]. destruct (Reqb_spec ry 0) as [|Y]; [discriminate|]. cbn [orb].
  repeat (match goal with |- context [bind ?r _] => destruct r; cbn [bind]; [|discriminate] end
          || match goal with |- context [if Rltb 1 ?z then _ else _] => destruct (Rltb 1 z); [discriminate|] end).
  intros H. assert (E : e_rx e = Rabs rx /\ e_ry e = Rabs ry) by (inversion H; subst; split; reflexivity).
  destruct E as [-> ->]. split; apply Rabs_pos_lt; assumption.
Qed.
Lemma geometry_round p i g : pgeometry p i = Ok g -> round g.
Proof.
  unfold pgeometry. destruct (nth_error (parts p) i) as [[[] c| | | |]|]; try discriminate;
    repeat (match goal with |- context [bind ?r _] => destruct r eqn:?; cbn [bind]; [|discriminate] end);
    intros H; injection H as <-; try exact I.
  destruct a1; [exact I|]. eapply svg_arc_round. eassumption.
Qed.

(** ** The box of a path *)
Section Path.
  Variables (a : vec) (l : list event) (p : path).
  Hypotheses (D : Forall drawing l) (H : history (new_path a) l = Ok p).
  Let C : coherent p := history_coherent a l p D H.

  Lemma parts_seq i : (i < length (parts p))%nat -> In i (seq 0 (length (parts p))).
  Proof. intros I. apply in_seq. lia. Qed.
  Lemma box_holds b : fst (path_bounding_box p) = Ok (Some b) ->
    forall i g x, (i < length (parts p))%nat -> fst (geometry i p) = Ok g -> ~ turned g -> on_piece g x -> in_box b x.
  Proof.
    intros B i g x I G T O. rewrite (reads_path_box p C) in B. rewrite (fst_geometry p i C) in G.
    destruct (pboxes_spec p _ _ _ B) as (_ & _ & K & _). destruct (piece_box_some g) as [b' E].
    apply (covers_in b b'); [apply (K i g b' (parts_seq i I) G E)|]. apply (piece_holds g b' x E T (geometry_round p i g G) O).
  Qed.
  Lemma box_least b : fst (path_bounding_box p) = Ok (Some b) ->
    (forall i g, (i < length (parts p))%nat -> fst (geometry i p) = Ok g -> ~ elliptic g) ->
    forall c, (forall i g x, (i < length (parts p))%nat -> fst (geometry i p) = Ok g -> determines g x -> in_box c x) -> covers c b.
  Proof.
    intros B E c K. rewrite (reads_path_box p C) in B. destruct (pboxes_spec p _ _ _ B) as (_ & _ & _ & L).
    apply L; [discriminate|]. intros i g b' I G P. apply in_seq in I. rewrite <- (fst_geometry p i C) in G.
    apply (piece_least g b' c P); [apply (E i g); [lia|exact G]|]. intros x. apply (K i g x); [lia|exact G].
  Qed.
  Lemma box_defined : (forall i, (i < length (parts p))%nat -> is_ok (fst (geometry i p))) ->
    (parts p = [] /\ fst (path_bounding_box p) = Ok None) \/ (parts p <> [] /\ exists b, fst (path_bounding_box p) = Ok (Some b)).
  Proof.
    intros K. rewrite (reads_path_box p C).
    assert (O : is_ok (pboxes (seq 0 (length (parts p))) None p)).
    { apply pboxes_defined. intros i I. rewrite <- (fst_geometry p i C). apply K. apply in_seq in I. lia. }
    destruct O as [[b|] E]; rewrite E.
    - right. split; [intros N; rewrite N in E; discriminate|eauto].
    - left. destruct (pboxes_spec p _ _ _ E) as (_ & _ & L). split; [|reflexivity]. destruct (parts p); [reflexivity|discriminate].
  Qed.
  Lemma box_raises e : fst (path_bounding_box p) = Raise e <-> exists i, (i < length (parts p))%nat /\
    (forall j, (j < i)%nat -> is_ok (fst (geometry j p))) /\ fst (geometry i p) = Raise e.
  Proof.
    rewrite (reads_path_box p C). split.
    - intros E. destruct (pboxes_raises p _ _ _ E) as (l1 & i & l2 & S & A & B).
      assert (L : i = length l1 /\ l1 = seq 0 i /\ (i < length (parts p))%nat).
      { pose proof (f_equal (@length nat) S) as N. rewrite seq_length, app_length in N. cbn in N.
        pose proof (f_equal (fun l => nth (length l1) l 0%nat) S) as X. cbn beta in X. rewrite seq_nth in X by lia.
        rewrite app_nth2, Nat.sub_diag in X by lia. cbn in X. split; [lia|]. split; [|lia].
        replace (length (parts p)) with (length l1 + (length (parts p) - length l1))%nat in S by lia. rewrite seq_app in S.
        apply (f_equal (firstn (length l1))) in S. rewrite !firstn_app, seq_length, Nat.sub_diag in S. cbn [firstn] in S.
        rewrite !app_nil_r in S. rewrite firstn_all in S. rewrite firstn_all2 in S by (rewrite seq_length; lia).
        rewrite <- S. f_equal. lia. }
      destruct L as (_ & L & I). exists i. split; [exact I|]. rewrite (fst_geometry p i C). split; [|exact B].
      intros j J. rewrite (fst_geometry p j C). apply A. rewrite L. apply in_seq. lia.
    - intros (i & I & A & B). rewrite (fst_geometry p i C) in B.
      assert (A' : forall j, (j < i)%nat -> is_ok (pgeometry p j)) by (intros j J; rewrite <- (fst_geometry p j C); apply A, J).
      destruct (pboxes (seq 0 (length (parts p))) None p) as [v|e'] eqn:E.
      + destruct (pboxes_spec p _ _ _ E) as [K _]. destruct (K i (parts_seq i I)) as [g G]. congruence.
      + replace (length (parts p)) with (i + S (length (parts p) - i - 1))%nat in E by lia. rewrite seq_app in E. cbn [seq] in E. rewrite Nat.add_0_l in E.
        assert (G : forall l1 acc l2, (forall j, In j l1 -> is_ok (pgeometry p j)) -> pboxes (l1 ++ i :: l2) acc p = Raise e).
        { induction l1 as [|j l1 IH]; intros acc l2 F; cbn [app pboxes]; [rewrite B; reflexivity|].
          destruct (F j (or_introl eq_refl)) as [g ->]. cbn [bind]. apply IH. intros k K. apply F. right. exact K. }
        rewrite G in E by (intros j J; apply in_seq in J; apply A'; lia). congruence.
  Qed.
End Path.
