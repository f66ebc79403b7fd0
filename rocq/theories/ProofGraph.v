From Coq Require Import List Arith ZArith Bool Lia Permutation.
From Verif Require Import Base ModelGraph SpecGraph GlueGraph.
Import ListNotations.
Local Open Scope result_scope.

Lemma mem_In : forall x s, mem x s = true <-> In x s.
Proof.
  intros. unfold mem. rewrite existsb_exists. split.
  - intros (y & H & E). apply Nat.eqb_eq in E. subst; auto.
  - intros H. exists x. split; auto. apply Nat.eqb_refl.
Qed.

Lemma mem_nIn : forall x s, mem x s = false <-> ~ In x s.
Proof.
  intros. rewrite <- mem_In. destruct (mem x s); split; try congruence; tauto.
Qed.

Lemma filter_neq_id : forall n s, ~ In n s -> filter (fun y => negb (Nat.eqb n y)) s = s.
Proof.
  induction s as [|x s IH]; simpl; intros H; [reflexivity|].
  destruct (Nat.eqb_spec n x); [exfalso; auto|]. simpl. f_equal. auto.
Qed.

(** ** Walks *)

Lemma walk_trans : forall E x y z j k, walk E x y j -> walk E y z k -> walk E x z (j + k).
Proof.
  intros E x y z j k H1 H2. induction H2.
  - rewrite Nat.add_0_r. auto.
  - rewrite Nat.add_succ_r. econstructor; eauto.
Qed.

Lemma walk_edge : forall (E : nat -> nat -> Prop) x y, E x y -> walk E x y 1.
Proof. intros. econstructor; [constructor|auto]. Qed.

Lemma reachable_refl : forall E x, reachable E x x.
Proof. intros. exists 0. constructor. Qed.

Lemma reachable_trans : forall E x y z, reachable E x y -> reachable E y z -> reachable E x z.
Proof. intros E x y z [j H1] [k H2]. exists (j + k). eapply walk_trans; eauto. Qed.

Lemma reachable_edge : forall (E : nat -> nat -> Prop) x y, E x y -> reachable E x y.
Proof. intros. exists 1. apply walk_edge; auto. Qed.

(** ** Topological sort *)

Section Topo.
  Variable succ : node -> list node.
  Let E x y := In y (succ x).

  Definition topo_ok (l : list node) : Prop :=
    forall l1 x l2, l = l1 ++ x :: l2 -> forall y, In y (succ x) -> In y l2.

  Variable U : list node.
  Hypothesis U_closed : forall x y, In x U -> In y (succ x) -> In y U.

  Definition good (st : topo_state) : Prop :=
    t_sorted st = t_marked st /\ NoDup (t_marked st) /\ topo_ok (t_marked st) /\
    (forall x, In x (t_temp st) -> ~ In x (t_marked st)) /\ NoDup (t_temp st) /\
    incl (t_temp st) U.

  Definition post (srcs : list node) (st : topo_state) (r : result topo_state) : Prop :=
    match r with
    | Ok st' =>
        good st' /\ t_temp st' = t_temp st /\ (forall n, In n srcs -> In n (t_marked st')) /\
        exists new, t_marked st' = new ++ t_marked st /\
                    forall x, In x new -> exists n, In n srcs /\ reachable E n x
    | Raise e =>
        e = NameError /\ exists n x, In n srcs /\ reachable E n x /\ on_cycle E x
    end.

  Lemma fold_raise : forall (f : node -> topo_state -> result topo_state) ds e,
    fold_left (fun acc d => s <- acc ;; f d s) ds (Raise e) = Raise e.
  Proof. induction ds; simpl; auto. Qed.

  Lemma post_fold : forall (f : node -> topo_state -> result topo_state) (P : topo_state -> Prop) ds st,
    (forall d st, In d ds -> good st -> P st -> post [d] st (f d st)) ->
    (forall st st', P st -> t_temp st' = t_temp st -> P st') ->
    good st -> P st ->
    post ds st (fold_left (fun acc d => s <- acc ;; f d s) ds (Ok st)).
  Proof.
    intros f P ds. induction ds as [|d ds IH]; intros st Hf HP G Pst; simpl.
    - split; auto. split; auto. split; [intros n []|]. exists []. split; auto. intros x [].
    - pose proof (Hf d st (or_introl eq_refl) G Pst) as H1. destruct (f d st) as [st1|e].
      + destruct H1 as (G1 & T1 & M1 & new1 & N1 & R1).
        assert (H2 : post ds st1 (fold_left (fun acc d => s <- acc ;; f d s) ds (Ok st1))).
        { apply IH; auto.
          - intros; apply Hf; auto. right; auto.
          - eapply HP; eauto. }
        destruct (fold_left _ ds (Ok st1)) as [st2|e].
        * destruct H2 as (G2 & T2 & M2 & new2 & N2 & R2). split; auto. split; [congruence|]. split.
          -- intros n [->|Hn]; [|auto]. rewrite N2. apply in_or_app. right. apply M1. left; auto.
          -- exists (new2 ++ new1). split; [rewrite N2, N1, app_assoc; auto|].
             intros x Hx. apply in_app_or in Hx. destruct Hx as [Hx|Hx].
             ++ destruct (R2 x Hx) as (n & Hn & Hr). exists n; split; auto. right; auto.
             ++ destruct (R1 x Hx) as (n & [->|[]] & Hr). exists n; split; auto. left; auto.
        * destruct H2 as (-> & n & x & Hn & Hr). split; auto. exists n, x. split; auto. right; auto.
      + destruct H1 as (-> & n & x & [->|[]] & Hr). rewrite fold_raise. split; auto.
        exists n, x. split; auto. left; auto.
  Qed.

  Lemma topo_ok_cons : forall n l, topo_ok l -> (forall y, In y (succ n) -> In y l) -> topo_ok (n :: l).
  Proof.
    intros n l H Hn l1 x l2 Eq y Hy. destruct l1 as [|z l1]; simpl in Eq; inversion Eq; subst.
    - auto.
    - eapply H; eauto.
  Qed.

  Lemma visit_post : forall fuel n st,
    good st -> In n U -> length U < fuel + length (t_temp st) ->
    (forall t, In t (t_temp st) -> exists k, walk E t n (S k)) ->
    post [n] st (visit fuel succ n st).
  Proof.
    induction fuel as [|fuel IH]; intros n st G HU HF HT.
    - exfalso. destruct G as (_ & _ & _ & _ & ND & IU).
      pose proof (NoDup_incl_length ND IU). simpl in HF. lia.
    - simpl. destruct (mem n (t_temp st)) eqn:MT.
      + apply mem_In in MT. split; auto. exists n, n. split; [left; auto|].
        split; [apply reachable_refl|]. apply HT; auto.
      + apply mem_nIn in MT. destruct (mem n (t_marked st)) eqn:MM.
        * apply mem_In in MM. split; auto. split; auto. split.
          -- intros m [->|[]]; auto.
          -- exists []. split; auto. intros x [].
        * apply mem_nIn in MM.
          destruct G as (G1 & G2 & G3 & G4 & G5 & G6).
          set (st1 := mkTopo (t_sorted st) (t_marked st) (n :: t_temp st)).
          assert (GS1 : good st1).
          { repeat split; simpl; auto.
            - intros x [->|Hx]; auto.
            - constructor; auto.
            - intros x [->|Hx]; auto. }
          assert (PF : post (succ n) st1
                    (fold_left (fun acc d => s <- acc ;; visit fuel succ d s) (succ n) (Ok st1))).
          { apply (post_fold _ (fun s => t_temp s = n :: t_temp st)); auto.
            - intros d s Hd Gs Ts. apply IH; auto.
              + eapply U_closed; eauto.
              + rewrite Ts. simpl. lia.
              + rewrite Ts. intros t [<-|Ht].
                * exists 0. apply walk_edge; auto.
                * destruct (HT t Ht) as [k Hk]. exists (S k). econstructor; eauto.
            - intros s s' H1 H2. congruence. }
          destruct (fold_left _ (succ n) (Ok st1)) as [st2|e].
          -- destruct PF as ((S1 & S2 & S3 & S4 & S5 & S6) & T & M & new & N & R).
             simpl in T, N. unfold post, bind. rewrite T. simpl. rewrite Nat.eqb_refl. simpl.
             rewrite filter_neq_id by auto.
             assert (NM : ~ In n (t_marked st2)) by (apply S4; rewrite T; left; auto).
             split; [|split; [reflexivity|split]].
             ++ unfold good; simpl. split; [congruence|]. split; [constructor; auto|].
                split; [apply topo_ok_cons; auto|]. split; [|split; auto].
                intros z Hz [->|Hz2]; [auto|]. revert Hz2. apply S4. rewrite T. right; auto.
             ++ intros m [->|[]]. simpl. auto.
             ++ exists (n :: new). split; [simpl; congruence|].
                intros x [->|Hx]; [exists x; split; [left; auto|apply reachable_refl]|].
                destruct (R x Hx) as (m & Hm & Hr). exists n. split; [left; auto|].
                eapply reachable_trans; [apply reachable_edge|eauto]. exact Hm.
          -- destruct PF as (-> & m & x & Hm & Hr & Hc). split; auto. exists n, x.
             split; [left; auto|]. split; auto.
             eapply reachable_trans; [apply reachable_edge|eauto]. exact Hm.
  Qed.

  Lemma topo_post : forall fuel order, length U < fuel -> incl order U ->
    post order (mkTopo [] [] [])
      (fold_left (fun acc n => s <- acc ;; visit fuel succ n s) order (Ok (mkTopo [] [] []))).
  Proof.
    intros fuel order HF HO. apply (post_fold _ (fun s => t_temp s = [])); auto.
    - intros d st Hd G T. apply visit_post; auto; rewrite T; simpl; [lia|intros t []].
    - intros; congruence.
    - unfold good; simpl. split; [reflexivity|]. split; [constructor|]. split.
      { intros l1 x l2 Eq. destruct l1; discriminate. }
      split; [intros x []|]. split; [constructor|intros x []].
  Qed.

  (** In a list closed forward, everything reachable from an element is the element itself or
      occurs later. *)
  Lemma topo_ok_walk : forall l l1 x l2 y k, topo_ok l -> l = l1 ++ x :: l2 ->
    walk E x y k -> (k = 0 /\ x = y) \/ In y l2.
  Proof.
    intros l l1 x l2 y k T Eq W. induction W.
    - left; auto.
    - right. destruct (IHW Eq) as [[-> ->]|H1].
      + eapply T; eauto.
      + apply in_split in H1. destruct H1 as (a & b & ->).
        apply in_or_app. right. right.
        eapply (T (l1 ++ x :: a) y b); [|exact H].
        rewrite Eq, <- app_assoc. reflexivity.
  Qed.

  Lemma topo_ok_reach : forall l x y, topo_ok l -> In x l -> reachable E x y -> In y l.
  Proof.
    intros l x y T Hx [k W]. apply in_split in Hx. destruct Hx as (a & b & ->).
    destruct (topo_ok_walk _ a x b y k T eq_refl W) as [[_ <-]|H];
      apply in_or_app; right; simpl; auto.
  Qed.

  Lemma topo_ok_no_cycle : forall l x, NoDup l -> topo_ok l -> In x l -> ~ on_cycle E x.
  Proof.
    intros l x ND T Hx [k W]. apply in_split in Hx. destruct Hx as (a & b & ->).
    destruct (topo_ok_walk _ a x b x (S k) T eq_refl W) as [[H _]|H]; [discriminate|].
    apply NoDup_remove_2 in ND. apply ND. apply in_or_app; auto.
  Qed.
End Topo.

Definition edge_of (succ : nat -> list nat) (x y : nat) : Prop := In y (succ x).

Lemma topological_sort_ok : forall succ U fuel order,
  (forall x y, In x U -> In y (succ x) -> In y U) -> incl order U -> length U < fuel ->
  (forall n x, In n order -> reachable (edge_of succ) n x -> ~ on_cycle (edge_of succ) x) ->
  exists l, topological_sort fuel succ order = Ok l /\
    NoDup l /\
    (forall x, In x l <-> exists n, In n order /\ reachable (edge_of succ) n x) /\
    (forall x y, In x l -> edge_of succ x y -> before l x y).
Proof.
  intros succ U fuel order HC HO HF AC.
  pose proof (topo_post succ U HC fuel order HF HO) as P.
  unfold topological_sort.
  destruct (fold_left _ order _) as [st|e]; simpl.
  - destruct P as ((G1 & G2 & G3 & _) & _ & M & new & N & R). simpl in N. rewrite app_nil_r in N.
    exists (t_sorted st). split; auto. rewrite G1. split; auto. split.
    + intros x. split.
      * rewrite N. apply R.
      * intros (n & Hn & Hr). eapply topo_ok_reach; eauto.
    + intros x y Hx He. apply in_split in Hx. destruct Hx as (a & b & Eq).
      pose proof (G3 a x b Eq y He) as Hy. apply In_nth_error in Hy. destruct Hy as (j & Hj).
      exists (length a), (length a + S j). split; [lia|]. rewrite Eq. split.
      * rewrite nth_error_app2, Nat.sub_diag by lia. reflexivity.
      * rewrite nth_error_app2 by lia. replace (length a + S j - length a) with (S j) by lia. exact Hj.
  - exfalso. destruct P as (_ & n & x & Hn & Hr & Hc). eapply AC; eauto.
Qed.

Lemma topological_sort_cycle : forall succ U fuel order,
  (forall x y, In x U -> In y (succ x) -> In y U) -> incl order U -> length U < fuel ->
  (topological_sort fuel succ order = Raise NameError <->
   exists n x, In n order /\ reachable (edge_of succ) n x /\ on_cycle (edge_of succ) x).
Proof.
  intros succ U fuel order HC HO HF.
  pose proof (topo_post succ U HC fuel order HF HO) as P.
  unfold topological_sort.
  destruct (fold_left _ order _) as [st|e]; simpl.
  - split; [discriminate|]. intros (n & x & Hn & Hr & Hc). exfalso.
    destruct P as ((G1 & G2 & G3 & _) & _ & M & _).
    apply (topo_ok_no_cycle succ (t_marked st) x); auto.
    apply (topo_ok_reach succ (t_marked st) n x); auto.
  - destruct P as (-> & H). split; auto.
Qed.

Lemma topological_sort_total : forall succ U fuel order,
  (forall x y, In x U -> In y (succ x) -> In y U) -> incl order U -> length U < fuel ->
  is_ok (topological_sort fuel succ order) \/ topological_sort fuel succ order = Raise NameError.
Proof.
  intros succ U fuel order HC HO HF.
  pose proof (topo_post succ U HC fuel order HF HO) as P.
  unfold topological_sort.
  destruct (fold_left _ order _) as [st|e]; simpl.
  - left. eexists; eauto.
  - right. destruct P as (-> & _). reflexivity.
Qed.

(** ** Breadth first search *)

Section Bfs.
  Variable succ : node -> list node.
  Variable s : node.
  Let E x y := In y (succ x).

  Lemma distance_inj : forall x j k, distance E s x j -> distance E s x k -> j = k.
  Proof. intros x j k [A B] [C D]. specialize (B _ C). specialize (D _ A). lia. Qed.

  Definition ordered (l : list node) : Prop :=
    forall i j x y kx ky, i < j -> nth_error l i = Some x -> nth_error l j = Some y ->
      distance E s x kx -> distance E s y ky -> kx <= ky.

  Record binv (out queue visited : list node) : Prop := {
    bi_nodup : NoDup (out ++ queue);
    bi_visited : forall x, In x visited <-> In x (out ++ queue);
    bi_dist : forall x, In x (out ++ queue) -> exists k, distance E s x k;
    bi_done : forall x y, In x out -> In y (succ x) -> In y visited;
    bi_ordered : ordered (out ++ queue);
    bi_close : forall x y kx ky, In x queue -> In y queue ->
                 distance E s x kx -> distance E s y ky -> ky <= S kx;
    bi_start : In s visited
  }.

  Lemma bfs_scan_spec : forall ds q v q' v', bfs_scan ds q v = (q', v') ->
    exists new, q' = q ++ new /\ NoDup new /\
      (forall x, In x new <-> In x ds /\ ~ In x v) /\
      (forall x, In x v' <-> In x v \/ In x new).
  Proof.
    induction ds as [|d ds IH]; simpl; intros q v q' v' H.
    - inversion H; subst. exists []. rewrite app_nil_r. repeat split; auto; try constructor; simpl; tauto.
    - destruct (mem d v) eqn:M.
      + apply mem_In in M. apply IH in H. destruct H as (new & -> & N & I & V).
        exists new. split; auto. split; auto. split; auto. intros x. rewrite I. split.
        * tauto.
        * intros [[->|A] B]; tauto.
      + apply mem_nIn in M. apply IH in H. destruct H as (new & -> & N & I & V).
        exists (d :: new). split; [rewrite <- app_assoc; auto|]. split.
        * constructor; auto. rewrite I. simpl. tauto.
        * split.
          -- intros x. simpl. rewrite I. simpl. split.
             ++ intros [->|[A B]]; tauto.
             ++ intros [[->|A] B]; [tauto|]. destruct (Nat.eq_dec d x); [tauto|]. right. tauto.
          -- intros x. rewrite V. simpl. tauto.
  Qed.

  (** A walk leaving the visited set passes through the queue. *)
  Lemma leave_visited : forall out queue visited z k,
    binv out queue visited -> walk E s z k -> ~ In z visited ->
    exists w j, In w queue /\ walk E s w j /\ j < k.
  Proof.
    intros out queue visited z k I W. revert W. induction k as [|k IH] in z |- *; intros W NV.
    - inversion W; subst. exfalso. apply NV, (bi_start _ _ _ I).
    - inversion W; subst. destruct (in_dec Nat.eq_dec y visited) as [Y|Y].
      + apply (bi_visited _ _ _ I) in Y. apply in_app_or in Y. destruct Y as [Y|Y].
        * exfalso. apply NV. eapply bi_done; eauto.
        * exists y, k. auto.
      + destruct (IH _ H0 Y) as (w & j & A & B & C). exists w, j. auto.
  Qed.

  Lemma head_min : forall out n q visited w kn kw,
    binv out (n :: q) visited -> In w (n :: q) ->
    distance E s n kn -> distance E s w kw -> kn <= kw.
  Proof.
    intros out n q visited w kn kw I [<-|Hw] D1 D2.
    - rewrite (distance_inj _ _ _ D1 D2). auto.
    - apply In_nth_error in Hw. destruct Hw as (j & Hj).
      apply (bi_ordered _ _ _ I (length out) (length out + S j) n w); auto; [lia| |].
      + rewrite nth_error_app2, Nat.sub_diag by lia. reflexivity.
      + rewrite nth_error_app2 by lia. replace (length out + S j - length out) with (S j) by lia. auto.
  Qed.

  Lemma binv_step : forall out n q visited q' v',
    binv out (n :: q) visited -> bfs_scan (succ n) q visited = (q', v') ->
    binv (out ++ [n]) q' v'.
  Proof.
    intros out n q visited q' v' I Sc. apply bfs_scan_spec in Sc.
    destruct Sc as (new & -> & NDn & Hnew & Hv).
    assert (Assoc : (out ++ [n]) ++ q ++ new = (out ++ n :: q) ++ new)
      by (rewrite <- !app_assoc; reflexivity).
    destruct (bi_dist _ _ _ I n) as (d & Dn); [apply in_or_app; right; left; auto|].
    assert (NewD : forall y, In y new -> distance E s y (S d)).
    { intros y Hy. apply Hnew in Hy. destruct Hy as [Hs Hnv]. split.
      - econstructor; [apply Dn|exact Hs].
      - intros j Wj. destruct (leave_visited _ _ _ _ _ I Wj Hnv) as (w & i & Hw & Ww & Lt).
        destruct (bi_dist _ _ _ I w) as (kw & Dw); [apply in_or_app; auto|].
        pose proof (head_min _ _ _ _ _ _ _ I Hw Dn Dw). destruct Dw as [_ Mw].
        specialize (Mw _ Ww). lia. }
    constructor.
    - rewrite Assoc.
      assert (NoDup (out ++ n :: q)) by apply (bi_nodup _ _ _ I).
      revert H. generalize (bi_visited _ _ _ I). intros HV ND0.
      assert (Dis : forall x, In x (out ++ n :: q) -> ~ In x new).
      { intros x Hx Hn. apply Hnew in Hn. apply HV in Hx. tauto. }
      clear - ND0 NDn Dis. induction (out ++ n :: q) as [|x l IH]; simpl; auto.
      inversion ND0; subst. constructor.
      + rewrite in_app_iff. intros [A|A]; [auto|]. apply (Dis x); auto. left; auto.
      + apply IH; auto. intros y Hy. apply Dis. right; auto.
    - intros x. rewrite Hv, Assoc, in_app_iff, (bi_visited _ _ _ I). tauto.
    - intros x. rewrite Assoc, in_app_iff. intros [H|H].
      + apply (bi_dist _ _ _ I); auto.
      + exists (S d); auto.
    - intros x y Hx Hy. apply Hv. apply in_app_or in Hx. destruct Hx as [Hx|[<-|[]]].
      + left. eapply bi_done; eauto.
      + destruct (in_dec Nat.eq_dec y visited); auto. right. apply Hnew. auto.
    - rewrite Assoc. intros i j x y kx ky Hij Hi Hj Dx Dy.
      destruct (le_lt_dec (length (out ++ n :: q)) j) as [L|L].
      + rewrite nth_error_app2 in Hj by auto. apply nth_error_In in Hj.
        rewrite (distance_inj _ _ _ Dy (NewD _ Hj)).
        destruct (le_lt_dec (length (out ++ n :: q)) i) as [L2|L2].
        * rewrite nth_error_app2 in Hi by auto. apply nth_error_In in Hi.
          rewrite (distance_inj _ _ _ Dx (NewD _ Hi)). auto.
        * rewrite nth_error_app1 in Hi by auto.
          destruct (le_lt_dec (length out) i) as [L3|L3].
          -- rewrite nth_error_app2 in Hi by auto. apply nth_error_In in Hi.
             apply (bi_close _ _ _ I n x d kx); auto. left; auto.
          -- assert (kx <= d); [|lia].
             apply (bi_ordered _ _ _ I i (length out) x n); auto.
             ++ rewrite nth_error_app2, Nat.sub_diag by lia. reflexivity.
      + rewrite nth_error_app1 in Hj by auto. rewrite nth_error_app1 in Hi by lia.
        apply (bi_ordered _ _ _ I i j x y); auto.
    - intros x y kx ky Hx Hy Dx Dy.
      assert (Lx : d <= kx).
      { apply in_app_or in Hx. destruct Hx as [Hx|Hx].
        - apply (head_min _ _ _ _ _ _ _ I (or_intror Hx) Dn Dx).
        - rewrite (distance_inj _ _ _ Dx (NewD _ Hx)). lia. }
      assert (Ly : ky <= S d).
      { apply in_app_or in Hy. destruct Hy as [Hy|Hy].
        - apply (bi_close _ _ _ I n y d ky); auto; [left|right]; auto.
        - rewrite (distance_inj _ _ _ Dy (NewD _ Hy)). lia. }
      lia.
    - apply Hv. left. apply (bi_start _ _ _ I).
  Qed.

  Variable U : list node.
  Hypothesis U_closed : forall x y, In x U -> In y (succ x) -> In y U.

  Lemma bfs_loop_inv : forall fuel out queue visited,
    binv out queue visited -> incl (out ++ queue) U -> length U <= fuel + length out ->
    exists rest visited', bfs_loop fuel succ queue visited = Ok rest /\
      binv (out ++ rest) [] visited' /\ (exists tl, queue ++ tl = rest).
  Proof.
    induction fuel as [|fuel IH]; intros out queue visited I HU HF.
    - destruct queue as [|n q]; simpl.
      + exists [], visited. rewrite app_nil_r. split; auto. split; auto. exists []; auto.
      + exfalso. pose proof (NoDup_incl_length (bi_nodup _ _ _ I) HU) as L.
        rewrite app_length in L. simpl in *. lia.
    - destruct queue as [|n q]; simpl.
      + exists [], visited. rewrite app_nil_r. split; auto. split; auto. exists []; auto.
      + destruct (bfs_scan (succ n) q visited) as [q' v'] eqn:Sc.
        pose proof (binv_step _ _ _ _ _ _ I Sc) as I'.
        destruct (IH (out ++ [n]) q' v' I') as (rest & vf & Er & If & (tl & Et)).
        * apply bfs_scan_spec in Sc. destruct Sc as (new & -> & _ & Hnew & _).
          intros x. rewrite <- app_assoc. simpl.
          intros Hx. apply in_app_or in Hx. destruct Hx as [Hx|[<-|Hx]].
          -- apply HU, in_or_app; auto.
          -- apply HU, in_or_app; right; left; auto.
          -- apply in_app_or in Hx. destruct Hx as [Hx|Hx].
             ++ apply HU, in_or_app; right; right; auto.
             ++ apply Hnew in Hx. eapply U_closed; [|apply Hx].
                apply HU, in_or_app; right; left; auto.
        * rewrite app_length. simpl. lia.
        * exists (n :: rest), vf. rewrite Er. split; auto.
          rewrite <- app_assoc in If. split; auto.
          apply bfs_scan_spec in Sc. destruct Sc as (new & -> & _).
          exists (new ++ tl). rewrite <- Et, app_assoc. reflexivity.
  Qed.

  Lemma bfs_ok : forall fuel, In s U -> length U <= fuel ->
    exists l, breadth_first_search fuel succ s = Ok l /\
      (exists t, l = s :: t) /\ NoDup l /\
      (forall x, In x l <-> reachable E s x) /\ ordered l.
  Proof.
    intros fuel HS HF.
    assert (D0 : distance E s s 0) by (split; [constructor|intros; lia]).
    assert (I0 : binv [] [s] [s]).
    { constructor; simpl.
      - constructor; [intros []|constructor].
      - tauto.
      - intros x [<-|[]]. eauto.
      - intros x y [].
      - intros i j x y kx ky Hij Hi Hj. destruct j as [|j]; [lia|]. destruct j; discriminate.
      - intros x y kx ky [<-|[]] [<-|[]] A B. rewrite (distance_inj _ _ _ A B). lia.
      - left; auto. }
    destruct (bfs_loop_inv fuel [] [s] [s] I0) as (l & v & El & I & (t & Et)).
    - intros x [<-|[]]; auto.
    - simpl. lia.
    - exists l. split; auto. simpl in Et. split; [exists t; auto|]. simpl in I.
      pose proof (bi_nodup _ _ _ I) as ND. rewrite app_nil_r in ND. split; auto.
      pose proof (bi_ordered _ _ _ I) as OR. rewrite app_nil_r in OR. split; auto.
      intros x. split.
      + intros Hx. destruct (bi_dist _ _ _ I x) as (k & W & _); [rewrite app_nil_r; auto|]. exists k; auto.
      + intros (k & W). destruct (in_dec Nat.eq_dec x v) as [Y|Y].
        * apply (bi_visited _ _ _ I) in Y. rewrite app_nil_r in Y. auto.
        * destruct (leave_visited _ _ _ _ _ I W Y) as (w & j & [] & _).
  Qed.
End Bfs.

(** ** Histories of graph operations refine the abstract graph *)

Lemma represents_empty : represents empty_graph a_empty.
Proof.
  constructor; simpl.
  - reflexivity.
  - reflexivity.
  - constructor.
  - intros [|x] o H; discriminate.
  - intros [|y] o H; discriminate.
  - tauto.
Qed.

Lemma dict_get_combine : forall ids s id,
  (dict_get id (combine ids (seq s (length ids))) = None <-> ~ In id ids).
Proof.
  induction ids as [|i ids IH]; simpl; intros s id; [tauto|].
  destruct (Z.eqb_spec id i).
  - split; [discriminate|]. intros H; exfalso; auto.
  - rewrite IH. split; [intros H [H1|H1]; congruence || auto|tauto].
Qed.

Lemma set_add_In : forall x s y, In y (set_add x s) <-> In y s \/ y = x.
Proof.
  intros. unfold set_add. destruct (mem x s) eqn:M.
  - apply mem_In in M. split; [auto|]. intros [ | -> ]; auto.
  - rewrite in_app_iff. simpl. intuition congruence.
Qed.

Lemma set_add_NoDup : forall x s, NoDup s -> NoDup (set_add x s).
Proof.
  intros. unfold set_add. destruct (mem x s) eqn:M; auto. apply mem_nIn in M.
  apply (Permutation_NoDup (l := x :: s)); [apply Permutation_cons_append|constructor; auto].
Qed.

Lemma set_remove_spec : forall x s r, set_remove x s = r ->
  match r with
  | Ok s' => In x s /\ (NoDup s -> NoDup s') /\ forall y, In y s' <-> In y s /\ y <> x
  | Raise e => e = KeyError /\ ~ In x s
  end.
Proof.
  intros x s r <-. unfold set_remove. destruct (mem x s) eqn:M.
  - apply mem_In in M. split; auto. split; [apply NoDup_filter|].
    intros y. rewrite filter_In. destruct (Nat.eqb_spec x y); simpl; intuition congruence.
  - apply mem_nIn in M. auto.
Qed.

Lemma heap_len : forall g a, represents g a -> length (g_heap g) = length (a_ids a).
Proof. intros g a R. rewrite <- (r_ids _ _ R), map_length. reflexivity. Qed.

Lemma nth_update' : forall A (l : list A) i x j,
  i < length l -> nth_error (update i x l) j = if Nat.eqb i j then Some x else nth_error l j.
Proof.
  intros. destruct (Nat.eqb_spec i j).
  - subst. apply nth_error_Some in H. destruct (nth_error l j) eqn:E; [|congruence].
    eapply nth_error_update_eq; eauto.
  - apply nth_error_update_neq; auto.
Qed.

Lemma map_id_update : forall l i o o', nth_error l i = Some o -> n_id o' = n_id o ->
  map n_id (update i o' l) = map n_id l.
Proof.
  induction l as [|x l IH]; intros [|i] o o' H E; simpl in *; try discriminate.
  - inversion H; subst. congruence.
  - f_equal. eapply IH; eauto.
Qed.

Lemma connect_represents : forall g a s x,
  represents g a -> exists_node a x -> exists_node a s ->
  exists g', connect_ancestor g s x = Ok g' /\
    represents g' (mkA (a_ids a) (fun u v => a_edge a u v \/ (u = x /\ v = s))).
Proof.
  intros g a s x R Hx Hs. unfold exists_node in *.
  pose proof (heap_len _ _ R) as HL.
  destruct (nth_error (g_heap g) s) as [os|] eqn:Es; [|apply nth_error_None in Es; lia].
  destruct (nth_error (g_heap g) x) as [ox|] eqn:Ex; [|apply nth_error_None in Ex; lia].
  unfold connect_ancestor, get_node. rewrite Es, Ex. simpl.
  set (os1 := mkNode (n_id os) (set_add x (n_ancestors os)) (n_descendants os)).
  assert (E1 : nth_error (update s os1 (g_heap g)) x =
                 Some (if Nat.eqb s x then os1 else ox)).
  { rewrite nth_update' by lia. destruct (Nat.eqb s x); auto. }
  rewrite E1. eexists; split; [reflexivity|].
  set (ax := if Nat.eqb s x then os1 else ox).
  set (ax1 := mkNode (n_id ax) (n_ancestors ax) (set_add s (n_descendants ax))).
  assert (Hget : forall n o, nth_error (g_heap (put_node (put_node g s os1) x ax1)) n = Some o ->
            exists o0, nth_error (g_heap g) n = Some o0 /\
              n_ancestors o = (if Nat.eqb n s then set_add x (n_ancestors o0) else n_ancestors o0) /\
              n_descendants o = (if Nat.eqb n x then set_add s (n_descendants o0) else n_descendants o0)).
  { intros n o. simpl. rewrite nth_update' by (rewrite update_length; lia).
    rewrite nth_update' by lia. unfold ax1, ax, os1.
    destruct (Nat.eqb_spec x n).
    - subst n. intros Eo; inversion Eo; subst o; clear Eo. rewrite Nat.eqb_refl.
      rewrite (Nat.eqb_sym x s). destruct (Nat.eqb_spec s x).
      + subst x. exists os. simpl. auto.
      + exists ox. simpl. auto.
    - destruct (Nat.eqb_spec s n).
      + subst n. intros Eo; inversion Eo; subst o; clear Eo. exists os.
        rewrite Nat.eqb_refl. destruct (Nat.eqb_spec s x); [congruence|]. simpl. auto.
      + intros Eo. exists o. destruct (Nat.eqb_spec n s); [congruence|].
        destruct (Nat.eqb_spec n x); [congruence|]. auto. }
  constructor; simpl a_ids; simpl a_edge.
  - simpl. rewrite <- (r_ids _ _ R).
    rewrite (map_id_update _ x ax ax1); [|exact E1|reflexivity].
    apply (map_id_update _ s os os1); auto.
  - simpl. apply (r_nodes _ _ R).
  - apply (r_unique _ _ R).
  - intros n o Ho. destruct (Hget n o Ho) as (o0 & E0 & _ & ->).
    destruct (r_desc _ _ R n o0 E0) as [ND I]. destruct (Nat.eqb_spec n x).
    + split; [apply set_add_NoDup; auto|]. intros y. rewrite set_add_In, I. subst. intuition congruence.
    + split; auto. intros y. rewrite I. intuition congruence.
  - intros n o Ho. destruct (Hget n o Ho) as (o0 & E0 & -> & _).
    destruct (r_anc _ _ R n o0 E0) as [ND I]. destruct (Nat.eqb_spec n s).
    + split; [apply set_add_NoDup; auto|]. intros y. rewrite set_add_In, I. subst. intuition congruence.
    + split; auto. intros y. rewrite I. intuition congruence.
  - intros u v [H|[-> ->]]; [apply (r_range _ _ R); auto|]. lia.
Qed.

Lemma disconnect_represents : forall g a s x r g',
  represents g a -> disconnect_ancestor g s x = (r, g') ->
  (a_edge a x s /\ r = Ok tt /\
     represents g' (mkA (a_ids a) (fun u v => a_edge a u v /\ ~ (u = x /\ v = s)))) \/
  (~ a_edge a x s /\ accepted r = false /\ g' = g /\
     (x < length (a_ids a) -> s < length (a_ids a) -> r = Raise KeyError)).
Proof.
  intros g a s x r g' R H. pose proof (heap_len _ _ R) as HL.
  unfold disconnect_ancestor, get_node in H.
  destruct (nth_error (g_heap g) s) as [os|] eqn:Es.
  2:{ right. inversion H; subst. apply nth_error_None in Es. repeat split; auto; [|intros; lia].
      intros He. apply (r_range _ _ R) in He. lia. }
  destruct (nth_error (g_heap g) x) as [ox|] eqn:Ex.
  2:{ right. inversion H; subst. apply nth_error_None in Ex. repeat split; auto; [|intros; lia].
      intros He. apply (r_range _ _ R) in He. lia. }
  assert (Ls : s < length (g_heap g)) by (apply nth_error_Some; congruence).
  assert (Lx : x < length (g_heap g)) by (apply nth_error_Some; congruence).
  destruct (r_anc _ _ R s os Es) as [ND1 I1].
  pose proof (set_remove_spec x (n_ancestors os) _ eq_refl) as SR1.
  destruct (set_remove x (n_ancestors os)) as [anc'|e].
  2:{ right. inversion H; subst. destruct SR1 as [-> N]. rewrite I1 in N. auto. }
  destruct SR1 as (Hin & ND1' & I1'). apply I1 in Hin.
  left. split; auto.
  set (os1 := mkNode (n_id os) anc' (n_descendants os)) in *.
  assert (E1 : nth_error (g_heap (put_node g s os1)) x = Some (if Nat.eqb s x then os1 else ox)).
  { simpl. rewrite nth_update' by lia. destruct (Nat.eqb s x); auto. }
  rewrite E1 in H. set (ax := if Nat.eqb s x then os1 else ox) in *.
  assert (Dax : n_descendants ax = n_descendants ox).
  { unfold ax. destruct (Nat.eqb_spec s x); auto. subst. unfold os1. simpl. congruence. }
  destruct (r_desc _ _ R x ox Ex) as [ND2 I2].
  pose proof (set_remove_spec s (n_descendants ax) _ eq_refl) as SR2.
  destruct (set_remove s (n_descendants ax)) as [desc'|e].
  2:{ exfalso. destruct SR2 as [_ N]. apply N. rewrite Dax. apply I2. auto. }
  destruct SR2 as (_ & ND2' & I2'). rewrite Dax in ND2', I2'.
  inversion H; subst; clear H. split; auto.
  set (ax1 := mkNode (n_id ax) (n_ancestors ax) desc').
  assert (Hget : forall n o, nth_error (g_heap (put_node (put_node g s os1) x ax1)) n = Some o ->
            exists o0, nth_error (g_heap g) n = Some o0 /\
              n_ancestors o = (if Nat.eqb n s then anc' else n_ancestors o0) /\
              n_descendants o = (if Nat.eqb n x then desc' else n_descendants o0)).
  { intros n o. simpl. rewrite nth_update' by (rewrite update_length; lia).
    rewrite nth_update' by lia. unfold ax1, ax, os1.
    destruct (Nat.eqb_spec x n).
    - subst n. intros Eo; inversion Eo; subst o; clear Eo. rewrite Nat.eqb_refl.
      rewrite (Nat.eqb_sym x s). destruct (Nat.eqb_spec s x).
      + subst x. exists os. simpl. auto.
      + exists ox. simpl. auto.
    - destruct (Nat.eqb_spec s n).
      + subst n. intros Eo; inversion Eo; subst o; clear Eo. exists os.
        rewrite Nat.eqb_refl. destruct (Nat.eqb_spec s x); [congruence|]. simpl. auto.
      + intros Eo. exists o. destruct (Nat.eqb_spec n s); [congruence|].
        destruct (Nat.eqb_spec n x); [congruence|]. auto. }
  constructor; simpl a_ids; simpl a_edge.
  - simpl. rewrite <- (r_ids _ _ R).
    rewrite (map_id_update _ x ax ax1); [|exact E1|reflexivity].
    apply (map_id_update _ s os os1); auto.
  - simpl. apply (r_nodes _ _ R).
  - apply (r_unique _ _ R).
  - intros n o Ho. destruct (Hget n o Ho) as (o0 & E0 & _ & ->).
    destruct (r_desc _ _ R n o0 E0) as [ND I]. destruct (Nat.eqb_spec n x).
    + subst. rewrite Ex in E0. inversion E0; subst. split; auto. intros y. rewrite I2', I. intuition congruence.
    + split; auto. intros y. rewrite I. intuition congruence.
  - intros n o Ho. destruct (Hget n o Ho) as (o0 & E0 & -> & _).
    destruct (r_anc _ _ R n o0 E0) as [ND I]. destruct (Nat.eqb_spec n s).
    + subst. rewrite Es in E0. inversion E0; subst. split; auto. intros y. rewrite I1', I. intuition congruence.
    + split; auto. intros y. rewrite I. intuition congruence.
  - intros u v [Hu _]. apply (r_range _ _ R); auto.
Qed.

Lemma combine_snoc : forall A B (l1 : list A) (l2 : list B) a b, length l1 = length l2 ->
  combine (l1 ++ [a]) (l2 ++ [b]) = combine l1 l2 ++ [(a, b)].
Proof.
  induction l1 as [|x l1 IH]; intros [|y l2] a b H; simpl in *; try discriminate; auto.
  f_equal. apply IH. congruence.
Qed.

Lemma add_represents : forall g a id n g',
  represents g a -> add_node g id = Ok (n, g') ->
  ~ In id (a_ids a) /\ n = length (a_ids a) /\
  represents g' (mkA (a_ids a ++ [id]) (a_edge a)).
Proof.
  intros g a id n g' R H. pose proof (heap_len _ _ R) as HL. unfold add_node in H.
  destruct (dict_get id (g_nodes g)) eqn:Dg; [discriminate|]. inversion H; subst; clear H.
  rewrite (r_nodes _ _ R) in Dg. apply dict_get_combine in Dg. split; auto. split; auto.
  assert (Hget : forall m o, nth_error (g_heap g ++ [mkNode id [] []]) m = Some o ->
             nth_error (g_heap g) m = Some o \/ (m = length (g_heap g) /\ o = mkNode id [] [])).
  { intros m o Hm. destruct (le_lt_dec (length (g_heap g)) m).
    - rewrite nth_error_app2 in Hm by auto. right.
      destruct (m - length (g_heap g)) as [|k] eqn:Ek; simpl in Hm.
      + inversion Hm. split; [lia|auto].
      + destruct k; discriminate.
    - rewrite nth_error_app1 in Hm by auto. auto. }
  constructor; simpl.
  - rewrite map_app, (r_ids _ _ R). reflexivity.
  - rewrite (r_nodes _ _ R), app_length, HL. simpl. rewrite Nat.add_1_r, seq_S.
    rewrite combine_snoc by (rewrite seq_length; auto). reflexivity.
  - apply (Permutation_NoDup (l := id :: a_ids a)); [apply Permutation_cons_append|].
    constructor; auto. apply (r_unique _ _ R).
  - intros x o Hx. destruct (Hget _ _ Hx) as [H|[-> ->]]; [apply (r_desc _ _ R); auto|].
    simpl. split; [constructor|]. intros y. split; [intros []|]. intros He.
    apply (r_range _ _ R) in He. lia.
  - intros y o Hy. destruct (Hget _ _ Hy) as [H|[-> ->]]; [apply (r_anc _ _ R); auto|].
    simpl. split; [constructor|]. intros x. split; [intros []|]. intros He.
    apply (r_range _ _ R) in He. lia.
  - intros x y He. apply (r_range _ _ R) in He. rewrite app_length. simpl. lia.
Qed.

Lemma graph_step_refines : forall g a op r g',
  represents g a -> graph_step g op = (r, g') ->
  exists a', a_step a (request_of op) (accepted r) a' /\ represents g' a'.
Proof.
  intros g a op r g' R H. pose proof (heap_len _ _ R) as HL. destruct op as [id|x y|s x]; simpl in *.
  - destruct (add_node g id) as [[n g1]|e] eqn:E; injection H as <- <-.
    + destruct (add_represents _ _ _ _ _ R E) as (N & _ & R').
      eexists. split; [apply a_add; auto|exact R'].
    + exists a. split; auto. apply a_add_dup. unfold add_node in E.
      destruct (dict_get id (g_nodes g)) eqn:Dg; [|discriminate].
      destruct (in_dec Z.eq_dec id (a_ids a)); auto. exfalso.
      rewrite (r_nodes _ _ R) in Dg.
      assert (dict_get id (combine (a_ids a) (seq 0 (length (a_ids a)))) = None)
        by (apply dict_get_combine; auto). congruence.
  - unfold add_edge in H.
    destruct (le_lt_dec (length (a_ids a)) x) as [Lx|Lx].
    { assert (Hx : nth_error (g_heap g) x = None) by (apply nth_error_None; lia).
      exists a. unfold connect_ancestor, get_node in H. rewrite Hx in H.
      destruct (nth_error (g_heap g) y); simpl in H; inversion H; subst; split; auto;
        apply a_link_bad; unfold exists_node; lia. }
    destruct (le_lt_dec (length (a_ids a)) y) as [Ly|Ly].
    { assert (Hy : nth_error (g_heap g) y = None) by (apply nth_error_None; lia).
      exists a. unfold connect_ancestor, get_node in H. rewrite Hy in H. simpl in H.
      inversion H; subst; split; auto. apply a_link_bad; unfold exists_node; lia. }
    destruct (connect_represents g a y x R Lx Ly) as (g1 & E & R'). rewrite E in H.
    inversion H; subst. eexists. split; [apply a_link; auto|exact R'].
  - destruct (disconnect_represents _ _ _ _ _ _ R H) as [(He & -> & R')|(He & Ha & -> & _)].
    + eexists. split; [apply a_unlink; auto|exact R'].
    + exists a. split; auto. rewrite Ha. apply a_unlink_bad; auto.
Qed.

Lemma graph_run_refines : forall ops g a rs g',
  represents g a -> graph_run g ops = (rs, g') ->
  exists a', a_run a (combine (map request_of ops) (map accepted rs)) a' /\ represents g' a'.
Proof.
  induction ops as [|op ops IH]; simpl; intros g a rs g' R H.
  - inversion H; subst. exists a. split; auto. constructor.
  - destruct (graph_step g op) as [r g1] eqn:E1. destruct (graph_run g1 ops) as [rs1 g2] eqn:E2.
    inversion H; subst; clear H.
    destruct (graph_step_refines _ _ _ _ _ R E1) as (a1 & S1 & R1).
    destruct (IH _ _ _ _ R1 E2) as (a2 & S2 & R2).
    exists a2. split; auto. simpl. econstructor; eauto.
Qed.

Lemma map_snd_nodes : forall g a, represents g a -> map snd (g_nodes g) = seq 0 (length (a_ids a)).
Proof.
  intros g a R. rewrite (r_nodes _ _ R). generalize 0. induction (a_ids a); simpl; intros n; auto.
  f_equal. auto.
Qed.

Lemma roots_ok : forall g a n, represents g a ->
  (In n (roots g) <-> exists_node a n /\ forall x, ~ a_edge a x n).
Proof.
  intros g a n R. unfold roots. rewrite filter_In, (map_snd_nodes _ _ R), in_seq.
  unfold exists_node, node_satisfies. rewrite <- (heap_len _ _ R).
  destruct (nth_error (g_heap g) n) as [o|] eqn:E.
  - assert (n < length (g_heap g)) by (apply nth_error_Some; congruence).
    destruct (r_anc _ _ R n o E) as [_ I]. unfold is_root.
    destruct (n_ancestors o) as [|x l].
    + split; intros; split; try lia; auto. intros x Hx. apply I in Hx. auto.
    + split; [intros [_ F]; discriminate|]. intros [_ F]. exfalso. apply (F x). apply I. left; auto.
  - apply nth_error_None in E. split; [intros [_ F]; discriminate|]. intros [L _]. lia.
Qed.

Lemma leafs_ok : forall g a n, represents g a ->
  (In n (leafs g) <-> exists_node a n /\ forall x, ~ a_edge a n x).
Proof.
  intros g a n R. unfold leafs. rewrite filter_In, (map_snd_nodes _ _ R), in_seq.
  unfold exists_node, node_satisfies. rewrite <- (heap_len _ _ R).
  destruct (nth_error (g_heap g) n) as [o|] eqn:E.
  - assert (n < length (g_heap g)) by (apply nth_error_Some; congruence).
    destruct (r_desc _ _ R n o E) as [_ I]. unfold is_leaf.
    destruct (n_descendants o) as [|x l].
    + split; intros; split; try lia; auto. intros x Hx. apply I in Hx. auto.
    + split; [intros [_ F]; discriminate|]. intros [_ F]. exfalso. apply (F x). apply I. left; auto.
  - apply nth_error_None in E. split; [intros [_ F]; discriminate|]. intros [L _]. lia.
Qed.

(** ** Searches on a graph made by a history *)

Lemma walk_ext : forall (E F : nat -> nat -> Prop) x y k,
  (forall u v, E u v <-> F u v) -> (walk E x y k <-> walk F x y k).
Proof.
  intros E F x y k H. split; intros W; induction W; try constructor; econstructor; eauto; apply H; auto.
Qed.

Lemma reachable_ext : forall (E F : nat -> nat -> Prop) x y,
  (forall u v, E u v <-> F u v) -> (reachable E x y <-> reachable F x y).
Proof. intros. unfold reachable. split; intros [k W]; exists k; eapply walk_ext; eauto; intros; symmetry; auto. Qed.

Lemma on_cycle_ext : forall (E F : nat -> nat -> Prop) x,
  (forall u v, E u v <-> F u v) -> (on_cycle E x <-> on_cycle F x).
Proof. intros. unfold on_cycle. split; intros [k W]; exists k; eapply walk_ext; eauto; intros; symmetry; auto. Qed.

Lemma distance_ext : forall (E F : nat -> nat -> Prop) s x k,
  (forall u v, E u v <-> F u v) -> (distance E s x k <-> distance F s x k).
Proof.
  intros E F s x k H. unfold distance. rewrite (walk_ext E F) by auto.
  split; intros [A B]; split; auto; intros j W; apply B; apply (walk_ext E F); auto.
Qed.

Lemma iter_edge : forall g a succ, represents g a -> iteration_order g succ ->
  forall u v, edge_of succ u v <-> a_edge a u v.
Proof.
  intros g a succ R I u v. unfold edge_of. rewrite (I u v).
  unfold descendants_of. destruct (nth_error (g_heap g) u) as [o|] eqn:E.
  - apply (r_desc _ _ R u o E).
  - apply nth_error_None in E. rewrite (heap_len _ _ R) in E. split; [intros []|].
    intros H. apply (r_range _ _ R) in H. lia.
Qed.

Lemma closed_nodes : forall g a succ, represents g a -> iteration_order g succ ->
  forall x y, In x (seq 0 (length (a_ids a))) -> In y (succ x) -> In y (seq 0 (length (a_ids a))).
Proof.
  intros g a succ R I x y _ Hy. apply (iter_edge g a succ R I) in Hy.
  apply (r_range _ _ R) in Hy. apply in_seq. lia.
Qed.

Lemma order_nodes : forall g a order, represents g a -> pop_order g order ->
  forall x, In x order <-> exists_node a x.
Proof.
  intros g a order R [_ H] x. rewrite H, (map_snd_nodes _ _ R), in_seq. unfold exists_node. lia.
Qed.

Lemma graph_topo_ok : forall g a succ order fuel,
  represents g a -> iteration_order g succ -> pop_order g order -> length (a_ids a) < fuel ->
  (forall x, ~ on_cycle (a_edge a) x) ->
  exists l, topological_sort fuel succ order = Ok l /\
    Permutation l (seq 0 (length (a_ids a))) /\
    (forall x y, a_edge a x y -> before l x y).
Proof.
  intros g a succ order fuel R I O HF AC.
  pose proof (iter_edge g a succ R I) as IE.
  destruct (topological_sort_ok succ (seq 0 (length (a_ids a))) fuel order) as (l & E & ND & Hin & Hb).
  - apply (closed_nodes g a succ R I).
  - intros x Hx. apply (order_nodes g a order R O) in Hx. apply in_seq. unfold exists_node in Hx. lia.
  - rewrite seq_length. auto.
  - intros n x _ _ C. apply (AC x). eapply on_cycle_ext; [|exact C]. intros; symmetry; auto.
  - exists l. split; auto.
    assert (IN : forall x, In x l <-> x < length (a_ids a)).
    { intros x. rewrite Hin. split.
      - intros (n & Hn & k & W). apply (order_nodes g a order R O) in Hn. unfold exists_node in Hn.
        destruct W; auto. apply IE in H. apply (r_range _ _ R) in H. lia.
      - intros L. exists x. split; [apply (order_nodes g a order R O); auto|apply reachable_refl]. }
    split.
    + apply NoDup_Permutation; auto using seq_NoDup. intros x. rewrite in_seq, IN. lia.
    + intros x y He. apply Hb; [|apply IE; auto]. apply IN. apply (r_range _ _ R) in He. lia.
Qed.

Lemma graph_topo_cycle : forall g a succ order fuel,
  represents g a -> iteration_order g succ -> pop_order g order -> length (a_ids a) < fuel ->
  (topological_sort fuel succ order = Raise NameError <-> exists x, on_cycle (a_edge a) x) /\
  (is_ok (topological_sort fuel succ order) \/
   topological_sort fuel succ order = Raise NameError).
Proof.
  intros g a succ order fuel R I O HF.
  pose proof (iter_edge g a succ R I) as IE.
  assert (HU : incl order (seq 0 (length (a_ids a)))).
  { intros x Hx. apply (order_nodes g a order R O) in Hx. apply in_seq. unfold exists_node in Hx. lia. }
  assert (HF' : length (seq 0 (length (a_ids a))) < fuel) by (rewrite seq_length; auto).
  pose proof (closed_nodes g a succ R I) as HC.
  split; [|eapply topological_sort_total; eauto].
  rewrite (topological_sort_cycle succ (seq 0 (length (a_ids a))) fuel order HC HU HF').
  split.
  - intros (n & x & _ & _ & C). exists x. eapply on_cycle_ext; [|exact C]. intros; symmetry; auto.
  - intros (x & C). exists x, x. split; [|split].
    + apply (order_nodes g a order R O). destruct C as [k W]. inversion W as [|? y ? ? W1 He]; subst.
      apply (r_range _ _ R) in He. apply He.
    + apply reachable_refl.
    + eapply on_cycle_ext; [|exact C]. auto.
Qed.

Lemma graph_bfs_ok : forall g a succ fuel s,
  represents g a -> iteration_order g succ -> length (a_ids a) <= fuel -> exists_node a s ->
  exists l, breadth_first_search fuel succ s = Ok l /\
    (exists t, l = s :: t) /\ NoDup l /\
    (forall x, In x l <-> reachable (a_edge a) s x) /\
    (forall i j x y kx ky, i < j -> nth_error l i = Some x -> nth_error l j = Some y ->
       distance (a_edge a) s x kx -> distance (a_edge a) s y ky -> kx <= ky).
Proof.
  intros g a succ fuel s R I HF HS.
  pose proof (iter_edge g a succ R I) as IE.
  destruct (bfs_ok succ s (seq 0 (length (a_ids a))) (closed_nodes g a succ R I) fuel) as
    (l & E & Ht & ND & Hr & Ho).
  - apply in_seq. unfold exists_node in HS. lia.
  - rewrite seq_length. auto.
  - exists l. split; auto. split; auto. split; auto. split.
    + intros x. rewrite Hr. apply reachable_ext. exact IE.
    + intros i j x y kx ky Hij Hi Hj Dx Dy.
      apply (Ho i j x y); auto; eapply distance_ext; eauto.
Qed.

(** Mirror property stated on the node objects only. *)
Lemma mirrored : forall g a x y ox oy, represents g a ->
  nth_error (g_heap g) x = Some ox -> nth_error (g_heap g) y = Some oy ->
  (In y (n_descendants ox) <-> In x (n_ancestors oy)).
Proof.
  intros g a x y ox oy R Hx Hy. destruct (r_desc _ _ R x ox Hx) as [_ A].
  destruct (r_anc _ _ R y oy Hy) as [_ B]. rewrite A, B. tauto.
Qed.
