From Coq Require Import String List Bool Arith ZArith Lia.
From Verif Require Import Base ModelScope SpecScope.
Import ListNotations.

Lemma name_eqb_spec a b : reflect (a = b) (name_eqb a b).
Proof.
  destruct a as [a|], b as [b|]; cbn; try (constructor; congruence). destruct (String.eqb_spec a b); constructor; congruence.
Qed.
Lemma first_named_some l n s : first_named l n = Some s -> is_first_named l n s.
Proof.
  induction l as [|x l IH]; cbn; [discriminate|]. destruct (name_eqb_spec (s_name x) n) as [E|E]; intro H.
  - injection H as <-. exists [], l. split; [reflexivity|]. split; [exact E|intros y []].
  - destruct (IH H) as (l1 & l2 & -> & N & F). exists (x :: l1), l2. split; [reflexivity|]. split; [exact N|].
    intros y [<-|Y]; [exact E|exact (F y Y)].
Qed.
Lemma first_named_none l n : first_named l n = None <-> nobody l n.
Proof.
  induction l as [|x l IH]; cbn; [split; [intros _ y []|reflexivity]|]. destruct (name_eqb_spec (s_name x) n) as [E|E].
  - split; [discriminate|]. intro N. destruct (N x (or_introl eq_refl) E).
  - rewrite IH. split; intros N y; [intros [<-|Y]; [exact E|exact (N y Y)]|intro Y; apply N; right; exact Y].
Qed.
Lemma first_named_app l l' n : first_named (l ++ l') n = match first_named l n with Some s => Some s | None => first_named l' n end.
Proof. induction l as [|x l IH]; cbn; [reflexivity|]. destruct (name_eqb (s_name x) n); [reflexivity|exact IH]. Qed.
Lemma first_named_unique l n s : is_first_named l n s -> first_named l n = Some s.
Proof.
  intros (l1 & l2 & -> & N & F). rewrite first_named_app. rewrite (proj2 (first_named_none l1 n) F). cbn.
  destruct (name_eqb_spec (s_name s) n); [reflexivity|contradiction].
Qed.

(** ** Identities *)
Definition sane (p : pattern) : Prop := NoDup (map s_uid (p_scopes p)) /\ forall s, In s (p_scopes p) -> s_uid s < p_next p.
Lemma remove_uid_app l1 s l2 : ~ In (s_uid s) (map s_uid l1) -> remove_uid (s_uid s) (l1 ++ s :: l2) = l1 ++ l2.
Proof.
  induction l1 as [|x l1 IH]; intro N; cbn; [rewrite Nat.eqb_refl; reflexivity|].
  destruct (Nat.eqb_spec (s_uid x) (s_uid s)) as [E|E]; [destruct N; left; exact E|]. rewrite IH; [reflexivity|]. intro H. apply N. right. exact H.
Qed.
Lemma nodup_split l1 (s : scope) l2 : NoDup (map s_uid (l1 ++ s :: l2)) -> ~ In (s_uid s) (map s_uid l1).
Proof.
  rewrite map_app. cbn. intros H I. apply NoDup_remove_2 in H. apply H. apply in_or_app. left. exact I.
Qed.
Lemma list_index_ok {A} (l : list A) i s : list_index l i = Ok s -> exists l1 l2, l = l1 ++ s :: l2 /\
  (i = Z.of_nat (length l1) \/ i = - Z.of_nat (S (length l2)))%Z.
Proof.
  unfold list_index. intro H. remember (if (i <? 0)%Z then (i + Z.of_nat (length l))%Z else i) as k eqn:K.
  destruct (Z.ltb_spec k 0) as [L|L]; [discriminate|]. destruct (nth_error l (Z.to_nat k)) as [x|] eqn:E; [|discriminate].
  injection H as ->. destruct (nth_error_split l _ E) as (l1 & l2 & -> & Len). exists l1, l2. split; [reflexivity|].
  rewrite app_length in K. cbn [length] in K. destruct (Z.ltb_spec i 0); lia.
Qed.
Lemma remove_scope_cases p k p' : sane p -> remove_scope p k = Ok p' ->
  (exists n, k = Name n /\ nobody (p_scopes p) n /\ p' = p) \/
  (exists l1 s l2, p_scopes p = l1 ++ s :: l2 /\ p_scopes p' = l1 ++ l2 /\ p_next p' = p_next p /\
    match k with Name n => s_name s = n /\ (forall x, In x l1 -> s_name x <> n)
               | Index i => i = Z.of_nat (length l1) \/ i = (- Z.of_nat (S (length l2)))%Z end).
Proof.
  intros [ND _]. unfold remove_scope, find_scope. destruct k as [i|n]; cbn [bind].
  - destruct (list_index (p_scopes p) i) as [s|e] eqn:E; cbn [bind]; [|discriminate]. intro H. injection H as <-. right.
    destruct (list_index_ok _ _ _ E) as (l1 & l2 & Es & K). exists l1, s, l2. cbn. rewrite Es in ND |- *.
    split; [reflexivity|]. split; [apply remove_uid_app, nodup_split with (l2 := l2), ND|]. split; [reflexivity|exact K].
  - destruct (first_named (p_scopes p) n) as [s|] eqn:E; intro H; injection H as <-.
    + right. destruct (first_named_some _ _ _ E) as (l1 & l2 & Es & N & F). exists l1, s, l2. cbn. rewrite Es in ND |- *.
      split; [reflexivity|]. split; [apply remove_uid_app, nodup_split with (l2 := l2), ND|]. split; [reflexivity|split; assumption].
    + left. exists n. split; [reflexivity|]. split; [apply first_named_none, E|reflexivity].
Qed.
Lemma remove_scope_raise p k e : remove_scope p k = Raise e -> e = IndexError /\ exists i, k = Index i /\
  (Z.of_nat (length (p_scopes p)) <= i \/ i < - Z.of_nat (length (p_scopes p)))%Z.
Proof.
  unfold remove_scope, find_scope. destruct k as [i|n]; cbn [bind]; [|destruct (first_named (p_scopes p) n); discriminate].
  destruct (list_index (p_scopes p) i) as [s|e'] eqn:E; cbn [bind]; [discriminate|]. intro H. injection H as <-.
  unfold list_index in E. remember (if (i <? 0)%Z then (i + Z.of_nat (length (p_scopes p)))%Z else i) as k eqn:K.
  destruct (Z.ltb_spec k 0) as [L|L].
  - injection E as <-. split; [reflexivity|]. exists i. split; [reflexivity|]. destruct (Z.ltb_spec i 0); lia.
  - destruct (nth_error (p_scopes p) (Z.to_nat k)) eqn:Q; [discriminate|]. injection E as <-. split; [reflexivity|]. exists i. split; [reflexivity|].
    apply nth_error_None in Q. destruct (Z.ltb_spec i 0); lia.
Qed.
Lemma sane_step p o : sane p -> sane (scope_step p o).
Proof.
  intros Sp. pose proof Sp as [ND LT]. destruct o as [n|k|u n]; cbn [scope_step].
  - split; cbn.
    + rewrite map_app. cbn. 
      assert (Q : NoDup (p_next p :: map s_uid (p_scopes p))).
      { constructor; [|exact ND]. intro H. apply in_map_iff in H. destruct H as (s & E & H). specialize (LT s H). lia. }
      apply (NoDup_Add (a := p_next p) (l := map s_uid (p_scopes p))).
      * rewrite <- (app_nil_r (map s_uid (p_scopes p))) at 1. apply Add_app.
      * inversion Q. split; assumption.
    + intros s H. apply in_app_or in H. destruct H as [H|[<-|[]]]; [specialize (LT s H); lia|cbn; lia].
  - destruct (remove_scope p k) as [p'|e] eqn:E; [|exact Sp].
    destruct (remove_scope_cases p k p' Sp E) as [(n & _ & _ & ->)|(l1 & s & l2 & E1 & E2 & E3 & _)]; [exact Sp|].
    split.
    + rewrite E2, map_app. rewrite E1, map_app in ND. cbn in ND. apply NoDup_remove_1 in ND. exact ND.
    + intros x X. rewrite E3. apply LT. rewrite E1. rewrite E2 in X. apply in_app_or in X. apply in_or_app. destruct X; [left|right; right]; assumption.
  - split; cbn.
    + rewrite map_map. rewrite (map_ext _ s_uid); [exact ND|]. intro s. destruct (Nat.eqb_spec (s_uid s) u); [cbn; congruence|reflexivity].
    + intros s H. apply in_map_iff in H. destruct H as (x & <- & H). specialize (LT x H). destruct (Nat.eqb_spec (s_uid x) u); cbn; lia.
Qed.
Lemma sane_run h : sane (scope_run h).
Proof.
  unfold scope_run. assert (Q : forall p, sane p -> sane (fold_left scope_step h p)).
  { induction h as [|o h IH]; intros p Sp; [exact Sp|]. cbn. apply IH, sane_step, Sp. }
  apply Q. split; [constructor|intros s []].
Qed.

(** ** Addition *)
Lemma add_reachable h n : let p := scope_run h in let (p', s) := add_scope p n in
  s_name s = n /\ p_scopes p' = p_scopes p ++ [s] /\
  find_scope p' (Index (Z.of_nat (length (p_scopes p)))) = Ok (Some s) /\ find_scope p' (Index (-1)) = Ok (Some s) /\
  (find_scope p' (Name n) = Ok (Some s) <-> nobody (p_scopes p) n) /\
  (forall m, m <> n -> find_scope p' (Name m) = find_scope p (Name m)) /\
  (forall i, (0 <= i < Z.of_nat (length (p_scopes p)))%Z -> find_scope p' (Index i) = find_scope p (Index i)).
Proof.
  intro p. destruct (add_scope p n) as [p' s] eqn:E. unfold add_scope in E. injection E as <- <-. cbn [s_name p_scopes].
  set (s := {| s_uid := p_next p; s_name := n |}).
  assert (Last : nth_error (p_scopes p ++ [s]) (length (p_scopes p)) = Some s) by (rewrite nth_error_app2, Nat.sub_diag by lia; reflexivity).
  split; [reflexivity|]. split; [reflexivity|]. split; [|split; [|split; [|split]]].
  - unfold find_scope, list_index. cbn [p_scopes]. destruct (Z.ltb_spec (Z.of_nat (length (p_scopes p))) 0); [lia|].
    destruct (Z.ltb_spec (Z.of_nat (length (p_scopes p))) 0); [lia|]. rewrite Nat2Z.id, Last. reflexivity.
  - unfold find_scope, list_index. cbn [p_scopes]. rewrite app_length. cbn [length]. replace (-1 <? 0)%Z with true by reflexivity.
    destruct (Z.ltb_spec (-1 + Z.of_nat (length (p_scopes p) + 1)) 0); [lia|].
    replace (Z.to_nat (-1 + Z.of_nat (length (p_scopes p) + 1))) with (length (p_scopes p)) by lia. rewrite Last. reflexivity.
  - unfold find_scope. cbn [p_scopes]. rewrite first_named_app. cbn [first_named s_name s].
    destruct (name_eqb_spec n n) as [_|D]; [|destruct D; reflexivity]. split.
    + destruct (first_named (p_scopes p) n) as [x|] eqn:F; [|intros _; apply first_named_none, F]. intro H. injection H as H. exfalso.
      destruct (first_named_some _ _ _ F) as (l1 & l2 & Es & _ & _). destruct (sane_run h) as [_ LT]. specialize (LT x). fold p in LT.
      assert (X : In x (p_scopes p)) by (rewrite Es; apply in_or_app; right; left; reflexivity).
      specialize (LT X). rewrite H in LT. cbn in LT. lia.
    + intro N. apply first_named_none in N. rewrite N. reflexivity.
  - intros m M. unfold find_scope. cbn [p_scopes]. rewrite first_named_app. cbn [first_named s_name s].
    destruct (name_eqb_spec n m) as [D|_]; [congruence|]. destruct (first_named (p_scopes p) m); reflexivity.
  - intros i I. unfold find_scope, list_index. cbn [p_scopes]. destruct (Z.ltb_spec i 0); [lia|]. destruct (Z.ltb_spec i 0); [lia|].
    rewrite nth_error_app1 by lia. reflexivity.
Qed.
(** ** Removal *)
Lemma remove_by_name h n : let p := scope_run h in exists p', remove_scope p (Name n) = Ok p' /\
  (nobody (p_scopes p) n -> p' = p) /\
  (forall s, is_first_named (p_scopes p) n s -> exists l1 l2, p_scopes p = l1 ++ s :: l2 /\ p_scopes p' = l1 ++ l2) /\
  (forall m, m <> n -> find_scope p' (Name m) = find_scope p (Name m)) /\
  (find_scope p' (Name n) = Ok None <-> (count_occ Bool.bool_dec (map (fun s => name_eqb (s_name s) n) (p_scopes p)) true <= 1)%nat).
Proof.
  intro p. destruct (remove_scope p (Name n)) as [p'|e] eqn:E.
  2:{ exfalso. destruct (remove_scope_raise p (Name n) e E) as (_ & i & D & _). discriminate D. }
  exists p'. split; [reflexivity|].
  assert (Zero : forall l, nobody l n <-> count_occ Bool.bool_dec (map (fun s => name_eqb (s_name s) n) l) true = 0).
  { induction l as [|x l IH]; cbn; [split; [reflexivity|intros _ y []]|]. destruct (name_eqb_spec (s_name x) n) as [D|D].
    - split; [intro N; destruct (N x (or_introl eq_refl) D)|]. destruct (bool_dec true true); [discriminate|congruence].
    - destruct (bool_dec false true) as [C|_]; [discriminate|]. rewrite <- IH. split; intros N y; [intro Y; apply N; right; exact Y|intros [<-|Y]; [exact D|exact (N y Y)]]. }
  destruct (remove_scope_cases p (Name n) p' (sane_run h) E) as [(n' & Hn & N & ->)|(l1 & s & l2 & E1 & E2 & E3 & N & F)].
  - injection Hn as <-. split; [reflexivity|]. split; [|split; [reflexivity|]].
    + intros s (l1 & l2 & Es & Q & _). exfalso. apply (N s); [rewrite Es; apply in_or_app; right; left; reflexivity|exact Q].
    + unfold find_scope. rewrite (proj2 (first_named_none _ n) N), (proj1 (Zero (p_scopes p)) N). split; [lia|reflexivity].
  - split; [|split; [|split]].
    + intro Q. exfalso. apply (Q s); [rewrite E1; apply in_or_app; right; left; reflexivity|exact N].
    + intros s' Fs'. apply first_named_unique in Fs'. assert (Fs : first_named (p_scopes p) n = Some s).
      { apply first_named_unique. exists l1, l2. split; [exact E1|split; [exact N|exact F]]. }
      rewrite Fs in Fs'. injection Fs' as <-. exists l1, l2. split; assumption.
    + intros m M. unfold find_scope. rewrite E1, E2, !first_named_app. cbn [first_named].
      destruct (name_eqb_spec (s_name s) m) as [D|_]; [congruence|]. reflexivity.
    + unfold find_scope. rewrite E2. rewrite E1, map_app, count_occ_app. cbn [map count_occ].
      destruct (name_eqb_spec (s_name s) n) as [_|D]; [|contradiction]. destruct (bool_dec true true) as [_|D]; [|congruence].
      rewrite (proj1 (Zero l1) F). rewrite first_named_app, (proj2 (first_named_none l1 n) F).
      split; intro H.
      * injection H as H. apply first_named_none, Zero in H. lia.
      * f_equal. apply first_named_none, Zero. lia.
Qed.

(** ** Histories of additions and removals by name *)
Definition how_many (n : option string) (p : pattern) : nat := length (filter (fun s => name_eqb (s_name s) n) (p_scopes p)).
Lemma filter_nobody l n : nobody l n -> filter (fun s => name_eqb (s_name s) n) l = [].
Proof.
  induction l as [|x l IH]; intro N; [reflexivity|]. cbn. destruct (name_eqb_spec (s_name x) n) as [E|_]; [destruct (N x (or_introl eq_refl) E)|].
  apply IH. intros y Y. apply N. right. exact Y.
Qed.
Lemma tally_run h n : Forall by_name h -> how_many n (scope_run h) = tally n 0 h.
Proof.
  intro B. unfold scope_run. assert (Q : forall p, sane p -> how_many n (fold_left scope_step h p) = tally n (how_many n p) h).
  { induction B as [|o h Ho B IH]; intros p Sp; [reflexivity|]. cbn [fold_left]. rewrite (IH _ (sane_step p o Sp)). clear IH.
    destruct o as [m|[i|m]|u m]; cbn in Ho; try contradiction; cbn [tally]; f_equal.
    - unfold how_many. cbn. rewrite filter_app, app_length. cbn. destruct (name_eqb m n); cbn; lia.
    - cbn [scope_step]. destruct (remove_scope p (Name m)) as [p'|e] eqn:E.
      2:{ exfalso. destruct (remove_scope_raise p (Name m) e E) as (_ & i & D & _). discriminate D. }
      destruct (remove_scope_cases p (Name m) p' Sp E) as [(m' & Hn & N & ->)|(l1 & s & l2 & E1 & E2 & _ & Ns & _)].
      + injection Hn as <-. destruct (name_eqb_spec m n) as [<-|_]; [|reflexivity]. unfold how_many. rewrite (filter_nobody _ _ N). reflexivity.
      + unfold how_many. rewrite E1, E2, !filter_app, !app_length. cbn [filter]. rewrite Ns. destruct (name_eqb m n); cbn [length]; lia. }
  rewrite Q; [reflexivity|]. split; [constructor|intros s []].
Qed.
Lemma reachable_run h n : Forall by_name h -> (exists s, find_scope (scope_run h) (Name n) = Ok (Some s)) <-> 0 < tally n 0 h.
Proof.
  intro B. rewrite <- (tally_run h n B). unfold find_scope. split.
  - intros (s & H). injection H as H. destruct (first_named_some _ _ _ H) as (l1 & l2 & E & N & _). unfold how_many. rewrite E, filter_app, app_length.
    cbn [filter]. rewrite N. destruct (name_eqb_spec n n) as [_|D]; [cbn; lia|congruence].
  - intro L. destruct (first_named (p_scopes (scope_run h)) n) as [s|] eqn:F; [exists s; reflexivity|]. exfalso.
    apply first_named_none in F. unfold how_many in L. rewrite (filter_nobody _ _ F) in L. cbn in L. lia.
Qed.

(** ** Histories in which a name is given once *)
Lemma once_run h : names_once [] h -> NoDup (scope_names (scope_run h)).
Proof.
  unfold scope_run. assert (Q : forall p, sane p -> NoDup (scope_names p) -> names_once (scope_names p) h -> NoDup (scope_names (fold_left scope_step h p))).
  { induction h as [|o h IH]; intros p Sp ND H; [exact ND|]. cbn [fold_left]. destruct o as [m|[i|m]|u m]; cbn [names_once] in H; try contradiction.
    - destruct H as [N H]. apply (IH _ (sane_step p (Add m) Sp)).
      + unfold scope_names. cbn. rewrite map_app. cbn. apply (NoDup_Add (a := m) (l := map s_name (p_scopes p))).
        * rewrite <- (app_nil_r (map s_name (p_scopes p))) at 1. apply Add_app.
        * split; assumption.
      + unfold scope_names in *. cbn. rewrite map_app. exact H.
    - assert (E : scope_names (scope_step p (Remove (Name m))) = filter (fun x => negb (name_eqb x m)) (scope_names p)).
      { cbn [scope_step]. destruct (remove_scope p (Name m)) as [p'|e] eqn:E.
        2:{ exfalso. destruct (remove_scope_raise p (Name m) e E) as (_ & i & D & _). discriminate D. }
        assert (All : forall l, nobody l m -> filter (fun x => negb (name_eqb x m)) (map s_name l) = map s_name l).
        { induction l as [|x l IHl]; intro N; [reflexivity|]. cbn. destruct (name_eqb_spec (s_name x) m) as [D|_]; [destruct (N x (or_introl eq_refl) D)|].
          cbn. rewrite IHl; [reflexivity|]. intros y Y. apply N. right. exact Y. }
        destruct (remove_scope_cases p (Name m) p' Sp E) as [(m' & Hn & N & ->)|(l1 & s & l2 & E1 & E2 & _ & Ns & F)].
        - injection Hn as <-. symmetry. apply All, N.
        - unfold scope_names in *. rewrite E1, E2 in *. rewrite !map_app in *. cbn [map] in *. rewrite filter_app. cbn [filter]. rewrite Ns.
          destruct (name_eqb_spec m m) as [_|D]; [|congruence]. cbn [negb]. rewrite (All l1 F), (All l2); [reflexivity|].
          intros y Y D. apply NoDup_remove_2 in ND. apply ND. apply in_or_app. right. rewrite Ns, <- D. apply in_map, Y. }
      apply (IH _ (sane_step p (Remove (Name m)) Sp)).
      + rewrite E. apply NoDup_filter, ND.
      + rewrite E. exact H. }
  intro H. apply Q; [split; [constructor|intros s []]|constructor|exact H].
Qed.
Lemma remove_once h n p' : names_once [] h -> remove_scope (scope_run h) (Name n) = Ok p' ->
  find_scope p' (Name n) = Ok None /\ scope_names p' = filter (fun x => negb (name_eqb x n)) (scope_names (scope_run h)).
Proof.
  intros H E. pose proof (once_run h H) as ND.
  assert (All : forall l, nobody l n -> filter (fun x => negb (name_eqb x n)) (map s_name l) = map s_name l).
  { induction l as [|x l IHl]; intro N; [reflexivity|]. cbn. destruct (name_eqb_spec (s_name x) n) as [D|_]; [destruct (N x (or_introl eq_refl) D)|].
    cbn. rewrite IHl; [reflexivity|]. intros y Y. apply N. right. exact Y. }
  destruct (remove_scope_cases _ (Name n) p' (sane_run h) E) as [(m' & Hn & N & ->)|(l1 & s & l2 & E1 & E2 & _ & Ns & F)].
  - injection Hn as <-. split; [unfold find_scope; rewrite (proj2 (first_named_none _ n) N); reflexivity|symmetry; apply All, N].
  - unfold scope_names in *. assert (F2 : nobody l2 n).
    { intros y Y D. rewrite E1, map_app in ND. cbn in ND. apply NoDup_remove_2 in ND. apply ND. apply in_or_app. right. rewrite Ns, <- D. apply in_map, Y. }
    split.
    + unfold find_scope. rewrite E2, first_named_app, (proj2 (first_named_none l1 n) F), (proj2 (first_named_none l2 n) F2). reflexivity.
    + rewrite E1, E2, !map_app. cbn [map]. rewrite filter_app. cbn [filter]. rewrite Ns.
      destruct (name_eqb_spec n n) as [_|D]; [|congruence]. cbn [negb]. rewrite (All l1 F), (All l2 F2). reflexivity.
Qed.

Lemma rename_one h uid n s : In s (p_scopes (scope_run h)) -> s_uid s = uid ->
  exists l1 l2 s', p_scopes (scope_run h) = l1 ++ s :: l2 /\ p_scopes (rename_scope (scope_run h) uid n) = l1 ++ s' :: l2 /\
    s_uid s' = uid /\ s_name s' = n.
Proof.
  intros H U. destruct (sane_run h) as [ND _]. apply in_split in H. destruct H as (l1 & l2 & E).
  exists l1, l2, {| s_uid := uid; s_name := n |}. split; [exact E|]. split; [|split; reflexivity].
  unfold rename_scope. cbn [p_scopes]. rewrite E in ND |- *. rewrite map_app in ND. cbn [map] in ND. apply NoDup_remove_2 in ND.
  assert (Q : forall l, ~ In uid (map s_uid l) -> map (fun s => if s_uid s =? uid then {| s_uid := uid; s_name := n |} else s) l = l).
  { induction l as [|x l IH]; intro N; [reflexivity|]. cbn [map]. destruct (Nat.eqb_spec (s_uid x) uid) as [Ex|_]; [destruct N; left; exact Ex|].
    rewrite IH; [reflexivity|]. intro K. apply N. right. exact K. }
  rewrite map_app. cbn [map]. rewrite U, Nat.eqb_refl in *. rewrite !Q; [reflexivity| |]; intro K; apply ND, in_or_app; auto.
Qed.
