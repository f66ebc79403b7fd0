From Coq Require Import String Ascii List Bool Arith ZArith Reals Sorted Permutation Lia Lra.
From Verif Require Import Base ModelFormula ModelMeasure ModelVector ModelTransformation ModelLine ModelScene SpecScene ProofVector ProofMeasure.
Import ListNotations.

(** ** Dictionaries *)
Section Dict.
Context {A : Type}.
Implicit Types l : list (nat * A).
Lemma get_in l k v : dict_get l k = Some v -> In (k, v) l.
Proof. induction l as [|[i x] l IH]; [discriminate|]. cbn. destruct (Nat.eqb_spec i k) as [->|N]; [intro H; injection H as ->; auto|auto]. Qed.
Lemma get_none l k : dict_get l k = None <-> ~ In k (map fst l).
Proof.
  induction l as [|[i x] l IH]; cbn; [split; auto|]. destruct (Nat.eqb_spec i k) as [->|N]; [split; [discriminate|intro H; destruct H; auto]|]. rewrite IH. split; [intros H [E|E]; auto|auto].
Qed.
Lemma in_get l k v : NoDup (map fst l) -> In (k, v) l -> dict_get l k = Some v.
Proof.
  induction l as [|[i x] l IH]; [contradiction|]. cbn. intros N [E|H].
  - injection E as -> ->. rewrite Nat.eqb_refl. reflexivity.
  - inversion N; subst. destruct (Nat.eqb_spec i k) as [->|D]; [|auto]. destruct H2. apply in_map_iff. exists (k, v). auto.
Qed.
Lemma get_set l k v j : dict_get (dict_set l k v) j = if Nat.eqb k j then Some v else dict_get l j.
Proof.
  induction l as [|[i x] l IH]; cbn; [destruct (Nat.eqb k j); reflexivity|]. destruct (Nat.eqb_spec i k) as [->|N]; cbn.
  - destruct (Nat.eqb k j); reflexivity.
  - rewrite IH. destruct (Nat.eqb_spec i j) as [->|]; [|reflexivity]. destruct (Nat.eqb_spec k j); [congruence|reflexivity].
Qed.
Lemma set_keys l k v : In k (map fst l) -> map fst (dict_set l k v) = map fst l.
Proof. induction l as [|[i x] l IH]; [contradiction|]. cbn. destruct (Nat.eqb_spec i k) as [->|N]; [reflexivity|]. intros [E|H]; [contradiction|]. cbn. f_equal. auto. Qed.
Lemma set_same l k v : dict_get l k = Some v -> dict_set l k v = l.
Proof. induction l as [|[i x] l IH]; [discriminate|]. cbn. destruct (Nat.eqb_spec i k) as [->|N]; intro H; [injection H as ->; reflexivity|]. f_equal. auto. Qed.
Lemma get_pop l k j : dict_get (dict_pop l k) j = if Nat.eqb k j then None else dict_get l j.
Proof.
  unfold dict_pop. induction l as [|[i x] l IH]; cbn; [destruct (k =? j); reflexivity|]. destruct (Nat.eqb_spec i k) as [->|N]; cbn.
  - rewrite IH. destruct (Nat.eqb_spec k j); reflexivity.
  - destruct (Nat.eqb_spec i j) as [->|M]; [destruct (Nat.eqb_spec k j); [congruence|reflexivity]|exact IH].
Qed.
Lemma pop_none l k : dict_get l k = None -> dict_pop l k = l.
Proof.
  unfold dict_pop. induction l as [|[i x] l IH]; cbn; [reflexivity|]. destruct (Nat.eqb_spec i k) as [->|N]; [discriminate|]. cbn. intro H. f_equal. auto.
Qed.
Lemma pop_keys l k j : In j (map fst (dict_pop l k)) <-> In j (map fst l) /\ j <> k.
Proof.
  unfold dict_pop. rewrite !in_map_iff. split.
  - intros ([i x] & <- & H). apply filter_In in H as (H & E). cbn in *. split; [exists (i, x); auto|]. intros ->. rewrite Nat.eqb_refl in E. discriminate.
  - intros (([i x] & <- & H) & N). exists (i, x). split; [reflexivity|]. apply filter_In. split; [exact H|]. cbn. destruct (Nat.eqb_spec i k); [contradiction|reflexivity].
Qed.
Lemma pop_nodup l k : NoDup (map fst l) -> NoDup (map fst (dict_pop l k)).
Proof.
  unfold dict_pop. induction l as [|[i x] l IH]; cbn; [auto|]. intro N. inversion N; subst. destruct (Nat.eqb_spec i k); cbn; [auto|]. constructor; [|auto].
  intro H. apply H1. apply in_map_iff in H as (p & <- & P). apply filter_In in P as (P & _). apply in_map, P.
Qed.
Lemma get_app l m k : dict_get (l ++ m) k = match dict_get l k with Some v => Some v | None => dict_get m k end.
Proof. induction l as [|[i x] l IH]; [reflexivity|]. cbn. destruct (Nat.eqb i k); [reflexivity|exact IH]. Qed.
End Dict.

(** ** Sorting *)
Section Sorting.
Context {A : Type}.
Variable key : A -> R.
Notation le := (fun a b => key a <= key b)%R.
Lemma insert_in x l y : In y (insert_sorted key x l) <-> y = x \/ In y l.
Proof.
  induction l as [|a l IH]; cbn; [intuition congruence|]. destruct (Rleb (key x) (key a)); cbn; [intuition congruence|]. rewrite IH. intuition congruence.
Qed.
Lemma sort_in l y : In y (sort_by key l) <-> In y l.
Proof. induction l as [|a l IH]; cbn; [reflexivity|]. rewrite insert_in, IH. intuition congruence. Qed.
Lemma insert_sorts x l : StronglySorted le l -> StronglySorted le (insert_sorted key x l).
Proof.
  induction 1 as [|a l S IH F]; cbn; [repeat constructor|]. destruct (Rleb_spec (key x) (key a)) as [L|L].
  - constructor; [constructor; assumption|]. constructor; [exact L|]. eapply Forall_impl; [|exact F]. cbn. intros b B. lra.
  - constructor; [exact IH|]. apply Forall_forall. intros y Y. apply insert_in in Y as [->|Y]; [lra|]. rewrite Forall_forall in F. apply F, Y.
Qed.
Lemma sort_sorts l : StronglySorted le (sort_by key l).
Proof. induction l as [|a l IH]; cbn; [constructor|]. apply insert_sorts, IH. Qed.
Lemma insert_perm x l : Permutation (insert_sorted key x l) (x :: l).
Proof. induction l as [|a l IH]; cbn; [reflexivity|]. destruct (Rleb (key x) (key a)); [reflexivity|]. rewrite IH. apply perm_swap. Qed.
Lemma sort_perm l : Permutation (sort_by key l) l.
Proof. induction l as [|a l IH]; cbn; [reflexivity|]. rewrite insert_perm, IH. reflexivity. Qed.
(** stability *)
Lemma insert_filter x l z : StronglySorted le l -> filter (fun a => Reqb (key a) z) (insert_sorted key x l) = filter (fun a => Reqb (key a) z) (x :: l).
Proof.
  induction 1 as [|a l S IH F]; cbn [insert_sorted]; [reflexivity|]. destruct (Rleb_spec (key x) (key a)) as [L|L]; [reflexivity|].
  cbn [filter] in *. rewrite IH. destruct (Reqb_spec (key a) z) as [E|E]; destruct (Reqb_spec (key x) z) as [E'|E']; try reflexivity. exfalso. lra.
Qed.
Lemma sort_filter l z : filter (fun a => Reqb (key a) z) (sort_by key l) = filter (fun a => Reqb (key a) z) l.
Proof. induction l as [|a l IH]; cbn [sort_by]; [reflexivity|]. rewrite (insert_filter a _ z (sort_sorts l)). cbn [filter]. rewrite IH. reflexivity. Qed.
End Sorting.

(** ** Painting order *)
Section Order.
Variables shape geometry : Type.
Notation item := (item shape geometry).
Definition group (m : list (R * list nat)) (z : R) : list nat := flat_map snd (filter (fun p => Reqb (fst p) z) m).
Lemma add_keys m z id : forall y, In y (map fst (z_add m z id)) <-> In y (map fst m) \/ y = z.
Proof.
  induction m as [|[x l] m IH]; intro y; cbn; [intuition congruence|]. destruct (Reqb_spec x z) as [->|N]; cbn; [intuition congruence|]. rewrite IH. intuition.
Qed.
Lemma add_nodup m z id : NoDup (map fst m) -> NoDup (map fst (z_add m z id)).
Proof.
  induction m as [|[x l] m IH]; cbn; intro N; [repeat constructor; auto|]. inversion N; subst. destruct (Reqb_spec x z) as [->|D]; cbn; [constructor; assumption|].
  constructor; [|auto]. rewrite add_keys. intros [H|H]; auto.
Qed.
Lemma group_none m z : ~ In z (map fst m) -> group m z = [].
Proof.
  unfold group. induction m as [|[x l] m IH]; cbn; intro N; [reflexivity|]. destruct (Reqb_spec x z) as [->|D]; [destruct N; auto|]. apply IH. intro H. apply N. auto.
Qed.
Lemma add_group m z id y : NoDup (map fst m) -> group (z_add m z id) y = if Reqb z y then group m y ++ [id] else group m y.
Proof.
  unfold group. induction m as [|[x l] m IH]; intro N.
  - cbn. destruct (Reqb z y); reflexivity.
  - inversion N as [|? ? N1 N2]; subst. cbn [z_add]. destruct (Reqb_spec x z) as [->|D].
    + cbn [filter fst]. destruct (Reqb_spec z y) as [->|E]; [|reflexivity]. cbn [flat_map snd]. fold (group m y). rewrite (group_none m y N1), !app_nil_r. reflexivity.
    + cbn [filter fst]. destruct (Reqb_spec x y) as [->|E].
      * cbn [flat_map snd]. rewrite (IH N2). destruct (Reqb_spec z y) as [->|E]; [contradiction|reflexivity].
      * apply IH, N2.
Qed.
Lemma map_ok (l : list (nat * item)) : forall m, NoDup (map fst m) ->
  let m' := fold_left (fun m p => if i_visible _ _ (snd p) then z_add m (i_z_value _ _ (snd p)) (fst p) else m) l m in
  NoDup (map fst m') /\ forall z, group m' z = group m z ++ map fst (filter (fun p => i_visible _ _ (snd p) && Reqb (i_z_value _ _ (snd p)) z)%bool l).
Proof.
  induction l as [|[id it] l IH]; intros m N; cbn [fold_left fst snd].
  - split; [exact N|]. intro z. symmetry. apply app_nil_r.
  - destruct (i_visible _ _ it) eqn:E.
    + destruct (IH (z_add m (i_z_value _ _ it) id) (add_nodup _ _ _ N)) as (A & B). split; [exact A|]. intro z. rewrite B, (add_group _ _ _ _ N). cbn [filter snd]. rewrite E. cbn [andb].
      destruct (Reqb (i_z_value _ _ it) z); [cbn [map fst]; rewrite <- app_assoc|]; reflexivity.
    + destruct (IH m N) as (A & B). split; [exact A|]. intro z. rewrite B. cbn [filter snd]. rewrite E. reflexivity.
Qed.
Lemma group_in m y l id : In (y, l) m -> In id l -> In id (group m y).
Proof. intros H I. unfold group. apply in_flat_map. exists (y, l). split; [|exact I]. apply filter_In. split; [exact H|]. cbn. destruct (Reqb_spec y y); [reflexivity|contradiction]. Qed.
Section Good.
Variable zf : nat -> R.
Definition good (m : list (R * list nat)) : Prop := forall y l id, In (y, l) m -> In id l -> zf id = y.
Lemma good_filter m z : good m -> filter (fun id => Reqb (zf id) z) (flat_map snd m) = group m z.
Proof.
  unfold group. induction m as [|[y l] m IH]; intro G; [reflexivity|]. cbn [flat_map snd filter fst]. rewrite filter_app, IH by (intros a b c Ha Hb; eapply G; [right; exact Ha|exact Hb]).
  assert (L : forall id, In id l -> zf id = y) by (intros id I; apply (G y l id); [left; reflexivity|exact I]).
  destruct (Reqb_spec y z) as [->|N]; cbn [flat_map snd]; f_equal.
  - clear - L. induction l as [|a l IH]; [reflexivity|]. cbn. rewrite (L a (or_introl eq_refl)). destruct (Reqb_spec z z); [|contradiction]. f_equal. apply IH. intros id I. apply L. right. exact I.
  - rewrite <- app_nil_l. f_equal. clear - L N. induction l as [|a l IH]; [reflexivity|]. cbn. rewrite (L a (or_introl eq_refl)). destruct (Reqb_spec y z); [contradiction|]. apply IH. intros id I. apply L. right. exact I.
Qed.
Lemma good_sorted m : good m -> StronglySorted (fun a b => fst a <= fst b)%R m -> StronglySorted (fun a b => zf a <= zf b)%R (flat_map snd m).
Proof.
  intros G S. induction S as [|[y l] m S IH F]; [constructor|]. cbn [flat_map snd].
  assert (Gm : good m) by (intros a b c Ha Hb; eapply G; [right; exact Ha|exact Hb]). specialize (IH Gm).
  assert (L : forall id, In id l -> zf id = y) by (intros id I; apply (G y l id); [left; reflexivity|exact I]).
  assert (Q : forall id, In id (flat_map snd m) -> (y <= zf id)%R).
  { intros id I. apply in_flat_map in I as ([z k] & P & I). rewrite (Gm z k id P I). rewrite Forall_forall in F. apply (F _ P). }
  clear - L Q IH. induction l as [|a l IHl]; [exact IH|]. cbn [app]. constructor; [apply IHl; intros id I; apply L; right; exact I|].
  apply Forall_forall. intros b B. rewrite (L a (or_introl eq_refl)). apply in_app_or in B as [B|B]; [rewrite (L b (or_intror B)); lra|apply Q, B].
Qed.
End Good.
Lemma order_ok (s : scene shape geometry) : NoDup (map fst (s_items _ _ s)) -> painting_order _ _ (s_items _ _ s) (z_value_iter _ _ s).
Proof.
  intro N. unfold z_value_iter. set (l := s_items _ _ s) in *. destruct (map_ok l [] (NoDup_nil _)) as (A & B). fold (z_map _ _ l) in A, B.
  assert (G : good (z_of _ _ l) (z_map _ _ l)).
  { intros y k id P I. pose proof (group_in _ _ _ _ P I) as H. rewrite B in H. cbn in H. apply in_map_iff in H as ([i it] & E & H). cbn in E. subst i. apply filter_In in H as (H & E).
    apply andb_prop in E as (_ & E). cbn in E. destruct (Reqb_spec (i_z_value _ _ it) y) as [<-|]; [|discriminate]. unfold z_of. rewrite (in_get l id it N H). reflexivity. }
  assert (G' : good (z_of _ _ l) (sort_by fst (z_map _ _ l))) by (intros y k id P I; apply (G y k id); [apply sort_in in P; exact P|exact I]).
  split.
  - apply good_sorted; [exact G'|]. apply sort_sorts.
  - intro z. rewrite (good_filter _ _ z G'). unfold group. rewrite sort_filter. fold (group (z_map _ _ l) z). rewrite B. reflexivity.
Qed.
(** consequences: each visible item once, no other *)
Lemma filter_length_le {A} (f : A -> bool) (l : list A) : (length (filter f l) <= length l)%nat.
Proof. induction l as [|a l IH]; cbn; [lia|]. destruct (f a); cbn; lia. Qed.
Lemma filter_perm {A} (f : A -> R) (l m : list A) : (forall z, filter (fun a => Reqb (f a) z) l = filter (fun a => Reqb (f a) z) m) -> Permutation l m.
Proof.
  remember (length l + length m)%nat as n. assert (H : (length l + length m <= n)%nat) by lia. clear Heqn. revert l m H. induction n as [|n IH]; intros l m L E.
  - destruct l; [|cbn in L; lia]. destruct m; [constructor|cbn in L; lia].
  - destruct l as [|a l].
    + destruct m as [|b m]; [constructor|]. specialize (E (f b)). cbn in E. destruct (Reqb_spec (f b) (f b)); [discriminate|contradiction].
    + set (z := f a). assert (P : forall k : list A, Permutation k (filter (fun x => Reqb (f x) z) k ++ filter (fun x => negb (Reqb (f x) z)) k)).
      { clear. induction k as [|x k IH]; [constructor|]. cbn. destruct (Reqb (f x) z); cbn; [constructor; exact IH|]. rewrite IH at 1. apply Permutation_middle. }
      rewrite (P (a :: l)), (P m), (E z). apply Permutation_app_head. apply IH.
      * cbn [filter]. destruct (Reqb_spec (f a) z) as [_|X]; [|destruct X; reflexivity]. cbn [negb]. cbn in L.
        pose proof (filter_length_le (fun x => negb (Reqb (f x) z)) l). pose proof (filter_length_le (fun x => negb (Reqb (f x) z)) m). lia.
      * intro y. assert (C : forall k : list A, filter (fun x => Reqb (f x) y) (filter (fun x => negb (Reqb (f x) z)) k) = filter (fun x => negb (Reqb (f x) z)) (filter (fun x => Reqb (f x) y) k)).
        { clear. induction k as [|x k IH]; [reflexivity|]. cbn. destruct (Reqb (f x) z) eqn:E1, (Reqb (f x) y) eqn:E2; cbn; rewrite ?E1, ?E2; cbn; rewrite ?IH; reflexivity. }
        rewrite !C, (E y). reflexivity.
Qed.
Lemma once_ok (s : scene shape geometry) : NoDup (map fst (s_items _ _ s)) ->
  Permutation (z_value_iter _ _ s) (map fst (filter (fun p => i_visible _ _ (snd p)) (s_items _ _ s))).
Proof.
  intro N. destruct (order_ok s N) as (_ & H). apply (filter_perm (z_of _ _ (s_items _ _ s))). intro z. rewrite H. set (l := s_items _ _ s) in *.
  assert (Q : forall p, In p l -> z_of _ _ l (fst p) = i_z_value _ _ (snd p)) by (intros [i it] P; cbn [fst snd]; unfold z_of; rewrite (in_get l i it N P); reflexivity).
  generalize Q. generalize (z_of _ _ l). clear. intros f Q. induction l as [|[i it] l IH]; [reflexivity|]. specialize (IH (fun p P => Q p (or_intror P))). pose proof (Q (i, it) (or_introl eq_refl)) as E. cbn [fst snd] in E.
  cbn [filter snd]. destruct (i_visible _ _ it); cbn [andb]; [|exact IH]. cbn [map filter fst]. rewrite E. destruct (Reqb (i_z_value _ _ it) z); cbn [map fst]; rewrite IH; reflexivity.
Qed.
(** Painting *)
Section Paint.
Variable out : Type.
Variable paint_method : item -> option (item -> result out).
Variable draw : nat -> out.
Lemma paint_ok (s : scene shape geometry) : NoDup (map fst (s_items _ _ s)) ->
  (forall id it, dict_get (s_items _ _ s) id = Some it -> i_visible _ _ it = true -> exists f, paint_method it = Some f /\ f it = Ok (draw id)) ->
  paint _ _ out paint_method s = (map draw (z_value_iter _ _ s), None).
Proof.
  intros N H. unfold paint. assert (Q : forall id, In id (z_value_iter _ _ s) -> exists it, dict_get (s_items _ _ s) id = Some it /\ i_visible _ _ it = true).
  { intros id I. apply (Permutation_in _ (once_ok s N)) in I. apply in_map_iff in I as ([i it] & <- & I). apply filter_In in I as (I & V). exists it. split; [apply in_get; assumption|exact V]. }
  induction (z_value_iter _ _ s) as [|id l IH]; [reflexivity|]. cbn [paint_loop]. destruct (Q id (or_introl eq_refl)) as (it & G & V). rewrite G. destruct (H id it G V) as (f & F & D). rewrite F, D.
  rewrite IH by (intros i I; apply Q; right; exact I). reflexivity.
Qed.
(** the first item which cannot be painted stops the painting *)
Lemma paint_stop (s : scene shape geometry) pre id post it : NoDup (map fst (s_items _ _ s)) -> z_value_iter _ _ s = pre ++ id :: post ->
  (forall i j, In i pre -> dict_get (s_items _ _ s) i = Some j -> exists f, paint_method j = Some f /\ f j = Ok (draw i)) ->
  dict_get (s_items _ _ s) id = Some it -> paint_method it = None -> paint _ _ out paint_method s = (map draw pre, Some NotImplementedError).
Proof.
  intros N E H G M. unfold paint. rewrite E. assert (Q : forall i, In i pre -> exists j, dict_get (s_items _ _ s) i = Some j).
  { intros i I. assert (I' : In i (z_value_iter _ _ s)) by (rewrite E; apply in_or_app; auto). apply (Permutation_in _ (once_ok s N)) in I'. apply in_map_iff in I' as ([k j] & <- & I'). apply filter_In in I' as (I' & _).
    exists j. apply in_get; assumption. }
  clear E. induction pre as [|i pre IH]; cbn [app paint_loop map].
  - rewrite G, M. reflexivity.
  - destruct (Q i (or_introl eq_refl)) as (j & J). rewrite J. destruct (H i j (or_introl eq_refl) J) as (f & F & D). rewrite F, D. rewrite IH; [reflexivity|intros; eapply H; [right|]; eassumption|intros; apply Q; right; assumption].
Qed.
End Paint.
End Order.
