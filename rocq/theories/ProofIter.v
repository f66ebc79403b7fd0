From Coq Require Import List Arith Lia.
From Verif Require Import Base ModelIter.
Import ListNotations.
Local Open Scope result_scope.

Lemma collect_ok : forall A B (f : A -> result B) (g : A -> B) l,
  (forall x, In x l -> f x = Ok (g x)) -> collect f l = Ok (map g l).
Proof.
  induction l as [|x l IH]; simpl; intros H; [reflexivity|].
  rewrite H by auto. simpl. rewrite IH by auto. reflexivity.
Qed.

Lemma py_mod_ok : forall i n, n <> 0 -> py_mod i n = Ok (i mod n).
Proof. intros i [|n] H; [congruence|reflexivity]. Qed.

Lemma py_index_nth : forall A (l : list A) i d, i < length l -> py_index l i = Ok (nth i l d).
Proof.
  intros. unfold py_index. rewrite (nth_error_nth' l d) by auto. reflexivity.
Qed.

Lemma nth_error_map_seq : forall B (f : nat -> B) n i,
  nth_error (map f (seq 0 n)) i = if i <? n then Some (f i) else None.
Proof.
  intros. rewrite nth_error_map. destruct (Nat.ltb_spec i n).
  - rewrite (nth_error_nth' _ 0) by (rewrite seq_length; auto). rewrite seq_nth by auto. reflexivity.
  - assert (nth_error (seq 0 n) i = None) as -> by (apply nth_error_None; rewrite seq_length; auto).
    reflexivity.
Qed.

Lemma closed_iterator_ok : forall A (x : A) l,
  closed_iterator (x :: l) = Ok ((x :: l) ++ [x]).
Proof.
  intros A x l. unfold closed_iterator.
  set (L := x :: l). assert (HL : length L <> 0) by (simpl; lia).
  rewrite (collect_ok _ _ _ (fun i => nth (i mod length L) L x)).
  - f_equal. apply nth_ext with x x.
    + rewrite map_length, seq_length, app_length. simpl. lia.
    + intros n. rewrite map_length, seq_length. intros Hn.
      rewrite nth_indep with (d' := nth (0 mod length L) L x)
        by (rewrite map_length, seq_length; auto).
      rewrite (map_nth (fun i => nth (i mod length L) L x)), seq_nth by auto. simpl (0 + n).
      destruct (Nat.eq_dec n (length L)).
      * subst n. rewrite Nat.mod_same by auto. rewrite app_nth2, Nat.sub_diag by auto. reflexivity.
      * rewrite Nat.mod_small by lia. rewrite app_nth1 by lia. reflexivity.
  - intros i _. rewrite py_mod_ok by auto. cbv beta iota delta [bind].
    apply py_index_nth. apply Nat.mod_upper_bound; auto.
Qed.

Lemma closed_iterator_empty : forall A, closed_iterator (@nil A) = Raise ZeroDivisionError.
Proof. reflexivity. Qed.

Lemma pairwise_loop_nth : forall A (l : list A) p i,
  nth_error (pairwise_loop p l) i =
    match nth_error (p :: l) i, nth_error (p :: l) (S i) with
    | Some a, Some b => Some (a, b)
    | _, _ => None
    end.
Proof.
  induction l as [|x l IH]; intros p i; simpl.
  - destruct i; simpl; [reflexivity|]. destruct i; reflexivity.
  - destruct i as [|i]; simpl; [reflexivity|]. rewrite IH. reflexivity.
Qed.

Lemma pairwise_ok : forall A (x : A) l ps, pairwise (x :: l) = Ok ps ->
  forall i, nth_error ps i =
    match nth_error (x :: l) i, nth_error (x :: l) (S i) with
    | Some a, Some b => Some (a, b)
    | _, _ => None
    end.
Proof.
  intros A x l ps H i. unfold pairwise, py_index in H. simpl in H. inversion H; subst.
  apply pairwise_loop_nth.
Qed.

Lemma pairwise_some : forall A (x : A) l, exists ps, pairwise (x :: l) = Ok ps.
Proof. intros. unfold pairwise. simpl. eauto. Qed.

Lemma pairwise_empty : forall A, pairwise (@nil A) = Raise IndexError.
Proof. reflexivity. Qed.

Lemma closed_pairwise_some : forall A (l : list A) d,
  closed_pairwise l = Ok (map (fun i => (nth i l d, nth ((i + 1) mod length l) l d))
                              (seq 0 (length l))).
Proof.
  intros. unfold closed_pairwise. apply collect_ok. intros i Hi. apply in_seq in Hi.
  rewrite (py_index_nth _ _ _ d) by lia. cbv beta iota delta [bind].
  rewrite py_mod_ok by lia.
  rewrite (py_index_nth _ _ _ d); [reflexivity|]. apply Nat.mod_upper_bound. lia.
Qed.

Lemma closed_pairwise_ok : forall A (l : list A) ps, closed_pairwise l = Ok ps ->
  length ps = length l /\
  forall i a b, nth_error ps i = Some (a, b) ->
    nth_error l i = Some a /\
    nth_error l (if S i =? length l then 0 else S i) = Some b.
Proof.
  intros A l ps H. destruct l as [|d l0] eqn:El.
  - inversion H; subst. split; auto. intros [|i]; discriminate.
  - rewrite <- El in *. rewrite (closed_pairwise_some _ _ d) in H. inversion H; subst ps; clear H.
    split; [rewrite map_length, seq_length; auto|].
    intros i a b Hi. rewrite nth_error_map_seq in Hi.
    destruct (Nat.ltb_spec i (length l)); inversion Hi; subst a b; clear Hi.
    split; [apply nth_error_nth'; auto|].
    destruct (Nat.eqb_spec (S i) (length l)).
    + rewrite Nat.add_1_r, e, Nat.mod_same by lia. apply nth_error_nth'. lia.
    + rewrite Nat.add_1_r, Nat.mod_small by lia. apply nth_error_nth'. lia.
Qed.

(** ** multiwise *)

Lemma heads_skip : forall A (l : list A) n s d,
  n + s <= length l + 1 -> (n = 0 \/ n + s <= length l) ->
  heads (map (fun i => skipn i l) (seq s n)) = Some (map (fun i => nth i l d) (seq s n)).
Proof.
  induction n as [|n IH]; intros s d H1 H2; [reflexivity|].
  simpl. rewrite (IH (S s) d) by lia.
  destruct (skipn s l) as [|x t] eqn:E.
  - exfalso. assert (length (skipn s l) = 0) by (rewrite E; reflexivity).
    rewrite skipn_length in H. lia.
  - f_equal. f_equal. rewrite <- (firstn_skipn s l) at 1. rewrite E.
    rewrite app_nth2; rewrite firstn_length_le by lia; [|lia].
    rewrite Nat.sub_diag. reflexivity.
Qed.

Lemma heads_none : forall A (ls : list (list A)), In [] ls -> heads ls = None.
Proof.
  induction ls as [|l ls IH]; simpl; intros []; subst; auto.
  rewrite IH by auto. destruct l; reflexivity.
Qed.

Lemma map_tl_skip : forall A (l : list A) n s,
  map (@tl A) (map (fun i => skipn i l) (seq s n)) = map (fun i => skipn i l) (seq (S s) n).
Proof.
  intros. rewrite map_map. rewrite <- (seq_shift n s), map_map. apply map_ext.
  intros i. clear. revert l. induction i; intros [|x l]; simpl; auto.
  apply (IHi l).
Qed.

Lemma firstn_skipn_nth : forall A n s (l : list A) d, n + s <= length l ->
  firstn n (skipn s l) = map (fun i => nth i l d) (seq s n).
Proof.
  intros. apply nth_ext with d d.
  - rewrite firstn_length_le, map_length, seq_length by (rewrite skipn_length; lia). reflexivity.
  - intros i. rewrite firstn_length_le by (rewrite skipn_length; lia). intros Hi.
    rewrite nth_indep with (l := map _ _) (d' := (fun i => nth i l d) 0)
      by (rewrite map_length, seq_length; auto).
    rewrite (map_nth (fun i => nth i l d)), seq_nth by auto.
    rewrite <- (firstn_skipn s l) at 2.
    rewrite app_nth2; rewrite firstn_length_le by lia; [|lia].
    rewrite <- (firstn_skipn n (skipn s l)) at 2.
    rewrite app_nth1 by (rewrite firstn_length_le; rewrite ?skipn_length; lia).
    f_equal. lia.
Qed.

Lemma zip_rounds_windows : forall A (l : list A) (d : A) n r s,
  0 < n -> r = length l - s ->
  zip_rounds r (map (fun i => skipn i l) (seq s n)) =
  map (fun i => firstn n (skipn i l)) (seq s (length l + 1 - n - s)).
Proof.
  intros A l d n r. induction r as [|r IH]; intros s Hn Hr.
  - replace (length l + 1 - n - s) with 0 by lia. reflexivity.
  - destruct (le_lt_dec (n + s) (length l)).
    + simpl. rewrite (heads_skip _ _ _ _ d) by lia.
      replace (length l + 1 - n - s) with (S (length l + 1 - n - S s)) by lia.
      simpl. f_equal; [rewrite (firstn_skipn_nth _ _ _ _ d) by lia; reflexivity|].
      rewrite map_tl_skip. apply IH; lia.
    + replace (length l + 1 - n - s) with 0 by lia.
      simpl. rewrite heads_none; [reflexivity|].
      apply in_map_iff. exists (s + n - 1). split.
      * apply skipn_all2. lia.
      * apply in_seq. lia.
Qed.

Lemma multiwise_ok : forall A (l : list A) n,
  multiwise l n =
    if n =? 0 then [] else map (fun i => firstn n (skipn i l)) (seq 0 (length l + 1 - n)).
Proof.
  intros A l n. destruct (Nat.eqb_spec n 0); [subst; reflexivity|].
  unfold multiwise, zip_star. destruct n as [|n]; [congruence|].
  simpl map at 1.
  destruct l as [|d l].
  - simpl. reflexivity.
  - set (L := d :: l).
    change (skipn 0 L :: map (fun i => skipn i L) (seq 1 n)) with
        (map (fun i => skipn i L) (seq 0 (S n))).
    change (skipn 0 L) with L.
    rewrite (zip_rounds_windows _ L d (S n) (length L) 0) by lia.
    rewrite Nat.sub_0_r. reflexivity.
Qed.

Lemma closed_multiwise_ok : forall m n,
  closed_multiwise_index_iterator m n =
    Ok (map (fun i => map (fun j => (i + j) mod m) (seq 0 n)) (seq 0 m)).
Proof.
  intros m n. unfold closed_multiwise_index_iterator. apply collect_ok.
  intros i Hi. apply in_seq in Hi. apply collect_ok. intros j _.
  apply py_mod_ok. lia.
Qed.

Lemma closed_pairwise_defined : forall A (l : list A), is_ok (closed_pairwise l).
Proof.
  intros A [|d l].
  - exists []. reflexivity.
  - eexists. apply (closed_pairwise_some A (d :: l) d).
Qed.
