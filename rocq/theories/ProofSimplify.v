(** Proofs about the simplification of polygons whose edges are not longer than the threshold,
    Patro/GeometryEngine/Polygon.py 502-549. *)
From Coq Require Import Reals List Lra Lia Psatz Bool Arith.
From Verif Require Import Base ModelVector SpecVector SpecLine ModelIter ModelPolygon SpecPolygon.
From Verif Require Import ProofVector ProofSegment ProofIter ProofPolygon ProofPolygon2.
Import ListNotations.
Local Open Scope R_scope.
Local Open Scope result_scope.

Lemma deviation_short p1 p2 p3 d : deviation_with (vsub p2 p1) (vsub p3 p1) = Ok d -> Rabs d <= dist p2 p3.
Proof.
  unfold deviation_with, fdiv, magnitude, magnitude_square, cross, dot, vsub, dist. cbn [vx vy].
  set (a := vx p3 - vx p1). set (b := vy p3 - vy p1). set (m := sqrt (a * a + b * b)).
  destruct (Reqb_spec m 0) as [|N]; [discriminate|]. intro H. injection H as <-.
  assert (M : 0 < m) by (pose proof (sqrt_pos (a * a + b * b)); unfold m in *; lra).
  assert (MM : m * m = a * a + b * b) by (apply sqrt_sqrt; nra).
  set (u := vx p2 - vx p3). set (v := vy p2 - vy p3).
  replace (a * (vy p2 - vy p1) - b * (vx p2 - vx p1)) with (a * v - b * u) by (unfold a, b, u, v; ring).
  set (w := sqrt (u * u + v * v)). assert (W : 0 <= w) by apply sqrt_pos.
  assert (WW : w * w = u * u + v * v) by (apply sqrt_sqrt; clear; clearbody u v; nra).
  assert (Q : (a * v - b * u) * (a * v - b * u) <= (w * m) * (w * m)).
  { replace ((w * m) * (w * m)) with ((w * w) * (m * m)) by ring. rewrite WW, MM.
    assert (X : 0 <= (a * u + b * v) * (a * u + b * v)) by apply Rle_0_sqr. clear - X.
    replace ((u * u + v * v) * (a * a + b * b)) with ((a * v - b * u) * (a * v - b * u) + (a * u + b * v) * (a * u + b * v)) by ring. lra. }
  unfold Rdiv. rewrite Rabs_mult, (Rabs_inv m), (Rabs_pos_eq m) by lra.
  apply (Rmult_le_reg_r m); [exact M|]. rewrite Rmult_assoc, Rinv_l, Rmult_1_r by lra.
  apply Rsqr_incr_0_var; [|apply Rmult_le_pos; lra]. rewrite <- Rsqr_abs. unfold Rsqr. exact Q.
Qed.
Lemma deviation_same p1 p2 : deviation_with (vsub p2 p1) (vsub p1 p1) = Raise ZeroDivisionError.
Proof.
  unfold deviation_with, fdiv, magnitude, magnitude_square, dot, vsub. cbn [vx vy].
  replace ((vx p1 - vx p1) * (vx p1 - vx p1) + (vy p1 - vy p1) * (vy p1 - vy p1)) with 0 by ring.
  rewrite sqrt_0, Reqb_refl. reflexivity.
Qed.
Lemma deviation_raise a b e : deviation_with a b = Raise e -> e = ZeroDivisionError.
Proof. unfold deviation_with, fdiv. destruct (Reqb (magnitude b) 0); [injection 1 as <-; reflexivity|discriminate]. Qed.

Lemma ring_nth (l : list vec) j : (S j < length l)%nat -> In (nth j l o0, nth (S j) l o0) (ring l).
Proof.
  destruct l as [|a t]; cbn [length]; intro H; [lia|]. unfold ring.
  assert (E : (nth j (a :: t) o0, nth (S j) (a :: t) o0) = nth j (combine (a :: t) (t ++ [a])) (o0, o0)).
  { rewrite combine_nth by (rewrite app_length; cbn [length]; lia). cbn [nth]. rewrite app_nth1 by lia. reflexivity. }
  rewrite E. apply nth_In. rewrite combine_length, app_length. cbn [length]. lia.
Qed.

Section Short.
Variable l : list vec.
Variable threshold : R.
Let n := length l.
Hypothesis long : (3 <= n)%nat.
Hypothesis short : forall a b, In (a, b) (ring l) -> dist a b <= threshold.

Lemma ring_step j : (S j < n)%nat -> dist (nth j l o0) (nth (S j) l o0) <= threshold.
Proof. intro H. apply short, ring_nth, H. Qed.

Lemma short_loop : forall k r fuel, (1 <= k < n)%nat -> (k < fuel)%nat ->
  simplify_loop fuel l threshold r 0 (n - k) = Raise ZeroDivisionError.
Proof.
  induction k as [|k IH]; intros r fuel K F; [lia|]. destruct fuel as [|fuel]; [lia|]. cbn [simplify_loop]. fold n.
  rewrite (proj2 (Nat.ltb_lt 0 n) ltac:(lia)). unfold test_edge_pair. fold n. rewrite py_mod_ok by lia. cbn [bind].
  rewrite (proj2 (Nat.eqb_neq 0 (n - 1)) ltac:(lia)).
  set (j := (n - S k)%nat).
  assert (P : forall i, (i < n)%nat -> py_index l i = Ok (nth i l o0)).
  { intros i Hi. unfold py_index. rewrite (nth_error_nth' l o0 Hi). reflexivity. }
  destruct k as [|k].
  - replace (j + 1)%nat with n by (unfold j; lia). rewrite Nat.mod_same by lia. rewrite !P by (unfold j; lia). cbn [bind].
    rewrite deviation_same. reflexivity.
  - rewrite Nat.mod_small by (unfold j; lia). rewrite !P by (unfold j; lia). cbn [bind].
    destruct (deviation_with (vsub (nth j l o0) (nth 0 l o0)) (vsub (nth (j + 1) l o0) (nth 0 l o0))) as [d|e] eqn:D; cbn [bind].
    + apply deviation_short in D. replace (j + 1)%nat with (S j) in D by lia.
      pose proof (ring_step j ltac:(unfold j; lia)) as S0.
      rewrite (Rleb_true (Rabs d) threshold) by lra. rewrite (proj2 (Nat.ltb_ge j 0) ltac:(lia)).
      
      replace (j + 1)%nat with (n - S k)%nat by (unfold j; lia). apply IH; lia.
    + apply deviation_raise in D. subst e. reflexivity.
Qed.
Lemma short_lost : simplify l threshold = Ok None.
Proof.
  unfold simplify. fold n. pose proof (short_loop (n - 1) [] (2 * n + 1) ltac:(lia) ltac:(lia)) as H.
  replace (n - (n - 1))%nat with 1%nat in H by lia. rewrite H. reflexivity.
Qed.
End Short.
