From Coq Require Import String Ascii List Bool Arith ZArith Reals Lia Lra.
From Flocq Require Import Core.
From Verif Require Import Base ModelFormula ModelMeasure ModelVector ModelTransformation ModelLine ModelScene SpecScene ProofVector.
Import ListNotations.

(** ** bezier_path *)
Section BezierPath.
Variables point item : Type.
Variable make : nat -> list point -> item.
Notation loop := (bezier_loop point item make).
Notation path := (bezier_path point item make).
Lemma loop_ok points degree l : (forall i, In i l -> degree * i + degree + 1 <= length points) ->
  loop points degree l = (map (fun i => make degree (firstn (degree + 1) (skipn (degree * i) points))) l, None).
Proof.
  induction l as [|i l IH]; intro H; [reflexivity|]. cbn [bezier_loop]. unfold bezier_method. assert (E : length (firstn (degree + 1) (skipn (degree * i) points)) = degree + 1).
  { rewrite firstn_length, skipn_length. specialize (H i (or_introl eq_refl)). lia. }
  rewrite E, Nat.eqb_refl, IH; [reflexivity|]. intros j J. apply H. right. exact J.
Qed.
Lemma path_ok points degree m : degree = 2 \/ degree = 3 -> length points = degree * m + 1 ->
  path points degree = (map (fun i => make degree (firstn (degree + 1) (skipn (degree * i) points))) (seq 0 m), None).
Proof.
  intros D E. unfold bezier_path. assert (T : Nat.eqb degree 1 || Nat.eqb degree 2 || Nat.eqb degree 3 = true) by (destruct D as [-> | ->]; reflexivity). rewrite T.
  replace (Z.of_nat (length points) - 1)%Z with (Z.of_nat m * Z.of_nat degree)%Z by nia. rewrite Z_mod_mult, Z.eqb_refl.
  assert (Q : length points / degree = m). { rewrite E, Nat.mul_comm, Nat.div_add_l by lia. rewrite Nat.div_small by lia. lia. }
  rewrite Q. apply loop_ok. intros i I. apply in_seq in I. nia.
Qed.
Lemma path_bad points degree : (degree = 2 \/ degree = 3) -> (forall m, length points <> degree * m + 1) -> path points degree = ([], Some ValueError).
Proof.
  intros D N. unfold bezier_path. assert (T : Nat.eqb degree 1 || Nat.eqb degree 2 || Nat.eqb degree 3 = true) by (destruct D as [-> | ->]; reflexivity). rewrite T.
  destruct (Z.eqb_spec ((Z.of_nat (length points) - 1) mod Z.of_nat degree) 0) as [M|M]; [|reflexivity]. exfalso. apply Z.mod_divide in M; [|lia]. destruct M as (k & M).
  destruct (Z_lt_le_dec k 0) as [K|K]; [nia|]. apply (N (Z.to_nat k)). nia.
Qed.
Lemma path_degree points degree : degree <> 1 -> degree <> 2 -> degree <> 3 -> path points degree = ([], Some ValueError).
Proof.
  intros A B C. unfold bezier_path. destruct (Nat.eqb_spec degree 1); [contradiction|]. destruct (Nat.eqb_spec degree 2); [contradiction|]. destruct (Nat.eqb_spec degree 3); [contradiction|]. reflexivity.
Qed.
(** segments: the loop goes one step too far *)
Lemma loop_app points degree l m its : loop points degree l = (its, None) -> loop points degree (l ++ m) = (its ++ fst (loop points degree m), snd (loop points degree m)).
Proof.
  revert its. induction l as [|i l IH]; intros its H; [injection H as <-; cbn [app]; destruct (loop points degree m); reflexivity|]. cbn [bezier_loop app] in *. destruct (bezier_method _ _ _ degree _) as [it|e]; [|discriminate].
  destruct (loop points degree l) as [js [e|]]; [discriminate|]. injection H as <-. rewrite (IH js eq_refl). reflexivity.
Qed.
Lemma path_one points n : length points = S n -> path points 1 = (map (fun i => make 1 (firstn 2 (skipn i points))) (seq 0 n), Some TypeError).
Proof.
  intro E. unfold bezier_path. cbn [Nat.eqb orb]. change (Z.of_nat 1) with 1%Z. rewrite Z.mod_1_r, Z.eqb_refl, Nat.div_1_r, E, seq_S.
  rewrite (loop_app points 1 (seq 0 n) [0 + n] _ (loop_ok points 1 (seq 0 n) ltac:(intros i I; apply in_seq in I; lia))). change (0 + n) with n. cbn [bezier_loop]. unfold bezier_method.
  assert (L : length (firstn (1 + 1) (skipn (1 * n) points)) = 1) by (rewrite firstn_length, skipn_length; lia). rewrite L. cbn [Nat.eqb Nat.add fst snd]. rewrite app_nil_r. f_equal.
  apply map_ext. intro i. rewrite Nat.mul_1_l. reflexivity.
Qed.
(** the points of a curve *)
Lemma chunk_nth points degree i k d : k <= degree -> nth k (firstn (degree + 1) (skipn (degree * i) points)) d = nth (degree * i + k) (points : list point) d.
Proof.
  intro H. assert (F : forall (l : list point) a n, n < a -> nth n (firstn a l) d = nth n l d).
  { induction l as [|x l IH]; intros a n L; [destruct a; reflexivity|]. destruct a; [lia|]. destruct n; [reflexivity|]. cbn. apply IH. lia. }
  rewrite F by lia. clear F H. generalize (degree * i) as j. induction points as [|x l IH]; intro j; [rewrite skipn_nil; destruct (j + k); destruct k; reflexivity|]. destruct j; [reflexivity|]. cbn. apply IH.
Qed.
End BezierPath.

(** ** The tiler *)
Section Tiler.
Local Open Scope R_scope.
Variables (b : box) (a : vec).
Hypotheses (Hx : 0 < vx a) (Hy : 0 < vy a) (Bx : inf (bx b) <= sup (bx b)) (By : inf (by_ b) <= sup (by_ b)).
Lemma in_tiles t r c : In (t, r, c) (tiles b a) <-> t = tile b a r c /\ (r < tile_rows b a)%nat /\ (c < tile_columns b a)%nat.
Proof.
  unfold tiles. rewrite in_flat_map. split.
  - intros (i & I & H). apply in_map_iff in H as (j & H & J). injection H as <- <- <-. apply in_seq in I, J. split; [reflexivity|lia].
  - intros (-> & R & C). exists r. split; [apply in_seq; lia|]. apply in_map_iff. exists c. split; [reflexivity|apply in_seq; lia].
Qed.
Lemma apart (x h : R) (i j : nat) u : 0 < h -> x + h * INR i < u < x + h * INR i + h -> x + h * INR j < u < x + h * INR j + h -> i = j.
Proof.
  intros H (A1 & A2) (B1 & B2). destruct (lt_eq_lt_dec i j) as [[L|E]|L]; [|exact E|]; exfalso.
  - assert (Q : INR i + 1 <= INR j) by (rewrite <- S_INR; apply le_INR; lia). nra.
  - assert (Q : INR j + 1 <= INR i) by (rewrite <- S_INR; apply le_INR; lia). nra.
Qed.
Lemma disjoint_ok t r c t' r' c' p : In (t, r, c) (tiles b a) -> In (t', r', c') (tiles b a) -> inside p t -> inside p t' -> r = r' /\ c = c'.
Proof.
  intros I J. apply in_tiles in I as (-> & _), J as (-> & _). unfold inside, tile. cbn [bx by_ inf sup]. intros (A1 & A2) (B1 & B2). split; [exact (apart _ _ _ _ _ Hx A1 B1)|exact (apart _ _ _ _ _ Hy A2 B2)].
Qed.
Lemma size_ok t r c : In (t, r, c) (tiles b a) -> ilength (bx t) = vx a /\ ilength (by_ t) = vy a.
Proof. intro I. apply in_tiles in I as (-> & _). unfold tile, ilength. cbn. lra. Qed.
Lemma number_ok : length (tiles b a) = (tile_rows b a * tile_columns b a)%nat.
Proof.
  unfold tiles. cut (forall n k, length (flat_map (fun r => map (fun c => (tile b a r c, r, c)) (seq 0 (tile_columns b a))) (seq k n)) = (n * tile_columns b a)%nat); [intro H; apply H|].
  induction n as [|n IH]; intro k; [reflexivity|]. cbn. rewrite app_length, map_length, seq_length, IH. reflexivity.
Qed.
Lemma count (x l h : R) : 0 <= l -> 0 < h -> let n := Z.to_nat (Zceil (l / h)) in l <= h * INR n /\ (n <> O -> h * (INR n - 1) < l).
Proof.
  intros L H n. assert (N : (0 <= Zceil (l / h))%Z). { apply le_IZR. eapply Rle_trans; [|apply Zceil_ub]. apply Rmult_le_pos; [exact L|]. left. apply Rinv_0_lt_compat, H. }
  assert (E : INR n = IZR (Zceil (l / h))) by (unfold n; rewrite INR_IZR_INZ, Z2Nat.id by exact N; reflexivity).
  assert (D : h * (l / h) = l) by (field; lra). rewrite E. split.
  - rewrite <- D at 1. apply Rmult_le_compat_l; [lra|apply Zceil_ub].
  - intros _. rewrite <- D at 2. apply Rmult_lt_compat_l; [exact H|]. pose proof (Zceil_lb (l / h)). lra.
Qed.
(** a grid of n steps of h from x *)
Lemma grid (x l h u : R) (n : nat) : 0 < h -> x <= u <= x + l -> l <= h * INR n -> (0 < n)%nat -> exists i, (i < n)%nat /\ x + h * INR i <= u <= x + h * INR i + h.
Proof.
  intros H. revert l. induction n as [|n IH]; intros l U L P; [lia|]. destruct (Rle_dec u (x + h * INR n)) as [C|C].
  - destruct n as [|n]; [exists O; cbn in *; split; [lia|lra]|]. destruct (IH (h * INR (S n)) ltac:(lra) (Rle_refl _) ltac:(lia)) as (i & I & Q). exists i. split; [lia|exact Q].
  - exists n. rewrite S_INR in L. split; [lia|]. lra.
Qed.
(** the union of the tiles: the numbers of rows and columns are exchanged *)
Lemma union_ok : (0 < tile_rows b a)%nat -> (0 < tile_columns b a)%nat -> forall p, (exists t r c, In (t, r, c) (tiles b a) /\ in_box p t) <->
  (inf (bx b) <= vx p <= inf (bx b) + vx a * INR (tile_rows b a) /\ inf (by_ b) <= vy p <= inf (by_ b) + vy a * INR (tile_columns b a)).
Proof.
  intros R C p. split.
  - intros (t & r & c & I & (P1 & P2)). apply in_tiles in I as (-> & I & J). unfold tile in P1, P2. cbn [bx by_ inf sup] in P1, P2.
    assert (Q1 : INR r + 1 <= INR (tile_rows b a)) by (rewrite <- S_INR; apply le_INR; lia). assert (Q2 : INR c + 1 <= INR (tile_columns b a)) by (rewrite <- S_INR; apply le_INR; lia).
    pose proof (pos_INR r). pose proof (pos_INR c). assert (0 <= vx a * INR r) by (apply Rmult_le_pos; lra). assert (0 <= vy a * INR c) by (apply Rmult_le_pos; lra).
    assert (vx a * (INR r + 1) <= vx a * INR (tile_rows b a)) by (apply Rmult_le_compat_l; lra). assert (vy a * (INR c + 1) <= vy a * INR (tile_columns b a)) by (apply Rmult_le_compat_l; lra). lra.
  - intros (P1 & P2). destruct (grid _ _ _ _ _ Hx P1 (Rle_refl _) R) as (r & R' & P1'). destruct (grid _ _ _ _ _ Hy P2 (Rle_refl _) C) as (c & C' & P2').
    exists (tile b a r c), r, c. split; [apply in_tiles; auto|]. split; unfold tile; cbn [bx by_ inf sup]; assumption.
Qed.
Lemma columns_ok : ilength (bx b) <= vx a * INR (tile_columns b a) /\ ilength (by_ b) <= vy a * INR (tile_rows b a).
Proof. split; [apply (count 0)|apply (count 0)]; unfold ilength; lra. Qed.
Lemma cover_iff : inf (bx b) < sup (bx b) -> inf (by_ b) < sup (by_ b) ->
  (covers (tiles b a) b <-> ilength (bx b) <= vx a * INR (tile_rows b a) /\ ilength (by_ b) <= vy a * INR (tile_columns b a)).
Proof.
  intros Sx Sy. unfold ilength. destruct columns_ok as (Q1 & Q2). unfold ilength in Q1, Q2.
  assert (C : (0 < tile_columns b a)%nat) by (destruct (tile_columns b a); [cbn in Q1; lra|lia]). assert (R : (0 < tile_rows b a)%nat) by (destruct (tile_rows b a); [cbn in Q2; lra|lia]).
  split.
  - intro H. destruct (H (V (sup (bx b)) (sup (by_ b)))) as (t & r & c & I & P); [split; cbn; lra|]. destruct (proj1 (union_ok R C _) (ex_intro _ t (ex_intro _ r (ex_intro _ c (conj I P))))) as (U1 & U2). cbn in U1, U2. lra.
  - intros (A & B) p (P1 & P2). apply union_ok; [assumption..|]. lra.
Qed.
End Tiler.
(** as many rows as columns *)
Lemma cover_square b a : (0 < vx a)%R -> (0 < vy a)%R -> (inf (bx b) < sup (bx b))%R -> (inf (by_ b) < sup (by_ b))%R -> tile_rows b a = tile_columns b a -> covers (tiles b a) b.
Proof.
  intros Hx Hy Sx Sy E. apply (cover_iff b a Hx Hy ltac:(lra) ltac:(lra) Sx Sy). pose proof (columns_ok b a Hx Hy ltac:(lra) ltac:(lra)) as (A & B). rewrite E in *. auto.
Qed.
Lemma cover_not b a : (0 < vx a)%R -> (0 < vy a)%R -> (inf (bx b) < sup (bx b))%R -> (inf (by_ b) < sup (by_ b))%R -> tile_rows b a <> tile_columns b a -> ~ covers (tiles b a) b.
Proof.
  intros Hx Hy Sx Sy N H. apply (proj1 (cover_iff b a Hx Hy ltac:(lra) ltac:(lra) Sx Sy)) in H as (A & B). unfold ilength in *.
  assert (C1 : forall l h, (0 <= l)%R -> (0 < h)%R -> (Z.to_nat (Zceil (l / h)) <> 0)%nat -> (h * (INR (Z.to_nat (Zceil (l / h))) - 1) < l)%R) by (intros l h L P Q; apply (proj2 (count 0 l h L P) Q)).
  pose proof (C1 (sup (bx b) - inf (bx b))%R (vx a) ltac:(lra) Hx) as P1. pose proof (C1 (sup (by_ b) - inf (by_ b))%R (vy a) ltac:(lra) Hy) as P2. unfold tile_rows, tile_columns, ilength in *.
  set (c := Z.to_nat (Zceil ((sup (bx b) - inf (bx b)) / vx a))) in *. set (r := Z.to_nat (Zceil ((sup (by_ b) - inf (by_ b)) / vy a))) in *.
  assert (X : (sup (bx b) - inf (bx b) > 0)%R) by lra. assert (Y : (sup (by_ b) - inf (by_ b) > 0)%R) by lra.
  destruct (lt_eq_lt_dec r c) as [[L|E]|L]; [|contradiction|].
  - assert (Q : (INR r + 1 <= INR c)%R) by (rewrite <- S_INR; apply le_INR; lia). specialize (P1 ltac:(lia)). nra.
  - assert (Q : (INR c + 1 <= INR r)%R) by (rewrite <- S_INR; apply le_INR; lia). specialize (P2 ltac:(lia)). nra.
Qed.

(** ** Positions *)
Lemma casted_many t c l : (forall p, In p l -> match p with PVector _ => True | PName n => lookup c n <> None | PNumber _ => False end) ->
  exists m, casted_positions t c (PMany l) = Ok m /\ length m = length l /\
  forall k p, nth_error l k = Some p -> nth_error m k = match p with PVector v => Some (apply t v) | PName n => option_map (apply t) (lookup c n) | PNumber _ => None end.
Proof.
  unfold casted_positions. cbn [loop_positions]. induction l as [|p l IH]; intro H; [exists []; repeat split; intros [|k] p; discriminate|].
  destruct (IH (fun q Q => H q (or_intror Q))) as (m & E & L & F). specialize (H p (or_introl eq_refl)). cbn [traverse]. destruct p as [v|n|x]; [| |contradiction].
  - cbn [cast_position bind]. rewrite E. cbn. eexists. split; [reflexivity|]. cbn. split; [lia|]. intros [|k] q Q; cbn in *; [injection Q as <-; reflexivity|auto].
  - cbn [cast_position]. destruct (lookup c n) as [v|] eqn:G; [|contradiction]. cbn [bind]. rewrite E. cbn. eexists. split; [reflexivity|]. cbn. split; [lia|]. intros [|k] q Q; cbn in *; [injection Q as <-; rewrite G; reflexivity|auto].
Qed.
Lemma casted_one_vector t c v : casted_positions t c (POne (PVector v)) = Raise UnboundLocalError.
Proof. reflexivity. Qed.
Lemma casted_one_name t c n : match casted_positions t c (POne (PName n)) with Ok m => length m = length n | Raise e => e = KeyError end.
Proof.
  unfold casted_positions. cbn [loop_positions]. induction n as [|a n IH]; [reflexivity|]. cbn [map traverse cast_position]. destruct (lookup c [a]) as [v|]; [|reflexivity]. cbn [bind].
  destruct (traverse (cast_position t c) (map (fun c0 => PName [c0]) n)) as [m|e]; cbn in *; [lia|exact IH].
Qed.
