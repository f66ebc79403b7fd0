(** Proofs about B-splines. *)
From Coq Require Import Reals List ZArith Lia Lra.
From Verif Require Import Base ModelVector SpecVector ProofVector ModelBezier SpecBezier ProofBezier
  ModelSpline SpecSpline.
Import ListNotations.
Local Open Scope R_scope.

(** ** Finite sums *)

Lemma sumn_ext n f g : (forall i, (i < n)%nat -> f i = g i) -> sumn n f = sumn n g.
Proof.
  induction n as [|n IH]; intro H; cbn; [reflexivity|].
  rewrite IH, H by auto. reflexivity.
Qed.
Lemma sumn_plus n f g : sumn n (fun i => f i + g i) = sumn n f + sumn n g.
Proof. induction n as [|n IH]; cbn; [ring|rewrite IH; ring]. Qed.
Lemma sumn_0 n f : (forall i, (i < n)%nat -> f i = 0) -> sumn n f = 0.
Proof. induction n as [|n IH]; intro H; cbn; [reflexivity|]. rewrite IH, H by auto. ring. Qed.
Lemma sumn_first n f : sumn (S n) f = f 0%nat + sumn n (fun i => f (S i)).
Proof.
  induction n as [|n IH]; [cbn; ring|].
  change (sumn (S (S n)) f) with (sumn (S n) f + f (S n)). rewrite IH. cbn. ring.
Qed.
Lemma sumn_split a k f : sumn (a + k) f = sumn a f + sumn k (fun j => f (a + j)%nat).
Proof.
  induction k as [|k IH]; [rewrite Nat.add_0_r; cbn; ring|].
  rewrite Nat.add_succ_r. cbn. rewrite IH. ring.
Qed.
Lemma sumn_window n a k f : (a + k <= n)%nat ->
  (forall i, (i < n)%nat -> (i < a \/ a + k <= i)%nat -> f i = 0) ->
  sumn n f = sumn k (fun j => f (a + j)%nat).
Proof.
  intros Hn H. replace n with (a + k + (n - a - k))%nat by lia.
  rewrite !sumn_split. rewrite (sumn_0 a) by (intros; apply H; lia).
  rewrite (sumn_0 (n - a - k)) by (intros; apply H; lia). ring.
Qed.
Lemma sumn_nonneg n f : (forall i, (i < n)%nat -> 0 <= f i) -> 0 <= sumn n f.
Proof.
  induction n as [|n IH]; intro H; cbn; [lra|].
  specialize (IH ltac:(auto)). specialize (H n ltac:(lia)). lra.
Qed.

(** ** The basis *)

Lemma quot_ok a b : b <> 0 -> quot a b = a / b.
Proof. intro H. unfold quot. destruct (Req_EM_T b 0); tauto. Qed.
Lemma quot_nonneg a b : 0 <= a -> 0 <= b -> 0 <= quot a b.
Proof.
  intros Ha Hb. unfold quot. destruct (Req_EM_T b 0) as [->|H]; [lra|].
  apply Rmult_le_pos; [assumption|]. apply Rlt_le, Rinv_0_lt_compat. lra.
Qed.

(** One step of the de Boor triangle. *)
Definition ratio (K : nat -> R) (s : nat) (x : R) (i : nat) : R := (x - K i) / (K (i + s)%nat - K i).
Fixpoint triangle (K : nat -> R) (p : nat) (P : nat -> R) (x : R) (q i : nat) : R :=
  match q with
  | O => P i
  | S q' => (1 - ratio K (p - q') x i) * triangle K p P x q' (i - 1)
            + ratio K (p - q') x i * triangle K p P x q' i
  end.

Section Basis.
Variable K : nat -> R.
Variable N : nat.
Hypothesis K_mono : forall i j, (i <= j <= N)%nat -> K i <= K j.

Lemma basis_local p : forall i x, (i + p + 1 <= N)%nat ->
  x < K i \/ K (i + p + 1)%nat <= x -> basis K p i x = 0.
Proof.
  induction p as [|p IH]; intros i x HN H; cbn [basis].
  - replace (i + 0 + 1)%nat with (i + 1)%nat in H by lia.
    destruct (Rle_dec (K i) x); [|reflexivity]. destruct (Rlt_dec x (K (i + 1)%nat)); [lra|reflexivity].
  - rewrite (IH i x), (IH (i + 1)%nat x); [ring|lia| |lia|].
    + destruct H as [H|H]; [left|right].
      * pose proof (K_mono i (i + 1) ltac:(lia)). lra.
      * replace (i + 1 + p + 1)%nat with (i + S p + 1)%nat by lia. exact H.
    + destruct H as [H|H]; [left; exact H|right].
      pose proof (K_mono (i + p + 1) (i + S p + 1) ltac:(lia)). lra.
Qed.

Lemma basis_nonneg p : forall i x, (i + p + 1 <= N)%nat -> 0 <= basis K p i x.
Proof.
  induction p as [|p IH]; intros i x HN; cbn [basis].
  - destruct (Rle_dec (K i) x); [|lra]. destruct (Rlt_dec x (K (i + 1)%nat)); lra.
  - assert (A : 0 <= quot (x - K i) (K (i + S p)%nat - K i) * basis K p i x).
    { destruct (Rlt_dec x (K i)).
      - rewrite basis_local by (lia || auto). lra.
      - apply Rmult_le_pos; [|apply IH; lia]. apply quot_nonneg; [lra|].
        pose proof (K_mono i (i + S p) ltac:(lia)). lra. }
    assert (B : 0 <= quot (K (i + S p + 1)%nat - x) (K (i + S p + 1)%nat - K (i + 1)%nat)
                     * basis K p (i + 1) x).
    { destruct (Rle_dec (K (i + S p + 1)%nat) x).
      - rewrite (basis_local p (i + 1)%nat); [lra|lia|]. right.
        replace (i + 1 + p + 1)%nat with (i + S p + 1)%nat by lia. assumption.
      - apply Rmult_le_pos; [|apply IH; lia]. apply quot_nonneg; [lra|].
        pose proof (K_mono (i + 1) (i + S p + 1) ltac:(lia)). lra. }
    lra.
Qed.

Variable x : R.
Variable m : nat.
Hypothesis Hm : K m <= x < K (m + 1)%nat.

Lemma basis_outside p i : (i + p + 1 <= N)%nat -> (m + 1 <= N)%nat ->
  (m < i \/ i + p < m)%nat -> basis K p i x = 0.
Proof.
  intros HN HmN H. apply basis_local; [exact HN|]. destruct H as [H|H].
  - left. pose proof (K_mono (m + 1) i ltac:(lia)). lra.
  - right. pose proof (K_mono (i + p + 1) m ltac:(lia)). lra.
Qed.

Lemma window_pos i s : (i <= m < i + s)%nat -> (i + s <= N)%nat -> 0 < K (i + s)%nat - K i.
Proof.
  intros H HN. pose proof (K_mono i m ltac:(lia)). pose proof (K_mono (m + 1) (i + s) ltac:(lia)). lra.
Qed.

(** One level down. *)
Lemma window_step q (P : nat -> R) : (q + 1 <= m)%nat -> (m + q + 2 <= N)%nat ->
  sumn (q + 2) (fun j => P (m - (q + 1) + j)%nat * basis K (S q) (m - (q + 1) + j) x) =
  sumn (q + 1) (fun j =>
     ((1 - ratio K (q + 1) x (m - q + j)) * P (m - q + j - 1)%nat
      + ratio K (q + 1) x (m - q + j) * P (m - q + j)%nat) * basis K q (m - q + j) x).
Proof.
  intros Hq HN. set (a := (m - (q + 1))%nat).
  assert (Ha : (m - q)%nat = S a) by (unfold a; lia).
  rewrite Ha.
  cbn [basis].
  transitivity
    (sumn (q + 2) (fun j => P (a + j)%nat * (quot (x - K (a + j)%nat) (K (a + j + S q)%nat - K (a + j)%nat)
                              * basis K q (a + j) x))
     + sumn (q + 2) (fun j => P (a + j)%nat * (quot (K (a + j + S q + 1)%nat - x)
                              (K (a + j + S q + 1)%nat - K (a + j + 1)%nat) * basis K q (a + j + 1) x))).
  { rewrite <- sumn_plus. apply sumn_ext. intros; ring. }
  replace (q + 2)%nat with (S (q + 1)) by lia.
  rewrite sumn_first. rewrite (basis_outside q (a + 0)) by (unfold a; lia).
  change (sumn (S (q + 1)) ?f) with (sumn (q + 1) f + f (q + 1)%nat).
  cbv beta. rewrite (basis_outside q (a + (q + 1) + 1)) by (unfold a; lia).
  transitivity
    (sumn (q + 1) (fun j => P (a + S j)%nat * (quot (x - K (a + S j)%nat) (K (a + S j + S q)%nat - K (a + S j)%nat)
                              * basis K q (a + S j) x))
     + sumn (q + 1) (fun j => P (a + j)%nat * (quot (K (a + j + S q + 1)%nat - x)
                              (K (a + j + S q + 1)%nat - K (a + j + 1)%nat) * basis K q (a + j + 1) x))).
  { ring. }
  rewrite <- sumn_plus. apply sumn_ext. intros j Hj.
  replace (a + S j)%nat with (S a + j)%nat by lia.
  replace (a + j + S q + 1)%nat with (S a + j + (q + 1))%nat by lia.
  replace (S a + j + S q)%nat with (S a + j + (q + 1))%nat by lia.
  replace (a + j + 1)%nat with (S a + j)%nat by lia.
  replace (S a + j - 1)%nat with (a + j)%nat by lia.
  pose proof (window_pos (S a + j) (q + 1) ltac:(unfold a; lia) ltac:(unfold a; lia)) as Hp.
  rewrite !quot_ok by lra. unfold ratio. field. lra.
Qed.

Lemma window_triangle p (P : nat -> R) : (p <= m)%nat -> (m + p + 1 <= N)%nat ->
  forall q, (q <= p)%nat ->
  sumn (p + 1) (fun j => P (m - p + j)%nat * basis K p (m - p + j) x) =
  sumn (p - q + 1) (fun j => triangle K p P x q (m - (p - q) + j) * basis K (p - q) (m - (p - q) + j) x).
Proof.
  intros Hp HN. induction q as [|q IH]; intro Hq.
  - rewrite Nat.sub_0_r. reflexivity.
  - rewrite IH by lia.
    remember (p - S q)%nat as r eqn:Er. assert (E : (p - q)%nat = S r) by lia. rewrite E.
    transitivity (sumn (r + 2) (fun j => triangle K p P x q (m - (r + 1) + j)
                                           * basis K (S r) (m - (r + 1) + j) x)).
    { replace (S r + 1)%nat with (r + 2)%nat by lia. apply sumn_ext. intros j Hj.
      replace (m - S r)%nat with (m - (r + 1))%nat by lia. reflexivity. }
    rewrite (window_step r (triangle K p P x q)) by lia.
    apply sumn_ext. intros j Hj. cbn [triangle].
    replace (p - q)%nat with (r + 1)%nat by lia. reflexivity.
Qed.

(** The sum over all control points is the apex of the triangle. *)
Lemma sum_triangle p n (P : nat -> R) : (p <= m < n)%nat -> (n + p <= N)%nat ->
  sumn n (fun i => P i * basis K p i x) = triangle K p P x p m.
Proof.
  intros Hp HN.
  rewrite (sumn_window n (m - p) (p + 1)).
  - rewrite (window_triangle p P) with (q := p) by lia.
    rewrite Nat.sub_diag. cbn [sumn Nat.add basis]. rewrite Nat.sub_0_r, Nat.add_0_r.
    destruct (Rle_dec (K m) x); [|lra]. destruct (Rlt_dec x (K (m + 1)%nat)); [ring|lra].
  - lia.
  - intros i Hi Ho. rewrite basis_outside by lia. ring.
Qed.

Lemma triangle_one p : forall q i, triangle K p (fun _ => 1) x q i = 1.
Proof. induction q as [|q IH]; intro i; cbn; [reflexivity|]. rewrite !IH. ring. Qed.

Lemma partition p n : (p <= m < n)%nat -> (n + p <= N)%nat ->
  sumn n (fun i => basis K p i x) = 1.
Proof.
  intros Hp HN. rewrite <- (triangle_one p p m), <- (sum_triangle p n (fun _ => 1) Hp HN).
  apply sumn_ext. intros; ring.
Qed.

End Basis.

(** ** Insertion of a knot commutes with the triangle *)

Definition inserted (K : nat -> R) (l : nat) (t : R) (i : nat) : R :=
  if (i <=? l)%nat then K i else if (i =? l + 1)%nat then t else K (i - 1)%nat.
Definition weight (K : nat -> R) (l : nat) (t : R) (s i : nat) : R :=
  if (i + s <=? l)%nat then 1 else if (l <? i)%nat then 0 else (t - K i) / (K (i + s)%nat - K i).
Definition blend (K : nat -> R) (l : nat) (t : R) (s : nat) (P : nat -> R) (i : nat) : R :=
  (1 - weight K l t s i) * P (i - 1)%nat + weight K l t s i * P i.

Section Insert.
Variable K : nat -> R.
Variable N : nat.
Hypothesis K_mono : forall i j, (i <= j <= N)%nat -> K i <= K j.
Variable l : nat.
Variable t : R.
Hypothesis Hl : K l <= t < K (l + 1)%nat.
Hypothesis HlN : (l + 1 <= N)%nat.

Lemma inserted_mono i j : (i <= j <= N + 1)%nat -> inserted K l t i <= inserted K l t j.
Proof.
  intros [Hij Hj]. unfold inserted.
  destruct (Nat.leb_spec i l), (Nat.leb_spec j l); try lia.
  - apply K_mono; lia.
  - destruct (Nat.eqb_spec j (l + 1)).
    + pose proof (K_mono i l ltac:(lia)). lra.
    + apply K_mono; lia.
  - destruct (Nat.eqb_spec i (l + 1)), (Nat.eqb_spec j (l + 1)); try lia; try lra.
    + pose proof (K_mono (l + 1) (j - 1) ltac:(lia)). lra.
    + apply K_mono; lia.
Qed.

(** The span of [x] before and after. *)
Variable x : R.
Variable m mh : nat.
Hypothesis Hm : K m <= x < K (m + 1)%nat.
Hypothesis Hmh : inserted K l t mh <= x < inserted K l t (mh + 1).
Hypothesis HmN : (m + 1 <= N)%nat.
Hypothesis HmhN : (mh + 1 <= N + 1)%nat.

Lemma spans : (mh = m /\ mh <= l)%nat \/ (mh = m + 1 /\ l < mh)%nat.
Proof.
  assert (U : forall a b, (a + 1 <= N)%nat -> (b + 1 <= N)%nat -> K a <= x < K (a + 1)%nat ->
                K b <= x < K (b + 1)%nat -> a = b).
  { intros a b Ha Hb H1 H2. destruct (Nat.lt_trichotomy a b) as [H|[H|H]]; [|assumption|].
    - pose proof (K_mono (a + 1) b ltac:(lia)). lra.
    - pose proof (K_mono (b + 1) a ltac:(lia)). lra. }
  unfold inserted in Hmh.
  destruct (Nat.leb_spec mh l).
  - left. split; [|assumption]. apply U; try lia; [|exact Hm].
    destruct (Nat.leb_spec (mh + 1) l); [exact Hmh|].
    assert (mh = l) by lia. subst mh. rewrite Nat.eqb_refl in Hmh. lra.
  - right. split; [|lia]. replace mh with (mh - 1 + 1)%nat by lia. f_equal.
    apply U; try lia; [|exact Hm].
    destruct (Nat.leb_spec (mh + 1) l); [lia|]. destruct (Nat.eqb_spec (mh + 1) (l + 1)); [lia|].
    replace (mh - 1 + 1)%nat with (mh + 1 - 1)%nat by lia.
    destruct (Nat.eqb_spec mh (l + 1)); [|exact Hmh].
    replace (mh - 1)%nat with l by lia. lra.
Qed.

Lemma triangle_insert p (P : nat -> R) : (p <= m)%nat -> (m + p <= N)%nat ->
  forall q i, (q <= p)%nat -> (mh - (p - q) <= i <= mh)%nat ->
  triangle (inserted K l t) p (blend K l t p P) x q i
  = blend K l t (p - q) (triangle K p P x q) i.
Proof.
  intros Hp HN. pose proof spans as HS.
  induction q as [|q IH]; intros i Hq Hi.
  - rewrite Nat.sub_0_r. reflexivity.
  - cbn [triangle]. rewrite !IH by lia.
    remember (p - q)%nat as s eqn:Es. replace (p - S q)%nat with (s - 1)%nat by lia.
    assert (Hs : (1 <= s)%nat) by lia.
    assert (Hi' : (1 <= i)%nat) by lia.
    assert (Hpos : 0 < inserted K l t (i + s) - inserted K l t i).
    { pose proof (inserted_mono i mh ltac:(lia)). pose proof (inserted_mono (mh + 1) (i + s) ltac:(lia)). lra. }
    assert (Hlt : forall j, (l < j <= N)%nat -> t < K j).
    { intros j Hj. pose proof (K_mono (l + 1) j ltac:(lia)). lra. }
    assert (Hle : forall j, (j <= l)%nat -> K j <= t).
    { intros j Hj. pose proof (K_mono j l ltac:(lia)). lra. }
    assert (Hb : (i + s <= N + 1)%nat) by lia.
    unfold blend, ratio.
    unfold weight, inserted in Hpos |- *. clear IH Hmh.
    destruct (Nat.le_gt_cases (i + s) l) as [HA|HA].
    { (* all to the left *)
      repeat match goal with
        | |- context [(?a <=? ?b)%nat] => destruct (Nat.leb_spec a b); try lia
        end.
      ring. }
    destruct (Nat.le_gt_cases (l + 2) i) as [HB|HB].
    { (* all to the right *)
      repeat match goal with
        | |- context [(?a <=? ?b)%nat] => destruct (Nat.leb_spec a b); try lia
        | |- context [(?a <? ?b)%nat] => destruct (Nat.ltb_spec a b); try lia
        | |- context [(?a =? ?b)%nat] => destruct (Nat.eqb_spec a b); try lia
        end.
      replace (i - 1 + s)%nat with (i + s - 1)%nat by lia. ring. }
    destruct (Nat.eq_dec i (l + 1)) as [HC|HC].
    { (* the new knot starts the window *)
      subst i.
      repeat match goal with
        | H : context [(?a <=? ?b)%nat] |- _ => destruct (Nat.leb_spec a b); try lia
        | H : context [(?a =? ?b)%nat] |- _ => destruct (Nat.eqb_spec a b); try lia
        | |- context [(?a <=? ?b)%nat] => destruct (Nat.leb_spec a b); try lia
        | |- context [(?a <? ?b)%nat] => destruct (Nat.ltb_spec a b); try lia
        | |- context [(?a =? ?b)%nat] => destruct (Nat.eqb_spec a b); try lia
        end.
      replace (l + 1 + s - 1)%nat with (l + s)%nat in * by lia.
      replace (l + 1 - 1)%nat with l by lia.
      pose proof (Hlt (l + s)%nat ltac:(lia)). pose proof (Hle l ltac:(lia)).
      set (rr := (x - K (l + 1)%nat) / (K (l + 1 + s)%nat - K (l + 1)%nat)). clearbody rr.
      field; repeat split; lra. }
    destruct (Nat.eq_dec (i + s) (l + 1)) as [HD|HD].
    { (* the new knot ends the window *)
      repeat match goal with
        | H : context [(?a <=? ?b)%nat] |- _ => destruct (Nat.leb_spec a b); try lia
        | H : context [(?a =? ?b)%nat] |- _ => destruct (Nat.eqb_spec a b); try lia
        | |- context [(?a <=? ?b)%nat] => destruct (Nat.leb_spec a b); try lia
        | |- context [(?a <? ?b)%nat] => destruct (Nat.ltb_spec a b); try lia
        | |- context [(?a =? ?b)%nat] => destruct (Nat.eqb_spec a b); try lia
        end.
      pose proof (Hlt (i + s)%nat ltac:(lia)). pose proof (Hle i ltac:(lia)).
      set (rr := (x - K (i - 1)%nat) / (K (i - 1 + s)%nat - K (i - 1)%nat)). clearbody rr.
      field; repeat split; lra. }
    (* inside *)
    repeat match goal with
      | H : context [(?a <=? ?b)%nat] |- _ => destruct (Nat.leb_spec a b); try lia
      | H : context [(?a =? ?b)%nat] |- _ => destruct (Nat.eqb_spec a b); try lia
      | |- context [(?a <=? ?b)%nat] => destruct (Nat.leb_spec a b); try lia
      | |- context [(?a <? ?b)%nat] => destruct (Nat.ltb_spec a b); try lia
      | |- context [(?a =? ?b)%nat] => destruct (Nat.eqb_spec a b); try lia
      end.
    replace (i - 1 + s)%nat with (i + s - 1)%nat by lia.
    replace (i + (s - 1))%nat with (i + s - 1)%nat by lia.
    pose proof (Hlt (i + s - 1)%nat ltac:(lia)). pose proof (Hle i ltac:(lia)).
    pose proof (Hle (i - 1)%nat ltac:(lia)). pose proof (K_mono (i + s - 1) (i + s) ltac:(lia)).
    field; repeat split; lra.
Qed.

Lemma apex_insert p (P : nat -> R) : (p <= m)%nat -> (m + p <= N)%nat ->
  triangle (inserted K l t) p (blend K l t p P) x p mh = triangle K p P x p m.
Proof.
  intros Hp HN. rewrite triangle_insert by lia. rewrite Nat.sub_diag. unfold blend, weight.
  rewrite Nat.add_0_r.
  destruct spans as [[E H]|[E H]].
  - destruct (Nat.leb_spec mh l); [|lia]. rewrite E. ring.
  - destruct (Nat.leb_spec mh l); [lia|]. destruct (Nat.ltb_spec l mh); [|lia].
    replace (mh - 1)%nat with m by lia. ring.
Qed.

End Insert.

(** ** The code *)

Lemma py_get_ok {A} (l : list A) i d : (i < length l)%nat -> py_get l (Z.of_nat i) = Ok (nth i l d).
Proof.
  intro H. unfold py_get. destruct (Z.leb_spec 0 (Z.of_nat i)); [|lia].
  rewrite Nat2Z.id, (nth_error_nth' l d H). reflexivity.
Qed.
Lemma py_get_at {A} (l : list A) (z : Z) i d : z = Z.of_nat i -> (i < length l)%nat ->
  py_get l z = Ok (nth i l d).
Proof. intros -> H. apply py_get_ok, H. Qed.

Lemma traverse_seq {B} (f : nat -> result B) (g : nat -> B) k : forall a,
  (forall j, (a <= j < a + k)%nat -> f j = Ok (g j)) ->
  traverse f (seq a k) = Ok (map g (seq a k)).
Proof.
  induction k as [|k IH]; intros a H; cbn; [reflexivity|].
  rewrite H by lia. cbn. rewrite IH by (intros; apply H; lia). reflexivity.
Qed.

Lemma basis_function_ok s k : forall i t, (i + k + 1 < length (bs_knots s))%nat ->
  basis_function s k i t = Ok (basis (knot (bs_knots s)) k i t).
Proof.
  induction k as [|k IH]; intros i t H; cbn [basis_function basis].
  - rewrite (py_get_ok _ _ 0) by lia. cbn. fold (knot (bs_knots s) i).
    unfold Rleb. destruct (Rle_dec _ _); [|reflexivity].
    rewrite (py_get_ok _ _ 0) by lia. cbn. fold (knot (bs_knots s) (i + 1)).
    unfold Rltb. destruct (Rlt_dec _ _); reflexivity.
  - rewrite !(py_get_ok _ _ 0) by lia. cbn [bind]. rewrite !IH by lia.
    fold (knot (bs_knots s) i) (knot (bs_knots s) (i + S k)) (knot (bs_knots s) (i + 1))
         (knot (bs_knots s) (i + S k + 1)).
    unfold Reqb, quot.
    destruct (Req_EM_T (knot (bs_knots s) (i + S k)) (knot (bs_knots s) i)) as [E1|E1];
    destruct (Req_EM_T (knot (bs_knots s) (i + S k + 1)) (knot (bs_knots s) (i + 1))) as [E2|E2];
    destruct (Req_EM_T (knot (bs_knots s) (i + S k) - knot (bs_knots s) i) 0) as [E3|E3]; try lra;
    destruct (Req_EM_T (knot (bs_knots s) (i + S k + 1) - knot (bs_knots s) (i + 1)) 0) as [E4|E4];
      try lra; cbn [bind]; f_equal; ring.
Qed.

(** Knot lists *)
Lemma non_decreasing_sorted l : non_decreasing l = true <-> sorted l.
Proof.
  induction l as [|a [|b l] IH].
  - split; [|reflexivity]. intros _ i j H. cbn in H. lia.
  - split; [|reflexivity]. intros _ i j H. cbn in H. assert (i = 0 /\ j = 0)%nat as [-> ->] by lia. lra.
  - change (non_decreasing (a :: b :: l)) with (andb (Rleb 0 (b - a)) (non_decreasing (b :: l))).
    rewrite Bool.andb_true_iff. split.
    + intros [H1 H2]. destruct (Rleb_spec 0 (b - a)) as [H1'|H1']; [|discriminate].
      apply IH in H2. intros i j H. destruct i as [|i], j as [|j].
      * lra.
      * pose proof (H2 0%nat j ltac:(cbn in *; lia)) as H3. unfold knot in *. cbn in *. lra.
      * lia.
      * apply (H2 i j). cbn in *. lia.
    + intro H. split.
      * apply Rleb_true. pose proof (H 0%nat 1%nat ltac:(cbn; lia)) as H1. unfold knot in H1. cbn in H1. lra.
      * apply IH. intros i j Hij. apply (H (S i) (S j)). cbn in *. lia.
Qed.

Lemma nth_repeat_lt {A} (a d : A) n i : (i < n)%nat -> nth i (repeat a n) d = a.
Proof. revert i. induction n as [|n IH]; intros [|i] H; cbn; try lia; [reflexivity|]. apply IH; lia. Qed.

Lemma uniform_knots_ok p n : (p + 1 <= n)%nat -> exists ks, uniform_knots p n = Ok ks /\
  length ks = (n + p + 1)%nat /\
  forall i, (i < n + p + 1)%nat -> knot ks i = INR (Nat.min (i - p) (n - p)).
Proof.
  intro H. unfold uniform_knots. destruct (Nat.ltb_spec n (p + 1)); [lia|].
  eexists. split; [reflexivity|]. split.
  - rewrite !app_length, map_length, seq_length, !repeat_length. lia.
  - intros i Hi. unfold knot.
    destruct (Nat.lt_ge_cases i p) as [H1|H1].
    { rewrite app_nth1 by (rewrite repeat_length; lia). rewrite nth_repeat_lt by lia.
      replace (Nat.min (i - p) (n - p)) with 0%nat by lia. reflexivity. }
    rewrite app_nth2 by (rewrite repeat_length; lia). rewrite repeat_length.
    destruct (Nat.lt_ge_cases (i - p) (n - p + 1)) as [H2|H2].
    { rewrite app_nth1 by (rewrite map_length, seq_length; lia).
      rewrite (nth_indep _ 0 (INR 0)) by (rewrite map_length, seq_length; lia).
      rewrite (map_nth INR), seq_nth by lia. f_equal. lia. }
    rewrite app_nth2 by (rewrite map_length, seq_length; lia).
    rewrite map_length, seq_length, nth_repeat_lt by lia. f_equal. lia.
Qed.

(** What holds of every spline object whose number of knots is right. *)
Record good (s : bspline) : Prop := {
  g_len : length (bs_knots s) = (length (bs_points s) + bs_degree s + 1)%nat;
  g_sorted : sorted (bs_knots s);
  g_uniform : bs_uniform s = true ->
    (bs_degree s + 1 <= length (bs_points s))%nat /\
    forall i, (i < length (bs_knots s))%nat ->
      knot (bs_knots s) i = INR (Nat.min (i - bs_degree s) (length (bs_points s) - bs_degree s)) }.

Lemma new_bspline_good pts p c k s : new_bspline pts p c k = Ok s ->
  length (bs_knots s) = (length pts + p + 1)%nat -> good s.
Proof.
  unfold new_bspline. destruct k as [k|].
  - destruct (non_decreasing k) eqn:E; [|discriminate]. intros [= <-] H. cbn in *.
    constructor; cbn; [exact H|apply non_decreasing_sorted, E|discriminate].
  - destruct (Nat.ltb_spec (length pts) (p + 1)) as [H|H].
    + unfold uniform_knots. destruct (Nat.ltb_spec (length pts) (p + 1)); [discriminate|lia].
    + destruct (uniform_knots_ok p (length pts) H) as (ks & E & L & F). rewrite E.
      intros [= <-] H0. cbn in *. constructor; cbn; [exact L| |].
      * intros i j Hij. rewrite !F by lia. apply le_INR. lia.
      * intros _. split; [exact H|]. intros i Hi. apply F. lia.
Qed.
Lemma new_bspline_fields pts p c k s : new_bspline pts p c k = Ok s ->
  bs_points s = pts /\ bs_degree s = p /\ bs_closed s = c /\
  bs_uniform s = match k with None => true | _ => false end.
Proof.
  unfold new_bspline. destruct k as [k|].
  - destruct (non_decreasing k); [|discriminate]. intros [= <-]. auto.
  - destruct (uniform_knots p (length pts)); [|discriminate]. intros [= <-]. auto.
Qed.
Lemma new_uniform_len pts p c s : new_bspline pts p c None = Ok s ->
  length (bs_knots s) = (length pts + p + 1)%nat.
Proof.
  unfold new_bspline. destruct (Nat.ltb_spec (length pts) (p + 1)) as [H|H].
  - unfold uniform_knots. destruct (Nat.ltb_spec (length pts) (p + 1)); [discriminate|lia].
  - destruct (uniform_knots_ok p (length pts) H) as (ks & E & L & F). rewrite E.
    intros [= <-]. exact L.
Qed.

Section Good.
Variable s : bspline.
Hypothesis G : good s.
Let K := knot (bs_knots s).
Let p := bs_degree s.
Let n := length (bs_points s).

Lemma good_mono : forall i j, (i <= j <= n + p)%nat -> K i <= K j.
Proof. intros i j H. apply (g_sorted s G). rewrite (g_len s G). fold n p. lia. Qed.

Lemma domain_lt t : K p <= t < K n -> (p < n)%nat.
Proof.
  intro H. destruct (Nat.lt_ge_cases p n) as [|Hp]; [assumption|].
  pose proof (good_mono n p ltac:(lia)). lra.
Qed.

Lemma span_loop_ok t : forall ks i j, (j < length ks)%nat -> t < nth j ks 0 ->
  exists k, (k < length ks)%nat /\ span_loop i ks t = Some (i + Z.of_nat k - 1)%Z /\
    t < nth k ks 0 /\ forall k', (k' < k)%nat -> nth k' ks 0 <= t.
Proof.
  induction ks as [|a ks IH]; intros i j Hj Ht; cbn in Hj; [lia|]. cbn [span_loop].
  destruct (Rltb_spec t a) as [Ha|Ha].
  - exists 0%nat. cbn. repeat split; [lia|f_equal; lia|exact Ha|lia].
  - destruct j as [|j]; [cbn in Ht; lra|].
    destruct (IH (i + 1)%Z j ltac:(lia) Ht) as (k & H1 & H2 & H3 & H4).
    exists (S k). repeat split; [cbn; lia|rewrite H2; f_equal; lia|exact H3|].
    intros [|k'] Hk; cbn; [lra|]. apply H4. lia.
Qed.

Lemma span_ok t : K p <= t < K n -> exists l, span s t = Ok (Some (Z.of_nat l)) /\
  (p <= l < n)%nat /\ K l <= t < K (l + 1)%nat.
Proof.
  intro Ht. pose proof (domain_lt t Ht) as Hpn. pose proof (g_len s G) as Hlen. fold n p in Hlen.
  unfold span, start_knot, end_knot. destruct (bs_uniform s) eqn:U; cbn [bind].
  - destruct (g_uniform s G U) as [_ F]. fold p n in F.
    assert (E0 : K p = 0) by (unfold K; rewrite F by lia; replace (Nat.min _ _) with 0%nat by lia; reflexivity).
    assert (En : K n = INR (n - p)) by (unfold K; rewrite F by lia; f_equal; lia).
    destruct (Rleb_spec 0 t); [|lra]. cbn [negb].
    fold n p. replace (Z.of_nat n - Z.of_nat p)%Z with (Z.of_nat (n - p)) by lia. rewrite <- INR_IZR_INZ.
    destruct (Rleb_spec t (INR (n - p))); [|lra]. cbn [negb].
    destruct (base_Int_part t) as [B1 B2].
    assert (0 <= Int_part t)%Z.
    { apply Z.lt_succ_r, lt_IZR. rewrite succ_IZR. lra. }
    exists (Z.to_nat (Int_part t) + p)%nat.
    assert (Hk : (Z.to_nat (Int_part t) < n - p)%nat).
    { apply INR_lt. rewrite INR_IZR_INZ, Z2Nat.id by lia. lra. }
    split; [f_equal; f_equal; lia|]. split; [lia|].
    unfold K. rewrite !F by lia.
    replace (Nat.min _ _) with (Z.to_nat (Int_part t)) by lia.
    replace (Nat.min _ _) with (S (Z.to_nat (Int_part t))) by lia.
    rewrite S_INR, INR_IZR_INZ, Z2Nat.id by lia. lra.
  - assert (Hk0 : K 0%nat <= t) by (pose proof (good_mono 0 p ltac:(lia)); lra).
    rewrite (py_get_at _ _ 0%nat 0) by lia. cbn [bind].
    fold (knot (bs_knots s) 0). fold K. destruct (Rleb_spec (K 0%nat) t); [|lra]. cbn [negb].
    unfold py_get at 1. rewrite Hlen. destruct (Z.leb_spec 0 (-1)); [lia|].
    destruct (Z.leb_spec 0 (Z.of_nat (n + p + 1) + -1)); [|lia].
    replace (Z.to_nat (Z.of_nat (n + p + 1) + -1)) with (n + p)%nat by lia.
    rewrite (nth_error_nth' _ 0) by lia. cbn [bind].
    fold (knot (bs_knots s) (n + p)). fold K.
    pose proof (good_mono n (n + p) ltac:(lia)).
    destruct (Rleb_spec t (K (n + p)%nat)); [|lra]. cbn [negb].
    destruct (span_loop_ok t (bs_knots s) 0 n ltac:(lia) ltac:(apply Ht)) as (k & Hk1 & Hk2 & H3 & H4).
    rewrite Hk2. change (t < K k) in H3.
    assert (Hkp : (p < k)%nat).
    { destruct (Nat.lt_ge_cases p k) as [|Hc]; [assumption|].
      pose proof (good_mono k p ltac:(lia)). lra. }
    assert (Hkn : (k <= n)%nat).
    { destruct (Nat.le_gt_cases k n) as [|Hc]; [assumption|].
      pose proof (H4 n Hc) as H5. change (K n <= t) in H5. lra. }
    exists (k - 1)%nat. split; [f_equal; f_equal; lia|]. split; [lia|].
    split; [apply (H4 (k - 1)%nat); lia|]. replace (k - 1 + 1)%nat with k by lia. exact H3.
Qed.

(** The control points as functions, and the triangle of vectors. *)
Definition PX (P : list vec) (i : nat) : R := vx (nth i P (V 0 0)).
Definition PY (P : list vec) (i : nat) : R := vy (nth i P (V 0 0)).
Definition vtriangle (K : nat -> R) (p : nat) (P : list vec) (x : R) (q i : nat) : vec :=
  V (triangle K p (PX P) x q i) (triangle K p (PY P) x q i).

Lemma vtriangle_step K' q i P x : vtriangle K' p P x (S q) i =
  vadd (vscale (vtriangle K' p P x q (i - 1)) (1 - ratio K' (p - q) x i))
       (vscale (vtriangle K' p P x q i) (ratio K' (p - q) x i)).
Proof. apply vec_eq; cbn; ring. Qed.

Lemma update_nth_same {A} j (a d : A) l : (j < length l)%nat -> nth j (update j a l) d = a.
Proof. revert j. induction l as [|b l IH]; intros [|j] H; cbn in *; try lia; [reflexivity|]. apply IH; lia. Qed.
Lemma update_nth_other {A} j k (a d : A) l : j <> k -> nth k (update j a l) d = nth k l d.
Proof.
  revert j k. induction l as [|b l IH]; intros [|j] [|k] H; cbn; try lia; try reflexivity.
  apply IH. lia.
Qed.
Lemma update_len {A} j (a : A) l : length (update j a l) = length l.
Proof. revert j. induction l as [|b l IH]; intros [|j]; cbn; try reflexivity. rewrite IH. reflexivity. Qed.

Variable t : R.
Variable l : nat.
Hypothesis Hl : (p <= l < n)%nat.
Hypothesis Ht : K l <= t < K (l + 1)%nat.
Let T := vtriangle K p (bs_points s) t.

Lemma deboor_body_ok r j L : (1 <= r <= j)%nat -> (j <= p)%nat -> length L = (p + 1)%nat ->
  nth j L (V 0 0) = T (r - 1) (l - p + j) -> nth (j - 1) L (V 0 0) = T (r - 1) (l - p + j - 1) ->
  deboor_body (bs_knots s) (Z.of_nat l) p t r j L = Ok (update j (T r (l - p + j)) L).
Proof.
  intros Hr Hj HL E1 E2. unfold deboor_body. pose proof (g_len s G) as Hlen. fold n p in Hlen.
  set (i := (l - p + j)%nat) in *.
  rewrite (py_get_at (bs_knots s) _ (i + (p - (r - 1)))%nat 0) by (unfold i; lia).
  rewrite (py_get_at (bs_knots s) _ i 0) by (unfold i; lia). cbn [bind].
  fold (knot (bs_knots s) i) (knot (bs_knots s) (i + (p - (r - 1)))). fold K.
  pose proof (window_pos K (n + p) good_mono t l Ht i (p - (r - 1)) ltac:(unfold i; lia) ltac:(unfold i; lia)) as Hp.
  destruct (Reqb_spec (K (i + (p - (r - 1)))%nat - K i) 0); [lra|].
  fold (ratio K (p - (r - 1)) t i).
  assert (ET : T r i = vadd (vscale (T (r - 1) (i - 1)%nat) (1 - ratio K (p - (r - 1)) t i))
                            (vscale (T (r - 1)%nat i) (ratio K (p - (r - 1)) t i))).
  { unfold T. replace r with (S (r - 1)) at 1 by lia. apply vtriangle_step. }
  rewrite !(py_get_at L _ (j - 1)%nat (V 0 0)) by lia.
  rewrite !(py_get_at L _ j (V 0 0)) by lia. rewrite E1, E2.
  set (al := ratio K (p - (r - 1)) t i) in *. clearbody al.
  destruct (Reqb_spec al 0) as [->|]; cbn [bind].
  - f_equal. f_equal. rewrite ET. apply vec_eq; cbn; ring.
  - destruct (Reqb_spec al 1) as [->|]; cbn [bind]; f_equal; f_equal; rewrite ET; apply vec_eq; cbn; ring.
Qed.

Lemma deboor_inner r : (1 <= r <= p)%nat -> forall k L, (k <= p + 1 - r)%nat -> length L = (p + 1)%nat ->
  (forall j, (r + k <= j <= p)%nat -> nth j L (V 0 0) = T r (l - p + j)) ->
  (forall j, (r - 1 <= j < r + k)%nat -> nth j L (V 0 0) = T (r - 1) (l - p + j)) ->
  exists L', for_loop (fun j points => deboor_body (bs_knots s) (Z.of_nat l) p t r j points)
               (rev (seq r k)) L = Ok L' /\ length L' = (p + 1)%nat /\
    forall j, (r <= j <= p)%nat -> nth j L' (V 0 0) = T r (l - p + j).
Proof.
  intro Hr. induction k as [|k IH]; intros L Hk HL H1 H2.
  - exists L. split; [reflexivity|]. split; [exact HL|]. intros j Hj. apply H1. lia.
  - rewrite seq_S, rev_app_distr. cbn [rev app for_loop].
    rewrite deboor_body_ok; [|lia|lia|exact HL|apply H2; lia|].
    2: { rewrite H2 by lia. f_equal. lia. }
    cbn [bind]. apply IH.
    + lia.
    + rewrite update_len. exact HL.
    + intros j Hj. destruct (Nat.eq_dec j (r + k)) as [->|Hne].
      * rewrite update_nth_same by lia. reflexivity.
      * rewrite update_nth_other by lia. apply H1. lia.
    + intros j Hj. rewrite update_nth_other by lia. apply H2. lia.
Qed.

Lemma deboor_outer : forall k r L, (1 <= r)%nat -> (r + k = p + 1)%nat -> length L = (p + 1)%nat ->
  (forall j, (r - 1 <= j <= p)%nat -> nth j L (V 0 0) = T (r - 1) (l - p + j)) ->
  exists L', for_loop (fun r points =>
                for_loop (fun j points => deboor_body (bs_knots s) (Z.of_nat l) p t r j points)
                           (rev (seq r (p + 1 - r))) points) (seq r k) L = Ok L' /\
    length L' = (p + 1)%nat /\ nth p L' (V 0 0) = T p l.
Proof.
  induction k as [|k IH]; intros r L Hr Hrk HL H.
  - exists L. split; [reflexivity|]. split; [exact HL|]. rewrite H by lia. f_equal; lia.
  - cbn [seq for_loop].
    destruct (deboor_inner r ltac:(lia) (p + 1 - r)%nat L ltac:(lia) HL) as (L' & E & HL' & F).
    { intros j Hj. lia. }
    { intros j Hj. apply H. lia. }
    rewrite E. cbn [bind]. apply IH; try lia. intros j Hj. replace (S r - 1)%nat with r by lia.
    apply F. lia.
Qed.

Lemma deboor_at : span s t = Ok (Some (Z.of_nat l)) -> deboor s t = Ok (T p l).
Proof.
  intro E. unfold deboor. rewrite E. cbn [bind]. unfold order. fold p.
  rewrite (traverse_seq _ (fun j => nth (l - p + j) (bs_points s) (V 0 0))).
  2: { intros j Hj. apply py_get_at; [lia|]. fold n. lia. }
  cbn [bind].
  assert (HL : length (map (fun j => nth (l - p + j) (bs_points s) (V 0 0)) (seq 0 (p + 1))) = (p + 1)%nat)
    by (rewrite map_length, seq_length; reflexivity).
  destruct (deboor_outer p 1%nat _ ltac:(lia) ltac:(lia) HL) as (L' & EL & HL' & F).
  { intros j Hj. cbn [Nat.sub].
    set (f := fun j => nth (l - p + j) (bs_points s) (V 0 0)).
    rewrite (nth_indep _ (V 0 0) (f 0%nat)) by (rewrite map_length, seq_length; lia).
    rewrite (map_nth f), seq_nth by lia. unfold f, T, vtriangle, PX, PY. cbn.
    destruct (nth (l - p + j) (bs_points s) (V 0 0)); reflexivity. }
  rewrite EL. cbn [bind]. rewrite (py_get_at L' _ p (V 0 0)) by lia. rewrite F. reflexivity.
Qed.

Lemma T_spline_point : T p l = spline_point K p (bs_points s) t.
Proof.
  unfold T, vtriangle, spline_point. fold n.
  rewrite <- (sum_triangle K (n + p) good_mono t l Ht p n (PX (bs_points s))) by lia.
  rewrite <- (sum_triangle K (n + p) good_mono t l Ht p n (PY (bs_points s))) by lia. reflexivity.
Qed.

End Good.

Lemma deboor_ok s t : good s ->
  knot (bs_knots s) (bs_degree s) <= t < knot (bs_knots s) (length (bs_points s)) ->
  deboor s t = Ok (spline_point (knot (bs_knots s)) (bs_degree s) (bs_points s) t).
Proof.
  intros G Ht. destruct (span_ok s G t Ht) as (l & E & H1 & H2).
  rewrite (deboor_at s G t l H1 H2 E). f_equal. apply T_spline_point; assumption.
Qed.

(** At the first knot of a clamped spline. *)
Lemma triangle_clamped K p P : (forall i, (i <= p)%nat -> K i = 0) ->
  forall q i, (q <= i <= p)%nat -> triangle K p P 0 q i = P (i - q)%nat.
Proof.
  intro H. induction q as [|q IH]; intros i Hi; cbn [triangle].
  - f_equal. lia.
  - unfold ratio. rewrite (H i) by lia. replace (0 - 0) with 0 by ring.
    unfold Rdiv. rewrite Rmult_0_l, IH by lia. replace (i - 1 - q)%nat with (i - S q)%nat by lia. ring.
Qed.

Lemma point_at_t_ok s t : good s ->
  knot (bs_knots s) (bs_degree s) <= t < knot (bs_knots s) (length (bs_points s)) ->
  point_at_t s t false = Ok (spline_point (knot (bs_knots s)) (bs_degree s) (bs_points s) t).
Proof.
  intros G Ht. pose proof (domain_lt s G t Ht) as Hpn. unfold point_at_t.
  destruct (bs_uniform s) eqn:U; [|apply deboor_ok; assumption].
  destruct (g_uniform s G U) as [_ F]. pose proof (g_len s G) as Hlen.
  set (p := bs_degree s) in *. set (n := length (bs_points s)) in *.
  destruct (Reqb_spec t 0) as [->|H0].
  - rewrite (py_get_at _ _ 0%nat (V 0 0)) by (fold n; lia).
    assert (Hl : (p <= p < n)%nat) by lia.
    assert (Hk : knot (bs_knots s) p <= 0 < knot (bs_knots s) (p + 1)).
    { rewrite !F by lia. replace (Nat.min (p - p) _) with 0%nat by lia.
      replace (Nat.min _ _) with 1%nat by lia. cbn. lra. }
    pose proof (T_spline_point s G 0 p Hl Hk) as E. fold p in E. rewrite <- E.
    unfold vtriangle. rewrite !triangle_clamped by
      (try lia; intros; rewrite F by lia; replace (Nat.min _ _) with 0%nat by lia; reflexivity).
    rewrite Nat.sub_diag. unfold PX, PY. destruct (nth 0 (bs_points s) (V 0 0)); reflexivity.
  - unfold end_knot. rewrite U. cbn [bind]. fold n p.
    destruct (Reqb_spec t (IZR (Z.of_nat n - Z.of_nat p))) as [E|E].
    + exfalso. assert (En : knot (bs_knots s) n = INR (n - p)) by (rewrite F by lia; f_equal; lia).
      rewrite En, INR_IZR_INZ, Nat2Z.inj_sub in Ht by lia. lra.
    + apply deboor_ok; assumption.
Qed.

Lemma point_at_end s : good s -> bs_uniform s = true -> exists e, end_knot s = Ok e /\
  e = knot (bs_knots s) (length (bs_points s)) /\
  point_at_t s e false = Ok (last (bs_points s) (V 0 0)).
Proof.
  intros G U. destruct (g_uniform s G U) as [Hpn F]. pose proof (g_len s G) as Hlen.
  unfold point_at_t, end_knot. rewrite U. eexists. split; [reflexivity|].
  split.
  - rewrite F by lia. rewrite INR_IZR_INZ. f_equal. lia.
  - cbn [bind]. destruct (Reqb_spec (IZR (Z.of_nat (length (bs_points s)) - Z.of_nat (bs_degree s))) 0) as [E|E].
    + apply eq_IZR in E. lia.
    + rewrite Reqb_refl. unfold py_get. destruct (Z.leb_spec 0 (-1)); [lia|].
      destruct (Z.leb_spec 0 (Z.of_nat (length (bs_points s)) + -1)); [|lia].
      replace (Z.to_nat (Z.of_nat (length (bs_points s)) + -1)) with (length (bs_points s) - 1)%nat by lia.
      rewrite (nth_error_nth' _ (V 0 0)) by lia. f_equal.
      destruct (bs_points s) as [|a P] using rev_ind; [cbn in Hpn; lia|].
      rewrite app_length, last_last. cbn. rewrite app_nth2 by lia.
      replace (length P + 1 - 1 - length P)%nat with 0%nat by lia. reflexivity.
Qed.

(** *** insert_knot *)

Lemma knot_insert ks l t i : (l < length ks)%nat ->
  knot (firstn (l + 1) ks ++ [t] ++ skipn (l + 1) ks) i = inserted (knot ks) l t i.
Proof.
  intro H. unfold knot, inserted.
  assert (HL : length (firstn (l + 1) ks) = (l + 1)%nat) by (rewrite firstn_length; lia).
  assert (E : forall j, nth j ks 0 = nth j (firstn (l + 1) ks ++ skipn (l + 1) ks) 0)
    by (intro; rewrite firstn_skipn; reflexivity).
  destruct (Nat.leb_spec i l).
  - rewrite E, !app_nth1 by lia. reflexivity.
  - rewrite app_nth2 by lia. rewrite HL. destruct (Nat.eqb_spec i (l + 1)) as [->|Hne].
    + rewrite Nat.sub_diag. reflexivity.
    + replace (i - (l + 1))%nat with (S (i - 1 - (l + 1))) by lia. cbn [app nth].
      rewrite (E (i - 1)%nat), app_nth2 by lia. rewrite HL. reflexivity.
Qed.

Definition vblend (K : nat -> R) l t p (P : list vec) (i : nat) : vec :=
  V (blend K l t p (PX P) i) (blend K l t p (PY P) i).

Lemma insert_knot_ok s t l : good s -> span s t = Ok (Some (Z.of_nat l)) ->
  (bs_degree s <= l < length (bs_points s))%nat ->
  knot (bs_knots s) l <= t < knot (bs_knots s) (l + 1) ->
  let p := bs_degree s in let n := length (bs_points s) in let K := knot (bs_knots s) in
  exists s', insert_knot s t = Ok s' /\ good s' /\ bs_degree s' = p /\
    bs_uniform s' = false /\ bs_closed s' = false /\
    bs_knots s' = firstn (l + 1) (bs_knots s) ++ [t] ++ skipn (l + 1) (bs_knots s) /\
    bs_points s' = map (vblend K l t p (bs_points s)) (seq 0 (n + 1)).
Proof.
  intros G E Hl Ht p n K. pose proof (g_len s G) as Hlen. fold n p in Hlen. fold n p in Hl. fold K in Ht.
  pose proof (good_mono s G) as Mono. fold K n p in Mono.
  unfold insert_knot. rewrite E. cbn [bind]. fold n p.
  rewrite (traverse_seq _ (vblend K l t p (bs_points s))).
  2: { intros i Hi.
    assert (W : insert_weight (bs_knots s) p (Z.of_nat l) t i = Ok (weight K l t p i)).
    { unfold insert_weight, weight.
      destruct (Z.leb_spec (Z.of_nat i) (Z.of_nat l - Z.of_nat p)), (Nat.leb_spec (i + p) l); try lia;
        [reflexivity|].
      destruct (Z.ltb_spec (Z.of_nat l) (Z.of_nat i)), (Nat.ltb_spec l i); try lia; [reflexivity|].
      rewrite !(py_get_ok _ _ 0) by lia. cbn [bind].
      fold (knot (bs_knots s) i) (knot (bs_knots s) (i + p)). fold K.
      pose proof (Mono i l ltac:(lia)). pose proof (Mono (l + 1)%nat (i + p)%nat ltac:(lia)).
      destruct (Rltb_spec 0 (K (i + p)%nat - K i)); [reflexivity|lra]. }
    rewrite W. cbn [bind]. unfold insert_point, vblend, blend.
    assert (Wi : (i = 0%nat -> weight K l t p i = 1) /\ (i = n -> weight K l t p i = 0)).
    { unfold weight. split; intros ->.
      - destruct (Nat.leb_spec (0 + p) l); [reflexivity|lia].
      - destruct (Nat.leb_spec (n + p) l); [lia|]. destruct (Nat.ltb_spec l n); [reflexivity|lia]. }
    assert (C : forall w, w = weight K l t p i ->
      (if Reqb w 0 then py_get (bs_points s) (Z.of_nat i - 1)
       else if Reqb w 1 then py_get (bs_points s) (Z.of_nat i)
       else bind (py_get (bs_points s) (Z.of_nat i - 1)) (fun p0 =>
            bind (py_get (bs_points s) (Z.of_nat i)) (fun q =>
            Ok (vadd (vscale p0 (1 - w)) (vscale q w)))))
      = Ok (V ((1 - w) * PX (bs_points s) (i - 1) + w * PX (bs_points s) i)
              ((1 - w) * PY (bs_points s) (i - 1) + w * PY (bs_points s) i))).
    { intros w Ew. rewrite <- Ew in Wi. clear Ew W. unfold PX, PY.
      destruct (Reqb_spec w 0) as [->|H0].
      - rewrite (py_get_at _ _ (i - 1)%nat (V 0 0)).
        + f_equal. apply vec_eq; cbn; ring.
        + destruct i; [exfalso; apply proj1 in Wi; specialize (Wi eq_refl); lra|lia].
        + fold n. destruct i; [exfalso; apply proj1 in Wi; specialize (Wi eq_refl); lra|lia].
      - assert (Hin : (i < n)%nat).
        { destruct (Nat.eq_dec i n) as [He|]; [|lia]. apply (proj2 Wi) in He. lra. }
        destruct (Reqb_spec w 1) as [->|H1].
        + rewrite (py_get_at _ _ i (V 0 0)) by (fold n; lia). f_equal. apply vec_eq; cbn; ring.
        + assert (i <> 0%nat) by (intro He; apply (proj1 Wi) in He; lra).
          rewrite (py_get_at _ _ (i - 1)%nat (V 0 0)) by (fold n; lia).
          rewrite (py_get_at _ _ i (V 0 0)) by (fold n; lia). cbn [bind]. reflexivity. }
    apply C. reflexivity. }
  cbn [bind]. replace (Z.to_nat (Z.of_nat l + 1)) with (l + 1)%nat by lia.
  set (ks := firstn (l + 1) (bs_knots s) ++ [t] ++ skipn (l + 1) (bs_knots s)).
  assert (Hks : length ks = (n + p + 2)%nat).
  { unfold ks. rewrite !app_length, firstn_length, skipn_length. cbn. lia. }
  assert (Hs : sorted ks).
  { intros i j Hij. unfold ks. rewrite !knot_insert by lia. fold K.
    apply (inserted_mono K (n + p) Mono l t Ht); lia. }
  unfold new_bspline. rewrite (proj2 (non_decreasing_sorted ks) Hs). cbn [negb].
  eexists. split; [reflexivity|]. cbn. repeat split; try discriminate; auto; cbn.
  rewrite map_length, seq_length. lia.
Qed.

Lemma insert_keeps_curve s t : good s ->
  let p := bs_degree s in let n := length (bs_points s) in let K := knot (bs_knots s) in
  K p <= t < K n ->
  exists s', insert_knot s t = Ok s' /\ good s' /\ bs_degree s' = p /\ bs_uniform s' = false /\
    length (bs_points s') = (n + 1)%nat /\
    knot (bs_knots s') p = K p /\ knot (bs_knots s') (n + 1) = K n /\
    (exists l, bs_knots s' = firstn (l + 1) (bs_knots s) ++ [t] ++ skipn (l + 1) (bs_knots s)
               /\ (p <= l < n)%nat /\ K l <= t < K (l + 1)%nat) /\
    forall x, K p <= x < K n ->
      spline_point (knot (bs_knots s')) p (bs_points s') x = spline_point K p (bs_points s) x.
Proof.
  intros G p n K Ht. destruct (span_ok s G t Ht) as (l & E & Hl & Hlt). fold K p n in Hl, Hlt.
  destruct (insert_knot_ok s t l G E Hl Hlt) as (s' & E' & G' & Hd & Hu & Hc & Hk & Hp').
  fold K p n in Hk, Hp', Hd.
  pose proof (g_len s G) as Hlen. fold n p in Hlen.
  assert (Hn' : length (bs_points s') = (n + 1)%nat) by (rewrite Hp', map_length, seq_length; reflexivity).
  assert (EK : forall i, knot (bs_knots s') i = inserted K l t i).
  { intro i. rewrite Hk, knot_insert by lia. reflexivity. }
  assert (Ep : knot (bs_knots s') p = K p).
  { rewrite EK. unfold inserted. destruct (Nat.leb_spec p l); [reflexivity|lia]. }
  assert (En : knot (bs_knots s') (n + 1) = K n).
  { rewrite EK. unfold inserted. destruct (Nat.leb_spec (n + 1) l); [lia|].
    destruct (Nat.eqb_spec (n + 1) (l + 1)); [lia|]. f_equal. lia. }
  exists s'. split; [exact E'|]. split; [exact G'|]. split; [exact Hd|]. split; [exact Hu|].
  split; [exact Hn'|]. split; [exact Ep|]. split; [exact En|]. split.
  - exists l. auto.
  - intros x Hx.
    destruct (span_ok s G x Hx) as (m & _ & Hm & Hmx). fold K p n in Hm, Hmx.
    assert (Hx' : knot (bs_knots s') (bs_degree s') <= x < knot (bs_knots s') (length (bs_points s')))
      by (rewrite Hd, Hn', Ep, En; exact Hx).
    destruct (span_ok s' G' x Hx') as (mh & _ & Hmh & Hmhx).
    pose proof (T_spline_point s G x m Hm Hmx) as T1.
    pose proof (T_spline_point s' G' x mh Hmh Hmhx) as T2.
    rewrite Hd in *. fold K p in T1. rewrite <- T1, <- T2. rewrite !EK in Hmhx. clear T1 T2.
    unfold vtriangle.
    assert (EX : forall P Q, (forall i, (i <= n)%nat -> Q i = blend K l t p P i) ->
      triangle (knot (bs_knots s')) p Q x p mh = triangle K p P x p m).
    { intros P Q HQ.
      rewrite <- (apex_insert K (n + p) (good_mono s G) l t Hlt ltac:(lia) x m mh Hmx Hmhx ltac:(lia) ltac:(lia) p P)
        by lia.
      assert (Ex : forall q i, (i <= n)%nat ->
        triangle (knot (bs_knots s')) p Q x q i = triangle (inserted K l t) p (blend K l t p P) x q i).
      { induction q as [|q IH]; intros i Hi; cbn [triangle]; [apply HQ, Hi|].
        rewrite !IH by lia. unfold ratio. rewrite !EK. reflexivity. }
      apply Ex. rewrite Hn' in Hmh. lia. }
    f_equal; apply EX; intros i Hi; unfold PX, PY; rewrite Hp';
      rewrite (nth_indep _ (V 0 0) (vblend K l t p (bs_points s) 0)) by (rewrite map_length, seq_length; lia);
      rewrite (map_nth (vblend K l t p (bs_points s))), seq_nth by lia; reflexivity.
Qed.

(** After an insertion the end point of the curve cannot be evaluated any more. *)
Lemma nonuniform_end s : good s -> bs_uniform s = false ->
  exists e, end_knot s = Ok e /\ point_at_t s e false = Raise TypeError.
Proof.
  intros G U. pose proof (g_len s G) as Hlen. unfold point_at_t, deboor, span, end_knot, start_knot.
  rewrite U.
  assert (E : py_get (bs_knots s) (-1) = Ok (knot (bs_knots s) (length (bs_knots s) - 1))).
  { unfold py_get. destruct (Z.leb_spec 0 (-1)); [lia|].
    destruct (Z.leb_spec 0 (Z.of_nat (length (bs_knots s)) + -1)); [|lia].
    replace (Z.to_nat (Z.of_nat (length (bs_knots s)) + -1)) with (length (bs_knots s) - 1)%nat by lia.
    rewrite (nth_error_nth' _ 0) by lia. reflexivity. }
  rewrite E. eexists. split; [reflexivity|]. cbn [bind].
  rewrite (py_get_at _ _ 0%nat 0) by lia. cbn [bind].
  fold (knot (bs_knots s) 0). set (e := knot (bs_knots s) (length (bs_knots s) - 1)).
  destruct (Rleb_spec (knot (bs_knots s) 0) e) as [|H].
  2: { pose proof (g_sorted s G 0%nat (length (bs_knots s) - 1)%nat ltac:(lia)). fold e in H0. lra. }
  cbn [negb]. destruct (Rleb_spec e e) as [|H]; [|lra]. cbn [negb bind].
  assert (N : forall ks i, (forall j, (j < length ks)%nat -> nth j ks 0 <= e) -> span_loop i ks e = None).
  { induction ks as [|a ks IH]; intros i H; cbn; [reflexivity|].
    destruct (Rltb_spec e a) as [Ha|Ha].
    - specialize (H 0%nat ltac:(cbn; lia)). cbn in H. lra.
    - apply IH. intros j Hj. apply (H (S j)). cbn. lia. }
  rewrite N; [reflexivity|].
  intros j Hj. apply (g_sorted s G). lia.
Qed.

(** *** to_bezier_form *)

Lemma level_map (f : nat -> R) u k : forall a,
  level u (map f (seq a (S k))) = map (fun j => f j + u * (f (S j) - f j)) (seq a k).
Proof.
  induction k as [|k IH]; intro a; [reflexivity|].
  change (seq a (S (S k))) with (a :: S a :: seq (S (S a)) k). cbn [map].
  change (level u (f a :: f (S a) :: map f (seq (S (S a)) k)))
    with ((f a + u * (f (S a) - f a)) :: level u (map f (seq (S a) (S k)))).
  rewrite IH. reflexivity.
Qed.

Lemma casteljau_triangle K p P x u a :
  (forall q i, (q < p)%nat -> (a + q + 1 <= i <= a + p)%nat -> ratio K (p - q) x i = u) ->
  forall k q, (q + k = p)%nat ->
  casteljau k u (map (fun j => triangle K p P x q (a + q + j)) (seq 0 (S k))) = triangle K p P x p (a + p).
Proof.
  intro H. induction k as [|k IH]; intros q Hq; cbn [casteljau].
  - cbn. f_equal; lia.
  - rewrite level_map. rewrite <- (IH (S q)) by lia. f_equal.
    apply map_ext_in. intros j Hj. apply in_seq in Hj. cbn [triangle].
    rewrite H by lia.
    replace (a + S q + j - 1)%nat with (a + q + j)%nat by lia.
    replace (a + q + S j)%nat with (a + S q + j)%nat by lia. ring.
Qed.

(** The knots [0 .. j-1], each [p+1] times. *)
Definition full (p j : nat) : list R := flat_map (fun k => repeat (INR k) (p + 1)) (seq 0 j).
Definition rest (p E j : nat) : list R := map INR (seq j (E - j)) ++ repeat (INR E) (p + 1).

Lemma full_S p j : full p (S j) = full p j ++ repeat (INR j) (p + 1).
Proof. unfold full. rewrite seq_S, flat_map_app. cbn. rewrite app_nil_r. reflexivity. Qed.
Lemma full_len p j : length (full p j) = (j * (p + 1))%nat.
Proof. induction j as [|j IH]; [reflexivity|]. rewrite full_S, app_length, IH, repeat_length. lia. Qed.
Lemma full_knot p j i : (i < j * (p + 1))%nat -> knot (full p j) i = INR (i / (p + 1)).
Proof.
  induction j as [|j IH]; intro H; [lia|]. rewrite full_S. unfold knot in *.
  destruct (Nat.lt_ge_cases i (j * (p + 1))) as [Hi|Hi].
  - rewrite app_nth1 by (rewrite full_len; lia). apply IH, Hi.
  - rewrite app_nth2 by (rewrite full_len; lia). rewrite full_len, nth_repeat_lt by lia.
    f_equal. apply Nat.div_unique with (r := (i - j * (p + 1))%nat); lia.
Qed.
Lemma rest_step p E j : (j < E)%nat -> rest p E j = INR j :: rest p E (S j).
Proof. intro H. unfold rest. replace (E - j)%nat with (S (E - S j)) by lia. reflexivity. Qed.
Lemma rest_end p E : rest p E E = repeat (INR E) (p + 1).
Proof. unfold rest. rewrite Nat.sub_diag. reflexivity. Qed.
Lemma rest_len p E j : (j <= E)%nat -> length (rest p E j) = (E - j + p + 1)%nat.
Proof. intro H. unfold rest. rewrite app_length, map_length, seq_length, repeat_length. lia. Qed.
Lemma rest_ge p E j y : (j <= E)%nat -> In y (rest p E j) -> INR j <= y.
Proof.
  intros H. unfold rest. rewrite in_app_iff, in_map_iff. intros [(k & <- & Hk)|Hk].
  - apply in_seq in Hk. apply le_INR. lia.
  - apply repeat_spec in Hk. subst. apply le_INR, H.
Qed.
Lemma full_le p j y : In y (full p (S j)) -> y <= INR j.
Proof.
  unfold full. rewrite in_flat_map. intros (k & Hk & Hy). apply repeat_spec in Hy. subst.
  apply in_seq in Hk. apply le_INR. lia.
Qed.

(** A sorted list cut at [t]. *)
Lemma cut_unique (A B : list R) t l : (forall y, In y A -> y <= t) -> (forall y, In y B -> t < y) ->
  (l + 1 < length (A ++ B))%nat -> knot (A ++ B) l <= t < knot (A ++ B) (l + 1) -> (l + 1)%nat = length A.
Proof.
  intros HA HB Hl [H1 H2]. rewrite app_length in Hl. unfold knot in *.
  destruct (Nat.lt_trichotomy (l + 1) (length A)) as [H|[H|H]]; [|exact H|].
  - rewrite app_nth1 in H2 by lia. specialize (HA _ (nth_In A 0 H)). lra.
  - rewrite app_nth2 in H1 by lia.
    specialize (HB _ (nth_In B 0 (n := (l - length A)%nat) ltac:(lia))). lra.
Qed.

Section Form.
Variable s : bspline.
Hypothesis G : good s.
Hypothesis U : bs_uniform s = true.
Let p := bs_degree s.
Let E := (length (bs_points s) - p)%nat.

(** A spline of the same curve with the knots [ks]. *)
Definition same (u : bspline) (ks : list R) : Prop :=
  good u /\ bs_degree u = p /\ bs_knots u = ks /\
  knot (bs_knots u) p = 0 /\ knot (bs_knots u) (length (bs_points u)) = INR E /\
  forall x, 0 <= x < INR E ->
    spline_point (knot (bs_knots u)) p (bs_points u) x = spline_point (knot (bs_knots s)) p (bs_points s) x.

Lemma insert_same u A B t : same u (A ++ B) -> 0 <= t < INR E ->
  (forall y, In y A -> y <= t) -> (forall y, In y B -> t < y) ->
  exists u', insert_knot u t = Ok u' /\ same u' (A ++ [t] ++ B).
Proof.
  intros (Gu & Hd & Hk & K0 & KE & C) Ht HA HB.
  pose proof (insert_keeps_curve u t Gu) as H. rewrite Hd in H. cbv zeta in H.
  rewrite K0, KE in H. destruct (H Ht) as (u' & E1 & G' & D' & U' & N' & P0 & PE & (l & Kl & Hl & Hlt) & C').
  exists u'. split; [exact E1|].
  assert (El : (l + 1)%nat = length A).
  { apply (cut_unique A B t); auto; rewrite <- Hk; [|exact Hlt]. rewrite (g_len u Gu). lia. }
  assert (Kl' : bs_knots u' = A ++ [t] ++ B).
  { rewrite Kl, Hk, El. rewrite firstn_app, firstn_all, Nat.sub_diag, skipn_app, skipn_all, Nat.sub_diag.
    cbn. rewrite app_nil_r. reflexivity. }
  split; [exact G'|]. split; [exact D'|]. split; [exact Kl'|].
  split; [exact P0|]. split; [rewrite N'; exact PE|].
  intros x Hx. rewrite (C' x Hx). apply C, Hx.
Qed.

Lemma insert_times_same j B : (j < E)%nat -> (forall y, In y B -> INR j < y) ->
  forall k i u, same u (full p j ++ repeat (INR j) i ++ B) -> (1 <= j)%nat ->
  exists u', insert_times k (INR j) u = Ok u' /\ same u' (full p j ++ repeat (INR j) (i + k) ++ B).
Proof.
  intros Hj HB. induction k as [|k IH]; intros i u Hu H1.
  - exists u. rewrite Nat.add_0_r. split; [reflexivity|exact Hu].
  - cbn [insert_times]. rewrite app_assoc in Hu.
    destruct (insert_same u _ B (INR j) Hu) as (u' & E1 & S1).
    + split; [apply pos_INR|apply lt_INR, Hj].
    + intros y Hy. apply in_app_iff in Hy as [Hy|Hy].
      * destruct j as [|j']; [lia|]. apply full_le in Hy. rewrite S_INR. lra.
      * apply repeat_spec in Hy. lra.
    + exact HB.
    + rewrite E1. cbn [bind].
      replace (i + S k)%nat with (i + 1 + k)%nat by lia. apply IH; [|exact H1].
      rewrite <- !app_assoc in S1. rewrite repeat_app. cbn [repeat]. rewrite <- !app_assoc. exact S1.
Qed.

Lemma knots_list : exists ks, bs_knots s = ks /\ ks = full p 1 ++ rest p E 1.
Proof.
  exists (bs_knots s). split; [reflexivity|].
  destruct (g_uniform s G U) as [Hn F]. pose proof (g_len s G) as Hlen. fold p in Hn, F, Hlen.
  assert (HL : length (full p 1 ++ rest p E 1) = (length (bs_points s) + p + 1)%nat).
  { rewrite app_length, full_len, rest_len by (unfold E; lia). unfold E. lia. }
  apply (nth_ext _ _ 0 0); [lia|]. intros i Hi.
  change (nth i (bs_knots s) 0) with (knot (bs_knots s) i). rewrite F by lia. fold E.
  destruct (Nat.lt_ge_cases i (p + 1)) as [H|H].
  - rewrite app_nth1 by (rewrite full_len; lia).
    replace (Nat.min (i - p) E) with 0%nat by lia.
    unfold full. cbn. rewrite app_nil_r, nth_repeat_lt by lia. reflexivity.
  - rewrite app_nth2 by (rewrite full_len; lia). rewrite full_len. unfold rest.
    destruct (Nat.lt_ge_cases (i - 1 * (p + 1)) (E - 1)) as [H2|H2].
    + rewrite app_nth1 by (rewrite map_length, seq_length; lia).
      rewrite (nth_indep _ 0 (INR 0)) by (rewrite map_length, seq_length; lia).
      rewrite (map_nth INR), seq_nth by lia. f_equal. lia.
    + rewrite app_nth2 by (rewrite map_length, seq_length; lia).
      rewrite map_length, seq_length, nth_repeat_lt by (unfold E in *; lia). f_equal. lia.
Qed.

Lemma same_self : same s (full p 1 ++ rest p E 1).
Proof.
  destruct knots_list as (ks & E1 & E2). destruct (g_uniform s G U) as [Hn F].
  pose proof (g_len s G) as Hlen. fold p in Hn, F, Hlen.
  split; [exact G|]. split; [reflexivity|]. split; [congruence|].
  split; [rewrite F by lia; replace (Nat.min _ _) with 0%nat by lia; reflexivity|].
  split; [rewrite F by lia; f_equal; unfold E; lia|]. auto.
Qed.

Lemma multiplicity_one A B x y c : (forall z, In z A -> z < x) -> x < y ->
  multiplicity_loop (A ++ x :: y :: B) x c = (c + 1)%nat.
Proof.
  intros HA Hy. induction A as [|a A IH]; cbn [app multiplicity_loop].
  - rewrite Reqb_refl. rewrite Reqb_false by lra. rewrite Rltb_true by lra. reflexivity.
  - specialize (HA a (or_introl eq_refl)) as Ha. rewrite Reqb_false by lra. rewrite Rltb_false by lra.
    apply IH. intros z Hz. apply HA. right. exact Hz.
Qed.

Lemma multiplicity_ok j : (1 <= j < E)%nat -> knot_multiplicity s (INR j) = 1%nat.
Proof.
  intro Hj. unfold knot_multiplicity. destruct knots_list as (ks & -> & ->).
  assert (S1 : forall i, (1 <= i <= j)%nat -> rest p E i = map INR (seq i (j - i)) ++ rest p E j).
  { intros i Hi. unfold rest. replace (E - i)%nat with ((j - i) + (E - j))%nat by lia.
    rewrite seq_app, map_app, <- app_assoc. replace (i + (j - i))%nat with j by lia. reflexivity. }
  rewrite (S1 1%nat) by lia. rewrite rest_step by lia. rewrite app_assoc.
  assert (N : exists y B, rest p E (S j) = y :: B /\ INR j < y).
  { destruct (rest p E (S j)) as [|y B] eqn:Er.
    - pose proof (rest_len p E (S j) ltac:(lia)) as HL. rewrite Er in HL. cbn in HL. lia.
    - exists y, B. split; [reflexivity|]. pose proof (rest_ge p E (S j) y ltac:(lia)) as Hy.
      rewrite Er in Hy. specialize (Hy (or_introl eq_refl)). rewrite S_INR in Hy. lra. }
  destruct N as (y & B & -> & Hy). rewrite multiplicity_one; [reflexivity| |exact Hy].
  intros z Hz. apply in_app_iff in Hz as [Hz|Hz].
  - apply full_le in Hz. pose proof (le_INR 1 j ltac:(lia)) as Hj1. cbn in Hz, Hj1. lra.
  - apply in_map_iff in Hz as (k & <- & Hk). apply in_seq in Hk. apply lt_INR. lia.
Qed.

Lemma form_loop : forall k j u, (1 <= j)%nat -> (j + k = E)%nat -> same u (full p j ++ rest p E j) ->
  exists u', for_loop (fun t new_spline =>
        insert_times (p + 1 - knot_multiplicity s (INR t)) (INR t) new_spline) (seq j k) u = Ok u' /\
    same u' (full p E ++ rest p E E).
Proof.
  induction k as [|k IH]; intros j u H1 H2 Hu.
  - exists u. split; [reflexivity|]. replace j with E in Hu by lia. exact Hu.
  - cbn [seq for_loop]. rewrite multiplicity_ok by lia.
    rewrite rest_step in Hu by lia.
    change (INR j :: rest p E (S j)) with (repeat (INR j) 1 ++ rest p E (S j)) in Hu.
    destruct (insert_times_same j (rest p E (S j)) ltac:(lia)) with (k := (p + 1 - 1)%nat) (i := 1%nat) (u := u)
      as (u' & E1 & S1); [|exact Hu|exact H1|].
    + intros y Hy. apply rest_ge in Hy; [|lia]. rewrite S_INR in Hy. lra.
    + rewrite E1. cbn [bind]. apply IH; [lia|lia|].
      rewrite full_S, <- app_assoc. replace (1 + (p + 1 - 1))%nat with (p + 1)%nat in S1 by lia. exact S1.
Qed.

Lemma bezier_form_ok : exists u, to_bezier_form s = Ok u /\ same u (full p (E + 1)).
Proof.
  destruct (g_uniform s G U) as [Hn _]. fold p in Hn.
  unfold to_bezier_form. rewrite U. cbn [negb]. fold p. fold E.
  destruct (form_loop (E - 1)%nat 1%nat s ltac:(lia) ltac:(unfold E; lia) same_self) as (u & E1 & S1).
  exists u. split; [exact E1|]. rewrite Nat.add_1_r, full_S, <- rest_end. exact S1.
Qed.

(** Every span is a Bezier curve of its own control points. *)
Lemma bezier_spans u k x : same u (full p (E + 1)) -> (k < E)%nat -> INR k <= x < INR k + 1 ->
  length (bs_points u) = (E * (p + 1))%nat /\
  bezier (firstn (p + 1) (skipn (k * (p + 1)) (bs_points u))) (x - INR k) =
  spline_point (knot (bs_knots s)) p (bs_points s) x.
Proof.
  intros (Gu & Hd & Hk & K0 & KE & C) HkE Hx.
  pose proof (g_len u Gu) as Hlen. rewrite Hd, Hk, full_len in Hlen.
  assert (Hn : length (bs_points u) = (E * (p + 1))%nat) by lia.
  split; [exact Hn|].
  assert (HxE : 0 <= x < INR E).
  { pose proof (pos_INR k). apply le_INR in HkE. rewrite S_INR in HkE. lra. }
  rewrite <- (C x HxE).
  set (m := (k * (p + 1) + p)%nat).
  assert (KK : forall i, (i < (E + 1) * (p + 1))%nat -> knot (bs_knots u) i = INR (i / (p + 1))).
  { intros i Hi. rewrite Hk. apply full_knot, Hi. }
  assert (D1 : forall j, (j <= p)%nat -> knot (bs_knots u) (k * (p + 1) + j) = INR k).
  { intros j Hj. rewrite KK by nia. f_equal. symmetry. apply Nat.div_unique with (r := j); lia. }
  assert (D2 : forall j, (j <= p)%nat -> knot (bs_knots u) (k * (p + 1) + (p + 1) + j) = INR k + 1).
  { intros j Hj. rewrite KK by nia. rewrite <- S_INR. f_equal. symmetry.
    apply Nat.div_unique with (r := j); lia. }
  assert (Hm : (bs_degree u <= m < length (bs_points u))%nat) by (rewrite Hd, Hn; unfold m; nia).
  assert (Hmx : knot (bs_knots u) m <= x < knot (bs_knots u) (m + 1)).
  { unfold m. rewrite D1 by lia. replace (k * (p + 1) + p + 1)%nat with (k * (p + 1) + (p + 1) + 0)%nat by lia.
    rewrite D2 by lia. exact Hx. }
  pose proof (T_spline_point u Gu x m Hm Hmx) as T. rewrite Hd in T. rewrite <- T. clear T.
  assert (Hr : forall q i, (q < p)%nat -> (k * (p + 1) + q + 1 <= i <= k * (p + 1) + p)%nat ->
             ratio (knot (bs_knots u)) (p - q) x i = x - INR k).
  { intros q i Hq Hi. unfold ratio.
    assert (E1 : knot (bs_knots u) i = INR k).
    { replace i with (k * (p + 1) + (i - k * (p + 1)))%nat by lia. apply D1. lia. }
    assert (E2 : knot (bs_knots u) (i + (p - q)) = INR k + 1).
    { replace (i + (p - q))%nat with (k * (p + 1) + (p + 1) + (i - k * (p + 1) - q - 1))%nat by lia.
      apply D2. lia. }
    rewrite E1, E2. replace (INR k + 1 - INR k) with 1 by ring. field. }
  assert (Hpts : firstn (p + 1) (skipn (k * (p + 1)) (bs_points u))
                 = map (fun j => nth (k * (p + 1) + j) (bs_points u) (V 0 0)) (seq 0 (p + 1))).
  { apply (nth_ext _ _ (V 0 0) (V 0 0)).
    - rewrite firstn_length, skipn_length, map_length, seq_length, Hn. nia.
    - intros i Hi. rewrite firstn_length, skipn_length, Hn in Hi.
      set (f := fun j => nth (k * (p + 1) + j) (bs_points u) (V 0 0)).
      rewrite (nth_indep (map f _) (V 0 0) (f 0%nat)) by (rewrite map_length, seq_length; lia).
      rewrite (map_nth f), seq_nth by lia. unfold f. cbn [Nat.add].
      rewrite <- (firstn_skipn (k * (p + 1)) (bs_points u)) at 2.
      rewrite app_nth2 by (rewrite firstn_length, Hn; nia).
      rewrite firstn_length, Hn. replace (k * (p + 1) + i - Nat.min (k * (p + 1)) (E * (p + 1)))%nat with i by nia.
      rewrite <- (firstn_skipn (p + 1) (skipn (k * (p + 1)) (bs_points u))) at 2.
      rewrite app_nth1 by (rewrite firstn_length, skipn_length, Hn; nia). reflexivity. }
  unfold bezier, vtriangle. rewrite Hpts, map_length, seq_length, !map_map.
  replace (p + 1 - 1)%nat with p by lia.
  pose proof (casteljau_triangle (knot (bs_knots u)) p (PX (bs_points u)) x (x - INR k) (k * (p + 1)) Hr p 0%nat eq_refl) as A.
  pose proof (casteljau_triangle (knot (bs_knots u)) p (PY (bs_points u)) x (x - INR k) (k * (p + 1)) Hr p 0%nat eq_refl) as B.
  cbn [triangle] in A, B. rewrite Nat.add_0_r in A, B. unfold PX in A at 1. unfold PY in B at 1.
  replace (S p) with (p + 1)%nat in A, B by lia.
  unfold m. f_equal; [exact A|exact B].
Qed.

Lemma to_bezier_ok : (p = 2%nat \/ p = 3%nat) -> bs_closed s = false ->
  exists curves, to_bezier s = Ok curves /\ length curves = E /\
  forall k c x, nth_error curves k = Some c -> INR k <= x < INR k + 1 ->
    curve_point c (x - INR k) = spline_point (knot (bs_knots s)) p (bs_points s) x.
Proof.
  intros Hp Hc. destruct bezier_form_ok as (u & E1 & S1). unfold to_bezier. rewrite E1. cbn [bind].
  unfold number_of_spans. rewrite U, Hc. cbn [bind]. fold p. fold E.
  assert (Hd : bs_degree u = p) by apply S1. unfold order. rewrite Hd.
  pose proof (fun k H => bezier_spans u k (INR k) S1 H) as B.
  assert (Hn : (0 < E)%nat -> length (bs_points u) = (E * (p + 1))%nat).
  { intro H. apply (B 0%nat H). cbn. lra. }
  set (pts := fun k => firstn (p + 1) (skipn (k * (p + 1)) (bs_points u))).
  assert (HL : forall k, (k < E)%nat -> length (pts k) = (p + 1)%nat).
  { intros k Hk. unfold pts. rewrite firstn_length, skipn_length, Hn by lia. nia. }
  assert (MC : forall k, (k < E)%nat -> exists c, make_curve p (pts k) = Ok c /\
                forall t, curve_point c t = bezier (pts k) t).
  { intros k Hk. specialize (HL k Hk). destruct Hp as [Hp|Hp]; rewrite Hp in *.
    - destruct (pts k) as [|a [|b [|d [|? ?]]]]; cbn in HL; try lia. eexists. split; [reflexivity|].
      intro t. cbn [curve_point]. rewrite quad_eval. reflexivity.
    - destruct (pts k) as [|a [|b [|d [|e [|? ?]]]]]; cbn in HL; try lia. eexists. split; [reflexivity|].
      intro t. cbn [curve_point]. rewrite cubic_eval. reflexivity. }
  set (mk := fun k => match make_curve p (pts k) with Ok c => c | Raise _ => CQuadratic (Quad (V 0 0) (V 0 0) (V 0 0)) end).
  exists (map mk (seq 0 E)). split; [|split].
  - apply traverse_seq. intros k Hk. destruct (MC k ltac:(lia)) as (c & Ec & _). fold (pts k).
    unfold mk. rewrite Ec. reflexivity.
  - rewrite map_length, seq_length. reflexivity.
  - intros k c x Hk Hx.
    assert (HkE : (k < E)%nat).
    { assert (nth_error (map mk (seq 0 E)) k <> None) as Hne by congruence.
      apply nth_error_Some in Hne. rewrite map_length, seq_length in Hne. exact Hne. }
    rewrite nth_error_map in Hk.
    assert (Es : nth_error (seq 0 E) k = Some k).
    { rewrite (nth_error_nth' _ 0%nat) by (rewrite seq_length; exact HkE). rewrite seq_nth by exact HkE. reflexivity. }
    rewrite Es in Hk. cbn in Hk. injection Hk as <-.
    destruct (MC k HkE) as (c & Ec & F). unfold mk. rewrite Ec, F.
    apply (bezier_spans u k x S1 HkE Hx).
Qed.

End Form.

(** *** What to_bezier does otherwise *)
Lemma to_bezier_nonuniform s : bs_uniform s = false -> to_bezier s = Raise ValueError.
Proof. intro H. unfold to_bezier, to_bezier_form. rewrite H. reflexivity. Qed.

Lemma traverse_raise {A B} (f : A -> result B) e l x : In x l ->
  (forall y, In y l -> (exists b, f y = Ok b) \/ f y = Raise e) -> f x = Raise e ->
  traverse f l = Raise e.
Proof.
  induction l as [|a l IH]; intros Hx H Hf; [destruct Hx|]. cbn [traverse].
  destruct (H a (or_introl eq_refl)) as [(b & E)|E]; rewrite E; cbn [bind]; [|reflexivity].
  destruct Hx as [->|Hx]; [congruence|].
  rewrite IH; [reflexivity|exact Hx| |exact Hf]. intros y Hy. apply H. right. exact Hy.
Qed.

Lemma to_bezier_other s : good s -> bs_uniform s = true ->
  ((bs_degree s < 2)%nat -> to_bezier s = Raise UnboundLocalError) /\
  ((3 < bs_degree s)%nat -> to_bezier s = Raise TypeError) /\
  ((2 <= bs_degree s)%nat -> bs_closed s = true -> to_bezier s = Raise TypeError).
Proof.
  intros G U. destruct (bezier_form_ok s G U) as (u & E1 & S1). unfold to_bezier. rewrite E1. cbn [bind].
  unfold number_of_spans. rewrite U. cbn [bind].
  destruct (g_uniform s G U) as [Hn _].
  assert (Hd : bs_degree u = bs_degree s) by apply S1. unfold order. rewrite Hd.
  set (p := bs_degree s) in *. set (E := (length (bs_points s) - p)%nat) in *.
  set (spans := if bs_closed s then (E + 1)%nat else E).
  assert (Hs : (1 <= spans)%nat) by (unfold spans, E; destruct (bs_closed s); lia).
  assert (Hu : length (bs_points u) = (E * (p + 1))%nat).
  { apply (bezier_spans s u 0%nat 0 S1); [fold p; unfold E; lia|cbn; lra]. }
  set (f := fun i => make_curve p (firstn (p + 1) (skipn (i * (p + 1)) (bs_points u)))).
  assert (Hin : In 0%nat (seq 0 spans)) by (apply in_seq; lia).
  split; [|split].
  - intro H. apply (traverse_raise f UnboundLocalError _ 0%nat Hin).
    + intros y _. right. unfold f, make_curve. destruct p as [|[|?]]; [reflexivity|reflexivity|lia].
    + unfold f, make_curve. destruct p as [|[|?]]; [reflexivity|reflexivity|lia].
  - intro H.
    assert (F : forall y, (y < spans)%nat -> (exists b, f y = Ok b) \/ f y = Raise TypeError).
    { intros y _. unfold f, make_curve. destruct p as [|[|[|p']]]; [lia|lia|lia|].
      destruct (firstn _ _) as [|? [|? [|? [|? [|? ?]]]]]; eauto. }
    apply (traverse_raise f TypeError _ 0%nat Hin).
    + intros y Hy. apply in_seq in Hy. apply F. lia.
    + unfold f. assert (L : length (firstn (p + 1) (skipn (0 * (p + 1)) (bs_points u))) = (p + 1)%nat).
      { rewrite firstn_length, skipn_length, Hu. cbn. unfold E. nia. }
      unfold make_curve. destruct p as [|[|[|p']]]; [lia|lia|lia|].
      destruct (firstn _ _) as [|? [|? [|? [|? [|? ?]]]]]; cbn in L; try lia; reflexivity.
  - intros H Hc. unfold spans. rewrite Hc.
    assert (F : forall y, (exists b, f y = Ok b) \/ f y = Raise TypeError).
    { intros y. unfold f, make_curve. destruct p as [|[|[|p']]]; [lia|lia| |];
      destruct (firstn _ _) as [|? [|? [|? [|? [|? ?]]]]]; eauto. }
    apply (traverse_raise f TypeError _ E).
    + apply in_seq. lia.
    + intros y _. apply F.
    + unfold f. rewrite skipn_all2 by lia. rewrite firstn_nil. unfold make_curve.
      destruct p as [|[|[|p']]]; [lia|lia| |]; reflexivity.
Qed.

(** *** Statements on constructed splines *)
Lemma uniform_good pts p c s : new_bspline pts p c None = Ok s -> good s.
Proof. intro H. eapply new_bspline_good; [exact H|]. eapply new_uniform_len; exact H. Qed.

Lemma uniform_domain s : good s -> bs_uniform s = true ->
  knot (bs_knots s) (bs_degree s) = 0 /\
  knot (bs_knots s) (length (bs_points s)) = INR (length (bs_points s) - bs_degree s).
Proof.
  intros G U. destruct (g_uniform s G U) as [Hn F]. pose proof (g_len s G) as L. split; rewrite F by lia.
  - replace (Nat.min _ _) with 0%nat by lia. reflexivity.
  - f_equal. lia.
Qed.

Lemma uniform_basis pts p c s : new_bspline pts p c None = Ok s ->
  (p + 1 <= length pts)%nat /\
  length (bs_knots s) = (length pts + p + 1)%nat /\
  sorted (bs_knots s) /\
  (forall i, (i < length pts + p + 1)%nat ->
     knot (bs_knots s) i = INR (Nat.min (i - p) (length pts - p))) /\
  forall t, exists bs,
    traverse (fun i => basis_function s p i t) (seq 0 (length pts)) = Ok bs /\
    length bs = length pts /\
    (forall i, (i < length pts)%nat -> 0 <= nth i bs 0) /\
    (forall i, (i < length pts)%nat ->
       t < knot (bs_knots s) i \/ knot (bs_knots s) (i + p + 1) <= t -> nth i bs 0 = 0) /\
    (0 <= t < INR (length pts - p) -> fold_right Rplus 0 bs = 1).
Proof.
  intro H. pose proof (uniform_good _ _ _ _ H) as G.
  destruct (new_bspline_fields _ _ _ _ _ H) as (Hp & Hd & _ & U). cbn in U.
  destruct (g_uniform s G U) as [Hn F]. pose proof (g_len s G) as L.
  destruct (uniform_domain s G U) as [D0 D1]. rewrite Hp, Hd in *.
  split; [exact Hn|]. split; [exact L|]. split; [apply G|].
  split; [intros i Hi; apply F; lia|].
  intro t. set (K := knot (bs_knots s)) in *. set (n := length pts) in *.
  exists (map (fun i => basis K p i t) (seq 0 n)).
  assert (Mono : forall i j, (i <= j <= n + p)%nat -> K i <= K j).
  { intros i j Hij. apply (g_sorted s G). lia. }
  assert (Nth : forall i, (i < n)%nat -> nth i (map (fun i => basis K p i t) (seq 0 n)) 0 = basis K p i t).
  { intros i Hi. rewrite (nth_indep _ 0 (basis K p 0 t)) by (rewrite map_length, seq_length; exact Hi).
    rewrite (map_nth (fun i => basis K p i t)), seq_nth by exact Hi. reflexivity. }
  split; [|split; [|split; [|split]]].
  - apply traverse_seq. intros i Hi. apply basis_function_ok. lia.
  - rewrite map_length, seq_length. reflexivity.
  - intros i Hi. rewrite Nth by exact Hi. apply (basis_nonneg K (n + p)%nat Mono). lia.
  - intros i Hi Ho. rewrite Nth by exact Hi. apply (basis_local K (n + p)%nat Mono); [lia|exact Ho].
  - intro Ht.
    assert (Sum : forall k a, fold_right Rplus 0 (map (fun i => basis K p i t) (seq a k)) = sumn k (fun i => basis K p (a + i) t)).
    { induction k as [|k IH]; intro a; [reflexivity|]. rewrite sumn_first. cbn [seq map fold_right].
      rewrite IH, Nat.add_0_r. f_equal. apply sumn_ext. intros i _. f_equal. lia. }
    rewrite Sum. cbn [Nat.add].
    destruct (span_ok s G t) as (l & _ & Hl & Hlt); [rewrite Hp, Hd; fold K; fold n; rewrite D0, D1; exact Ht|].
    rewrite Hp, Hd in Hl. fold K in Hlt. fold n in Hl.
    apply (partition K (n + p)%nat Mono t l Hlt p n); lia.
Qed.

(** At the end of the domain no basis function is positive. *)
Lemma basis_end pts p c s : new_bspline pts p c None = Ok s ->
  exists bs, traverse (fun i => basis_function s p i (INR (length pts - p))) (seq 0 (length pts)) = Ok bs /\
  fold_right Rplus 0 bs = 0.
Proof.
  intro H. destruct (uniform_basis _ _ _ _ H) as (Hn & L & _ & F & B).
  destruct (B (INR (length pts - p))) as (bs & E & Lb & _ & Z & _). exists bs. split; [exact E|].
  assert (A : forall i, (i < length pts)%nat -> nth i bs 0 = 0).
  { intros i Hi. destruct (le_lt_dec (length pts) (i + p + 1)) as [Hle|Hlt].
    - apply Z; [exact Hi|]. right. rewrite F by lia. apply le_INR. lia.
    - apply Z; [exact Hi|]. right. rewrite F by lia. apply le_INR. lia. }
  rewrite <- Lb in A. clear - A. induction bs as [|b bs IH]; [reflexivity|]. cbn [fold_right].
  rewrite IH; [|intros i Hi; apply (A (S i)); cbn; lia].
  specialize (A 0%nat ltac:(cbn; lia)). cbn in A. rewrite A. ring.
Qed.

Lemma weighted_ok pts : forall ws, length ws = length pts ->
  weighted pts ws = V (sumn (length pts) (fun i => vx (nth i pts (V 0 0)) * nth i ws 0))
                      (sumn (length pts) (fun i => vy (nth i pts (V 0 0)) * nth i ws 0)).
Proof.
  induction pts as [|a pts IH]; intros [|w ws] H; try discriminate; [reflexivity|].
  injection H as H. cbn [length]. rewrite !sumn_first. unfold weighted. cbn [combine map fold_right].
  fold (weighted pts ws). rewrite IH by exact H. unfold vadd, vscale. cbn [fst snd nth vx vy].
  f_equal; ring.
Qed.

Lemma evaluation_ok pts p c k s t : new_bspline pts p c k = Ok s ->
  length (bs_knots s) = (length pts + p + 1)%nat ->
  knot (bs_knots s) p <= t < knot (bs_knots s) (length pts) ->
  exists ws, traverse (fun i => basis_function s p i t) (seq 0 (length pts)) = Ok ws /\
  point_at_t s t false = Ok (weighted pts ws) /\
  weighted pts ws = spline_point (knot (bs_knots s)) p pts t.
Proof.
  intros H L Ht. pose proof (new_bspline_good _ _ _ _ _ H L) as G.
  destruct (new_bspline_fields _ _ _ _ _ H) as (Hp & Hd & _ & _).
  exists (map (fun i => basis (knot (bs_knots s)) p i t) (seq 0 (length pts))).
  assert (W : weighted pts (map (fun i => basis (knot (bs_knots s)) p i t) (seq 0 (length pts)))
              = spline_point (knot (bs_knots s)) p pts t).
  { rewrite weighted_ok by (rewrite map_length, seq_length; reflexivity). unfold spline_point.
    f_equal; apply sumn_ext; intros i Hi;
    rewrite (nth_indep (map _ _) 0 (basis (knot (bs_knots s)) p 0 t)) by (rewrite map_length, seq_length; exact Hi);
    rewrite (map_nth (fun i => basis (knot (bs_knots s)) p i t)), seq_nth by exact Hi; reflexivity. }
  split; [|split; [|exact W]].
  - apply traverse_seq. intros i Hi. apply basis_function_ok. lia.
  - rewrite W, point_at_t_ok; rewrite ?Hp, ?Hd; auto.
Qed.

Lemma naive_fails s t : bs_uniform s = false -> good s -> point_at_t s t true = Raise TypeError.
Proof.
  intros U G. unfold point_at_t. rewrite U. unfold naive_point_at_t.
  rewrite (traverse_seq _ (fun i => basis (knot (bs_knots s)) (bs_degree s) i t)); [reflexivity|].
  intros i Hi. apply basis_function_ok. pose proof (g_len s G). lia.
Qed.
Lemma naive_fails_uniform s t : bs_uniform s = true -> good s ->
  t <> 0 -> t <> INR (length (bs_points s) - bs_degree s) -> point_at_t s t true = Raise TypeError.
Proof.
  intros U G H0 H1. unfold point_at_t, end_knot. rewrite U. rewrite Reqb_false by exact H0. cbn [bind].
  destruct (g_uniform s G U) as [Hn _].
  rewrite <- Nat2Z.inj_sub, <- INR_IZR_INZ by lia. rewrite Reqb_false by exact H1. unfold naive_point_at_t.
  rewrite (traverse_seq _ (fun i => basis (knot (bs_knots s)) (bs_degree s) i t)); [reflexivity|].
  intros i Hi. apply basis_function_ok. pose proof (g_len s G). lia.
Qed.

(** Outside the domain but inside the knots the evaluation reads points from the other end. *)
Definition unclamped := BS [V 0 0; V 2 0] 1 false [0; 1; 2; 3] false.
Lemma unclamped_new : new_bspline [V 0 0; V 2 0] 1 false (Some [0; 1; 2; 3]) = Ok unclamped.
Proof.
  unfold new_bspline, non_decreasing. rewrite !Rleb_true by lra. reflexivity.
Qed.
Lemma unclamped_wrong : point_at_t unclamped (1/2) false = Ok (V 1 0) /\
  spline_point (knot (bs_knots unclamped)) 1 (bs_points unclamped) (1/2) = V 0 0.
Proof.
  split.
  - unfold point_at_t, deboor, span, start_knot, end_knot, unclamped, order. cbn [bs_uniform bs_knots bs_degree bs_points].
    change (py_get [0;1;2;3] 0) with (@Ok R 0). change (py_get [0;1;2;3] (-1)) with (@Ok R 3). cbn [bind].
    rewrite !Rleb_true by lra. cbn [negb span_loop]. rewrite Rltb_false by lra. rewrite Rltb_true by lra.
    cbn [bind]. change (seq 0 (1 + 1)) with [0;1]%nat. cbn [traverse].
    change (py_get [V 0 0; V 2 0] (Z.of_nat 0 + (0 + 1 - 1 - Z.of_nat 1))) with (Ok (V 2 0)).
    change (py_get [V 0 0; V 2 0] (Z.of_nat 1 + (0 + 1 - 1 - Z.of_nat 1))) with (Ok (V 0 0)). cbn [bind].
    change (seq 1 1) with [1]%nat. change (rev (seq 1 (1 + 1 - 1))) with [1]%nat. cbn [for_loop].
    change (seq 1 1) with [1]%nat. cbn [for_loop Nat.sub Nat.add seq rev app]. unfold deboor_body.
    change (py_get [0;1;2;3] (Z.of_nat 1 + 1 + (0 + 1 - 1) - Z.of_nat 1)) with (@Ok R 1).
    change (py_get [0;1;2;3] (Z.of_nat 1 + (0 + 1 - 1 - Z.of_nat 1))) with (@Ok R 0). cbn [bind].
    change (py_get [V 2 0; V 0 0] (Z.of_nat 1 - 1)) with (Ok (V 2 0)).
    change (py_get [V 2 0; V 0 0] (Z.of_nat 1)) with (Ok (V 0 0)).
    rewrite (Reqb_false (1 - 0)) by lra.
    replace ((1 / 2 - 0) / (1 - 0)) with (1/2) by field.
    rewrite (Reqb_false (1/2)) by lra. rewrite (Reqb_false (1/2)) by lra. cbn [bind for_loop update].
    cbn [for_loop bind]. unfold py_get. cbn. unfold vadd, vscale. cbn.
    change (Pos.to_nat 1) with 1%nat. cbn [nth_error]. f_equal. apply vec_eq; cbn; lra.
  - unfold spline_point, unclamped, knot. cbn.
    repeat (destruct (Rle_dec _ _); try lra); repeat (destruct (Rlt_dec _ _); try lra).
    all: f_equal; ring.
Qed.

(** ** The splines of one span *)
Lemma to_spline_ok c : exists p0 p1 p2 p3, to_spline c = [p0; p1; p2; p3] /\
  forall t, cubic_spline_point_at_t p0 p1 p2 p3 t = cubic_point_at_t c t.
Proof.
  destruct c as [[x0 y0] [x1 y1] [x2 y2] [x3 y3]].
  unfold to_spline, dot_rows, matrix_columns, cubic_bezier_basis, cubic_spline_inverse_basis, column.
  cbn [seq map nth]. do 4 eexists. split; [reflexivity|]. intro t.
  unfold combine_points, dot_list, cubic_spline_point_at_t, cubic_point_at_t.
  cbn [combine map fold_left fst snd c0 c1 c2 c3p].
  apply vec_eq; unfold vadd, vscale, vsub, vneg; cbn [vx vy]; field.
Qed.

Lemma spline_bezier_points p0 p1 p2 p3 : exists b0 b1 b2 b3,
  cubic_spline_bezier_points p0 p1 p2 p3 = [b0; b1; b2; b3] /\
  forall t, cubic_point_at_t (Cub b0 b1 b2 b3) t = cubic_spline_point_at_t p0 p1 p2 p3 t.
Proof.
  destruct p0 as [x0 y0], p1 as [x1 y1], p2 as [x2 y2], p3 as [x3 y3].
  unfold cubic_spline_bezier_points, dot_rows, matrix_columns, cubic_spline_basis, cubic_bezier_inverse_basis, column.
  cbn [seq map nth]. do 4 eexists. split; [reflexivity|]. intro t.
  unfold combine_points, dot_list, cubic_spline_point_at_t, cubic_point_at_t.
  cbn [combine map fold_left fst snd c0 c1 c2 c3p].
  apply vec_eq; unfold vadd, vscale, vsub, vneg; cbn [vx vy]; field.
Qed.

(** The uniform cubic spline of four points is the B-spline with knots 0 .. 7 on its only span. *)
Lemma uniform_cubic_is_bspline p0 p1 p2 p3 t : 0 <= t < 1 ->
  cubic_spline_point_at_t p0 p1 p2 p3 t =
  spline_point (knot [-3; -2; -1; 0; 1; 2; 3; 4]) 3 [p0; p1; p2; p3] t.
Proof.
  intro Ht.
  set (s := BS [p0; p1; p2; p3] 3 false [-3; -2; -1; 0; 1; 2; 3; 4] false).
  assert (N : new_bspline [p0; p1; p2; p3] 3 false (Some [-3; -2; -1; 0; 1; 2; 3; 4]) = Ok s).
  { unfold new_bspline, non_decreasing. rewrite !Rleb_true by lra. reflexivity. }
  pose proof (new_bspline_good _ _ _ _ _ N eq_refl) as G.
  pose proof (T_spline_point s G t 3%nat ltac:(cbn; lia) ltac:(unfold knot; cbn; lra)) as T.
  cbn [bs_knots bs_degree bs_points s] in T. rewrite <- T.
  unfold vtriangle. cbn [triangle]. unfold ratio, knot, PX, PY. cbn [Nat.sub Nat.add nth].
  destruct p0 as [x0 y0], p1 as [x1 y1], p2 as [x2 y2], p3 as [x3 y3].
  unfold cubic_spline_point_at_t. cbn [vx vy vadd vscale vsub vneg].
  apply vec_eq; unfold vadd, vscale, vsub, vneg; cbn [vx vy]; field.
Qed.

Lemma quad_to_bezier_wrong : 
  quad_spline_to_bezier (V 0 0) (V 1 0) (V 2 0) <> [V (1/2) 0; V 1 0; V (3/2) 0].
Proof.
  unfold quad_spline_to_bezier, dot_rows, matrix_columns, quad_spline_basis, quad_bezier_inverse_basis, column.
  cbn [seq map nth]. unfold combine_points, dot_list.
  cbn [combine map fold_left fst snd]. unfold vadd, vscale. cbn [vx vy]. intro H. injection H. intros. lra.
Qed.

Lemma quad_wrong :
  spline_point (knot [-2; -1; 0; 1; 2; 3]) 2 [V 0 0; V 1 0; V 2 0] 0 = V (1/2) 0 /\
  hd (V 0 0) (quad_spline_to_bezier (V 0 0) (V 1 0) (V 2 0)) <> V (1/2) 0 /\
  forall p0 p1 p2 t, quad_spline_point_at_t p0 p1 p2 t = Raise AttributeError.
Proof.
  split; [|split; [|reflexivity]].
  - set (s := BS [V 0 0; V 1 0; V 2 0] 2 false [-2; -1; 0; 1; 2; 3] false).
    assert (N : new_bspline [V 0 0; V 1 0; V 2 0] 2 false (Some [-2; -1; 0; 1; 2; 3]) = Ok s).
    { unfold new_bspline, non_decreasing. rewrite !Rleb_true by lra. reflexivity. }
    pose proof (new_bspline_good _ _ _ _ _ N eq_refl) as G.
    pose proof (T_spline_point s G 0 2%nat ltac:(cbn; lia) ltac:(unfold knot; cbn; lra)) as T.
    cbn [bs_knots bs_degree bs_points s] in T. rewrite <- T.
    unfold vtriangle. cbn [triangle]. unfold ratio, knot, PX, PY. cbn [Nat.sub Nat.add nth vx vy].
    apply vec_eq; cbn [vx vy]; field.
  - unfold quad_spline_to_bezier, dot_rows, matrix_columns, quad_spline_basis, quad_bezier_inverse_basis, column.
    cbn [seq map nth hd]. unfold combine_points, dot_list.
    cbn [combine map fold_left fst snd]. unfold vadd, vscale. cbn [vx vy]. intro H. injection H. intros. lra.
Qed.

Lemma new_uniform_iff pts p c :
  ((p + 1 <= length pts)%nat -> exists s, new_bspline pts p c None = Ok s) /\
  ((length pts < p + 1)%nat -> new_bspline pts p c None = Raise ValueError).
Proof.
  unfold new_bspline, uniform_knots. split; intro H.
  - replace (Nat.ltb _ _) with false by (symmetry; apply Nat.ltb_ge; lia). cbn [bind]. eauto.
  - replace (Nat.ltb _ _) with true by (symmetry; apply Nat.ltb_lt; lia). reflexivity.
Qed.

Lemma uniform_ends pts p c s : new_bspline pts p c None = Ok s ->
  point_at_t s 0 false = Ok (hd (V 0 0) pts) /\
  point_at_t s (INR (length pts - p)) false = Ok (last pts (V 0 0)).
Proof.
  intro H. pose proof (uniform_good _ _ _ _ H) as G.
  destruct (new_bspline_fields _ _ _ _ _ H) as (Hp & Hd & _ & U). cbn in U.
  destruct (uniform_domain s G U) as [D0 D1]. rewrite Hp, Hd in *. split.
  - unfold point_at_t. rewrite U, Reqb_refl, Hp.
    destruct (g_uniform s G U) as [Hn _]. rewrite Hp, Hd in Hn.
    destruct pts as [|a pts]; [cbn in Hn; lia|reflexivity].
  - destruct (point_at_end s G U) as (e & _ & He & Hq). rewrite Hp in *. rewrite <- D1, <- He. exact Hq.
Qed.

Lemma unclamped_refuted : exists pts s,
  new_bspline pts 1 false (Some [0; 1; 2; 3]) = Ok s /\ length pts = 2%nat /\
  point_at_t s (1/2) false = Ok (V 1 0) /\
  spline_point (knot (bs_knots s)) 1 pts (1/2) = V 0 0.
Proof.
  exists [V 0 0; V 2 0], unclamped. split; [exact unclamped_new|]. split; [reflexivity|].
  exact unclamped_wrong.
Qed.

Lemma given_knots_end pts p c ks s : new_bspline pts p c (Some ks) = Ok s ->
  length ks = (length pts + p + 1)%nat ->
  exists e, end_knot s = Ok e /\ point_at_t s e false = Raise TypeError.
Proof.
  intros H L. destruct (new_bspline_fields _ _ _ _ _ H) as (Hp & Hd & _ & U). cbn in U.
  apply nonuniform_end; [|exact U]. eapply new_bspline_good; [exact H|].
  unfold new_bspline in H. destruct (negb _); [discriminate|]. injection H as <-. exact L.
Qed.

Lemma naive_never pts p c k s t : new_bspline pts p c k = Ok s ->
  length (bs_knots s) = (length pts + p + 1)%nat ->
  (k = None -> t <> 0 /\ t <> INR (length pts - p)) ->
  point_at_t s t true = Raise TypeError.
Proof.
  intros H L Hk. pose proof (new_bspline_good _ _ _ _ _ H L) as G.
  destruct (new_bspline_fields _ _ _ _ _ H) as (Hp & Hd & _ & U). destruct k as [ks|].
  - apply naive_fails; [exact U|exact G].
  - destruct (Hk eq_refl) as [H0 H1]. apply naive_fails_uniform; [exact U|exact G|exact H0|].
    rewrite Hp, Hd. exact H1.
Qed.

Lemma insert_same_points pts p c k s t : new_bspline pts p c k = Ok s ->
  length (bs_knots s) = (length pts + p + 1)%nat ->
  knot (bs_knots s) p <= t < knot (bs_knots s) (length pts) ->
  exists s', insert_knot s t = Ok s' /\ length (bs_points s') = (length pts + 1)%nat /\
    (exists l, bs_knots s' = firstn (l + 1) (bs_knots s) ++ [t] ++ skipn (l + 1) (bs_knots s)
               /\ knot (bs_knots s) l <= t < knot (bs_knots s) (l + 1)) /\
    forall x, knot (bs_knots s) p <= x < knot (bs_knots s) (length pts) ->
      point_at_t s' x false = point_at_t s x false /\ exists q, point_at_t s x false = Ok q.
Proof.
  intros H L Ht. pose proof (new_bspline_good _ _ _ _ _ H L) as G.
  destruct (new_bspline_fields _ _ _ _ _ H) as (Hp & Hd & _ & _).
  pose proof (insert_keeps_curve s t G) as I. rewrite Hp, Hd in I. cbv zeta in I.
  destruct (I Ht) as (s' & E1 & G' & D' & U' & N' & P0 & PE & (l & Kl & Hl & Hlt) & C').
  exists s'. split; [exact E1|]. split; [exact N'|]. split; [exists l; split; assumption|].
  intros x Hx. rewrite (point_at_t_ok s' x G') by (rewrite D', N', P0, PE; exact Hx).
  rewrite (point_at_t_ok s x G) by (rewrite Hp, Hd; exact Hx). rewrite D', Hp, Hd, (C' x Hx).
  split; [reflexivity|eauto].
Qed.

Lemma end_knot_same s : good s -> bs_uniform s = false ->
  (forall i, (length (bs_points s) <= i <= length (bs_points s) + bs_degree s)%nat ->
     knot (bs_knots s) i = knot (bs_knots s) (length (bs_points s))) ->
  end_knot s = Ok (knot (bs_knots s) (length (bs_points s))).
Proof.
  intros G U H. unfold end_knot. rewrite U. pose proof (g_len s G) as L.
  unfold py_get. cbn [Z.leb Z.compare].
  replace (0 <=? Z.of_nat (length (bs_knots s)) + -1)%Z with true by (symmetry; apply Z.leb_le; lia).
  replace (Z.to_nat (Z.of_nat (length (bs_knots s)) + -1)) with (length (bs_points s) + bs_degree s)%nat by lia.
  rewrite (nth_error_nth' _ 0) by lia. fold (knot (bs_knots s) (length (bs_points s) + bs_degree s)).
  rewrite H by lia. reflexivity.
Qed.

Lemma insert_end pts p c s t : new_bspline pts p c None = Ok s ->
  0 <= t < INR (length pts - p) ->
  exists s' e, insert_knot s t = Ok s' /\ end_knot s' = Ok e /\
    point_at_t s e false = Ok (last pts (V 0 0)) /\ point_at_t s' e false = Raise TypeError.
Proof.
  intros H Ht. pose proof (uniform_good _ _ _ _ H) as G.
  destruct (new_bspline_fields _ _ _ _ _ H) as (Hp & Hd & _ & U). cbn in U.
  destruct (uniform_domain s G U) as [D0 D1].
  destruct (g_uniform s G U) as [Hn F]. pose proof (g_len s G) as L. rewrite Hp, Hd in *.
  pose proof (insert_keeps_curve s t G) as I. rewrite Hp, Hd in I. cbv zeta in I. rewrite D0, D1 in I.
  destruct (I Ht) as (s' & E1 & G' & D' & U' & N' & P0 & PE & (l & Kl & Hl & Hlt) & _).
  assert (EK : end_knot s' = Ok (INR (length pts - p))).
  { rewrite (end_knot_same s' G' U'); rewrite N'; [rewrite PE; reflexivity|].
    intros i Hi. rewrite PE, Kl, knot_insert by lia. rewrite D' in Hi.
    unfold inserted. destruct (Nat.leb_spec i l); [lia|]. destruct (Nat.eqb_spec i (l + 1)) as [Ei|Ei].
    - exfalso. lia.
    - rewrite F by lia. f_equal. lia. }
  exists s', (INR (length pts - p)). split; [exact E1|]. split; [exact EK|].
  split; [apply (uniform_ends _ _ _ _ H)|].
  destruct (nonuniform_end s' G' U') as (e & Ee & Er). rewrite EK in Ee. injection Ee as <-. exact Er.
Qed.

Lemma bezier_form_points pts p c s : new_bspline pts p c None = Ok s ->
  exists s', to_bezier_form s = Ok s' /\
  length (bs_points s') = ((length pts - p) * (p + 1))%nat /\
  forall k x, (k < length pts - p)%nat -> INR k <= x < INR k + 1 ->
    point_at_t s x false = Ok (bezier (firstn (p + 1) (skipn (k * (p + 1)) (bs_points s'))) (x - INR k)).
Proof.
  intro H. pose proof (uniform_good _ _ _ _ H) as G.
  destruct (new_bspline_fields _ _ _ _ _ H) as (Hp & Hd & _ & U). cbn in U.
  destruct (uniform_domain s G U) as [D0 D1]. destruct (g_uniform s G U) as [Hn F].
  destruct (bezier_form_ok s G U) as (u & E1 & S1). exists u. split; [exact E1|].
  assert (B : forall k x, (k < length pts - p)%nat -> INR k <= x < INR k + 1 ->
    length (bs_points u) = ((length pts - p) * (p + 1))%nat /\
    bezier (firstn (p + 1) (skipn (k * (p + 1)) (bs_points u))) (x - INR k) =
    spline_point (knot (bs_knots s)) p pts x).
  { intros k x Hk Hx. pose proof (bezier_spans s u k x S1) as B. rewrite Hp, Hd in B. exact (B Hk Hx). }
  rewrite Hp, Hd in *. split.
  - apply (B 0%nat 0); [lia|cbn; lra].
  - intros k x Hk Hx. rewrite (proj2 (B k x Hk Hx)). rewrite point_at_t_ok; rewrite ?Hp, ?Hd; [reflexivity|exact G|].
    rewrite D0, D1. pose proof (pos_INR k). apply le_INR in Hk. rewrite S_INR in Hk. lra.
Qed.

Lemma to_bezier_points pts p s : p = 2%nat \/ p = 3%nat -> new_bspline pts p false None = Ok s ->
  exists curves, to_bezier s = Ok curves /\ length curves = (length pts - p)%nat /\
  forall k c x, nth_error curves k = Some c -> INR k <= x < INR k + 1 ->
    point_at_t s x false = Ok (curve_point c (x - INR k)).
Proof.
  intros Hd2 H. pose proof (uniform_good _ _ _ _ H) as G.
  destruct (new_bspline_fields _ _ _ _ _ H) as (Hp & Hd & Hc & U). cbn in U.
  destruct (uniform_domain s G U) as [D0 D1].
  destruct (to_bezier_ok s G U) as (curves & E1 & L & F); [rewrite Hd; exact Hd2|exact Hc|].
  rewrite Hp, Hd in *.
  exists curves. split; [exact E1|]. split; [exact L|]. intros k c x Hk Hx.
  rewrite (F k c x Hk Hx). rewrite point_at_t_ok; rewrite ?Hp, ?Hd; [reflexivity|exact G|].
  rewrite D0, D1. assert (k < length pts - p)%nat as HkE.
  { rewrite <- L. apply nth_error_Some. congruence. }
  pose proof (pos_INR k). apply le_INR in HkE. rewrite S_INR in HkE. lra.
Qed.

Lemma to_bezier_refused pts p c s : new_bspline pts p c None = Ok s ->
  ((p < 2)%nat -> to_bezier s = Raise UnboundLocalError) /\
  ((3 < p)%nat -> to_bezier s = Raise TypeError) /\
  ((2 <= p)%nat -> c = true -> to_bezier s = Raise TypeError).
Proof.
  intro H. pose proof (uniform_good _ _ _ _ H) as G.
  destruct (new_bspline_fields _ _ _ _ _ H) as (Hp & Hd & Hc & U). cbn in U.
  pose proof (to_bezier_other s G U) as O. rewrite Hd, Hc in O. exact O.
Qed.
