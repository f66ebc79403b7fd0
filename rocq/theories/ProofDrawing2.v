From Coq Require Import Reals List ZArith Lra Lia Bool.
From Verif Require Import Base ModelVector ModelTransformation ModelLine ModelBezier ModelConic ModelPath ModelSpline.
From Verif Require Import SpecVector SpecSpline ProofVector ProofSpline ProofBezier.
From Verif Require ModelScene.
Import ModelScene(position, PVector, PName, PNumber, coordinates, cast_position).
From Verif Require Import ModelPainter ModelDrawing SpecPainter SpecDrawing ProofDrawing.
Import ListNotations.
Local Open Scope R_scope.

(** ** A piece of a spline, beyond its ends *)
Fixpoint piece_basis (K : nat -> R) (j p i : nat) (t : R) : R :=
  match p with
  | O => if Nat.eqb i j then 1 else 0
  | S q => quot (t - K i) (K (i + p)%nat - K i) * piece_basis K j q i t
           + quot (K (i + p + 1)%nat - t) (K (i + p + 1)%nat - K (i + 1)%nat) * piece_basis K j q (i + 1) t
  end.

Section Knots.
Variable K : nat -> R.
Variable N : nat.
Hypothesis mono : forall i j, (i <= j <= N)%nat -> K i <= K j.

Lemma piece_inside j p : forall i t, (i + p + 1 <= N)%nat -> (j + 1 <= N)%nat -> K j <= t < K (j + 1)%nat ->
  basis K p i t = piece_basis K j p i t.
Proof.
  induction p as [|p IH]; intros i t Hi Hj Ht; cbn [basis piece_basis].
  - destruct (Nat.eqb_spec i j) as [->|Nij].
    + destruct (Rle_dec (K j) t); [|lra]. destruct (Rlt_dec t (K (j + 1)%nat)); lra.
    + destruct (Rle_dec (K i) t) as [L|]; [|reflexivity]. destruct (Rlt_dec t (K (i + 1)%nat)) as [L2|]; [|reflexivity]. exfalso.
      destruct (Nat.lt_total i j) as [L3|[L3|L3]]; [|contradiction|].
      * pose proof (mono (i + 1) j ltac:(lia)). lra.
      * pose proof (mono (j + 1) i ltac:(lia)). lra.
  - rewrite !IH by (try assumption; lia). reflexivity.
Qed.

Lemma quot_self a : a <> 0 -> quot a a = 1. Proof. intros H. rewrite quot_ok by exact H. field. exact H. Qed.
Lemma quot_zero b : quot 0 b = 0. Proof. unfold quot. destruct (Req_EM_T b 0); [reflexivity|]. unfold Rdiv. ring. Qed.

(** At the knot after the piece, when this knot has multiplicity [p] at least. *)
Lemma piece_at_end j p i : K j < K (j + 1)%nat -> (forall k, (1 <= k <= p)%nat -> K (j + k)%nat = K (j + 1)%nat) ->
  piece_basis K j p i (K (j + 1)%nat) = if Nat.eqb i j then 1 else 0.
Proof.
  revert i. induction p as [|p IH]; intros i L E; [reflexivity|]. cbn [piece_basis].
  rewrite !IH by (try assumption; intros k Hk; apply E; lia).
  destruct (Nat.eqb_spec i j) as [->|N1].
  - destruct (Nat.eqb_spec (j + 1) j); [lia|]. rewrite (E (S p)) by lia. rewrite quot_self by lra. ring.
  - destruct (Nat.eqb_spec (i + 1) j) as [E1|]; [|ring].
    replace (i + S p + 1)%nat with (j + S p)%nat by lia. rewrite (E (S p)) by lia. replace (K (j + 1)%nat - K (j + 1)%nat) with 0 by ring.
    rewrite quot_zero. ring.
Qed.
(** At a simple knot the two pieces agree. *)
Lemma piece_seam j p : forall i, K j < K (j + 1)%nat -> K (j + 1)%nat < K (j + 2)%nat ->
  piece_basis K j (S p) i (K (j + 1)%nat) = piece_basis K (j + 1) (S p) i (K (j + 1)%nat).
Proof.
  induction p as [|p IH]; intros i L1 L2.
  - rewrite piece_at_end by (try assumption; intros k Hk; f_equal; lia). cbn [piece_basis].
    destruct (Nat.eqb_spec i (j + 1)) as [->|N1].
    + destruct (Nat.eqb_spec (j + 1) j); [lia|]. destruct (Nat.eqb_spec (j + 1 + 1) (j + 1)); [lia|].
      replace (K (j + 1)%nat - K (j + 1)%nat) with 0 by ring. rewrite quot_zero. ring.
    + destruct (Nat.eqb_spec i j) as [->|N2].
      * rewrite Nat.eqb_refl. replace (j + 1 + 1)%nat with (j + 2)%nat by lia. rewrite (quot_self (K (j + 2)%nat - K (j + 1)%nat)) by lra. ring.
      * destruct (Nat.eqb_spec (i + 1) (j + 1)); [lia|]. ring.
  - cbn [piece_basis] in *. rewrite !IH by assumption. reflexivity.
Qed.
End Knots.

Lemma quot_left_continuous a b : continuity (fun t => quot (t - a) b).
Proof.
  unfold quot. destruct (Req_EM_T b 0) as [E|E]; [apply continuity_const; intros u v; reflexivity|].
  unfold Rdiv. apply derivable_continuous. reg.
Qed.
Lemma quot_right_continuous a b : continuity (fun t => quot (a - t) b).
Proof.
  unfold quot. destruct (Req_EM_T b 0) as [E|E]; [apply continuity_const; intros u v; reflexivity|].
  unfold Rdiv. apply derivable_continuous. reg.
Qed.
Lemma piece_continuous K j p : forall i, continuity (piece_basis K j p i).
Proof.
  induction p as [|p IH]; intros i; cbn [piece_basis]; [apply continuity_const; intros u v; reflexivity|].
  apply (continuity_plus (fun t => _ * _) (fun t => _ * _)).
  - apply (continuity_mult (fun t => quot (t - K i) _)); [apply quot_left_continuous|apply IH].
  - apply (continuity_mult (fun t => quot (_ - t) _)); [apply quot_right_continuous|apply IH].
Qed.
Lemma sum_continuous n (f : nat -> R) (g : nat -> R -> R) : (forall i, continuity (g i)) -> continuity (fun t => sumn n (fun i => f i * g i t)).
Proof.
  intros H. induction n as [|n IH]; cbn [sumn]; [apply continuity_const; intros u v; reflexivity|].
  apply (continuity_plus (fun t => sumn n _) (fun t => _ * _)); [exact IH|].
  apply (continuity_mult (fun _ => f n)); [apply continuity_const; intros u v; reflexivity|apply H].
Qed.

Lemma equal_at_end f g a b : a < b -> continuity f -> continuity g -> (forall x, a <= x < b -> f x = g x) -> f b = g b.
Proof.
  intros L Cf Cg E. destruct (Req_dec (f b) (g b)) as [|N]; [assumption|exfalso].
  pose proof (continuity_minus f g Cf Cg b) as C. set (e := Rabs (f b - g b)).
  assert (E0 : 0 < e) by (apply Rabs_pos_lt; lra).
  destruct (C e E0) as (d & D0 & H).
  set (x := Rmax a (b - d / 2)).
  assert (X : a <= x < b /\ Rabs (x - b) < d).
  { unfold x. split; [split; [apply Rmax_l|apply Rmax_lub_lt; lra]|].
    apply Rabs_def1; [assert (Rmax a (b - d / 2) < b) by (apply Rmax_lub_lt; lra); lra|].
    pose proof (Rmax_r a (b - d / 2)). lra. }
  destruct X as [X1 X2].
  assert (P : D_x no_cond b x /\ R_dist x b < d).
  { split; [split; [exact I|lra]|exact X2]. }
  specialize (H x P). unfold dist, R_met, R_dist in H. cbn in H. unfold minus_fct in H. rewrite (E x X1) in H.
  replace (g x - g x - (f b - g b)) with (- (f b - g b)) in H by ring. rewrite Rabs_Ropp in H. fold e in H. lra.
Qed.

Lemma curve_continuous c : continuity (fun t => vx (curve_point c t)) /\ continuity (fun t => vy (curve_point c t)).
Proof.
  destruct c as [[a b c]|[a b c d]]; unfold curve_point, quad_point_at_t, cubic_point_at_t, vadd, vscale; cbn; split; apply derivable_continuous; reg.
Qed.

Lemma spline_closed pts p s k c : p = 2%nat \/ p = 3%nat -> new_bspline pts p false None = Ok s ->
  (k < length pts - p)%nat -> (forall x, INR k <= x < INR k + 1 -> point_at_t s x false = Ok (curve_point c (x - INR k))) ->
  point_at_t s (INR k + 1) false = Ok (curve_point c 1).
Proof.
  intros Hp E Hk H.
  destruct (uniform_basis pts p false s E) as (Hn & Hl & Hso & HK & _).
  set (n := length pts) in *. set (K := knot (bs_knots s)) in *.
  assert (mono : forall i j, (i <= j <= n + p)%nat -> K i <= K j).
  { intros i j Hij. apply Hso. lia. }
  assert (KV : forall i, (i <= n + p)%nat -> K i = INR (Nat.min (i - p) (n - p))).
  { intros i Hi. apply HK. lia. }
  assert (V0 : forall t, K p <= t < K n -> point_at_t s t false = Ok (spline_point K p pts t)).
  { intros t Ht. destruct (evaluation_ok pts p false None s t E Hl Ht) as (ws & _ & E1 & E2). rewrite E1. f_equal. exact E2. }
  assert (Kp : K p = 0) by (rewrite KV by lia; replace (p - p)%nat with 0%nat by lia; reflexivity).
  assert (Kn : K n = INR (n - p)) by (rewrite KV by lia; f_equal; lia).
  set (j := (p + k)%nat).
  assert (Kj : K j = INR k) by (rewrite KV by (unfold j; lia); f_equal; unfold j; lia).
  assert (Kj1 : K (j + 1)%nat = INR k + 1).
  { rewrite KV by (unfold j; lia). rewrite <- S_INR. f_equal. unfold j; lia. }
  set (F := fun (co : vec -> R) t => sumn n (fun i => co (nth i pts (V 0 0)) * piece_basis K j p i t)).
  assert (Hin : forall co x, INR k <= x < INR k + 1 -> sumn n (fun i => co (nth i pts (V 0 0)) * basis K p i x) = F co x).
  { intros co x Hx. apply sumn_ext. intros i Hi. f_equal. apply (piece_inside K (n + p) mono j p i x); [lia|unfold j; lia|]. rewrite Kj, Kj1. exact Hx. }
  assert (Bk : INR k + 1 <= INR (n - p)) by (rewrite <- S_INR; apply le_INR; lia). pose proof (pos_INR k) as Pk.
  destruct (curve_continuous c) as [Cx Cy].
  assert (Sh : continuity (fun x => x - INR k)) by (apply derivable_continuous; reg).
  assert (Eq : F vx (INR k + 1) = vx (curve_point c 1) /\ F vy (INR k + 1) = vy (curve_point c 1)).
  { replace 1 with (INR k + 1 - INR k) at 2 4 by ring. split.
    - apply (equal_at_end (F vx) (fun x => vx (curve_point c (x - INR k))) (INR k)); [lra| | |].
      + apply sum_continuous. intros i. apply piece_continuous.
      + apply (continuity_comp (fun x => x - INR k) (fun t => vx (curve_point c t)) Sh Cx).
      + intros x Hx. rewrite <- Hin by exact Hx. assert (Q := H x Hx). rewrite V0 in Q by (rewrite Kp, Kn; lra). injection Q as Q. rewrite <- Q. reflexivity.
    - apply (equal_at_end (F vy) (fun x => vy (curve_point c (x - INR k))) (INR k)); [lra| | |].
      + apply sum_continuous. intros i. apply piece_continuous.
      + apply (continuity_comp (fun x => x - INR k) (fun t => vy (curve_point c t)) Sh Cy).
      + intros x Hx. rewrite <- Hin by exact Hx. assert (Q := H x Hx). rewrite V0 in Q by (rewrite Kp, Kn; lra). injection Q as Q. rewrite <- Q. reflexivity. }
  destruct Eq as [Ex Ey].
  destruct (Nat.eq_dec (S k) (n - p)) as [El|Nl].
  - assert (Te : INR k + 1 = INR (n - p)) by (rewrite <- El, S_INR; reflexivity). rewrite Te.
    destruct (uniform_ends pts p false s E) as [_ L]. fold n in L. rewrite L. f_equal.
    assert (Fl : forall co, F co (INR k + 1) = co (last pts (V 0 0))).
    { intros co. unfold F. rewrite <- Kj1.
      rewrite (sumn_ext n _ (fun i => co (nth i pts (V 0 0)) * (if Nat.eqb i j then 1 else 0))).
      2: { intros i Hi. f_equal. apply piece_at_end; [rewrite Kj, Kj1; lra|].
           intros q Hq. rewrite Kj1. rewrite KV by (unfold j; lia). rewrite <- S_INR. f_equal. unfold j; lia. }
      assert (Ej : (n = S j)%nat) by (unfold j; lia). rewrite Ej. cbn [sumn]. rewrite Nat.eqb_refl.
      rewrite sumn_0. 2: { intros i Hi. destruct (Nat.eqb_spec i j); [lia|ring]. }
      replace (last pts (V 0 0)) with (nth j pts (V 0 0)); [ring|].
      assert (Nn : pts <> []) by (intros ->; cbn in n; lia). destruct (exists_last Nn) as (m & z & Em).
      assert (Lm : length m = j) by (unfold n in Ej; rewrite Em, app_length in Ej; cbn in Ej; lia).
      rewrite Em, last_last, <- Lm. apply nth_middle. }
    rewrite (Fl vx) in Ex. rewrite (Fl vy) in Ey. apply vec_eq; [exact Ex|exact Ey].
  - rewrite V0. 2: { rewrite Kp, Kn. split; [lra|]. rewrite <- S_INR. apply lt_INR. lia. }
    f_equal. unfold spline_point. fold n.
    assert (Fs : forall co, sumn n (fun i => co (nth i pts (V 0 0)) * basis K p i (INR k + 1)) = F co (INR k + 1)).
    { intros co. apply sumn_ext. intros i Hi. f_equal.
      assert (Kj2 : K (j + 2)%nat = INR k + 2).
      { rewrite KV by (unfold j; lia). replace (Nat.min (j + 2 - p) (n - p)) with (S (S k)) by (unfold j; lia). rewrite !S_INR. ring. }
      rewrite (piece_inside K (n + p) mono (j + 1) p i); [|lia|unfold j; lia|].
      2: { replace (j + 1 + 1)%nat with (j + 2)%nat by lia. rewrite Kj1, Kj2. lra. }
      rewrite <- Kj1. destruct p as [|q]; [lia|]. symmetry. apply piece_seam; rewrite ?Kj, ?Kj1, ?Kj2; lra. }
    rewrite (Fs vx), (Fs vy), Ex, Ey. destruct (curve_point c 1); reflexivity.
Qed.

Lemma to_bezier_closed pts p s : p = 2%nat \/ p = 3%nat -> new_bspline pts p false None = Ok s ->
  exists curves, to_bezier s = Ok curves /\ length curves = (length pts - p)%nat /\
  forall k c x, nth_error curves k = Some c -> INR k <= x <= INR k + 1 -> point_at_t s x false = Ok (curve_point c (x - INR k)).
Proof.
  intros Hp E. destruct (to_bezier_points pts p s Hp E) as (l & El & Ll & H). exists l. split; [exact El|]. split; [exact Ll|].
  intros k c x Hk [X1 X2]. destruct (Rle_lt_or_eq_dec x (INR k + 1) X2) as [L| ->]; [apply (H k c x Hk); lra|].
  replace (INR k + 1 - INR k) with 1 by ring. apply (spline_closed pts p s k c Hp E).
  - rewrite <- Ll. apply nth_error_Some. congruence.
  - intros y Hy. apply (H k c y Hk Hy).
Qed.

Lemma unit_span n t : 0 <= t <= INR (S n) -> exists k, (k <= n)%nat /\ INR k <= t <= INR k + 1.
Proof.
  induction n as [|n IH]; intros H; [exists 0%nat; cbn in *; split; [lia|lra]|].
  destruct (Rle_lt_dec t (INR (S n))) as [L|L].
  - destruct IH as (k & Hk & B); [lra|]. exists k. split; [lia|exact B].
  - exists (S n). split; [lia|]. rewrite (S_INR (S n)) in H. lra.
Qed.

Lemma class_of_curves s l : to_bezier s = Ok l -> forall c, In c l ->
  match bs_degree s with
  | 2%nat => exists q, c = CQuadratic q
  | 3%nat => exists q, c = CCubic q
  | _ => True
  end.
Proof.
  unfold to_bezier. destruct (to_bezier_form s) as [u|]; [|discriminate]. cbn [bind].
  destruct (number_of_spans s) as [m|]; [|discriminate]. cbn [bind].
  generalize (seq 0 m). intros ns. revert l. induction ns as [|a ns IH]; intros l E c Hc; cbn [traverse] in E.
  - injection E as <-. destruct Hc.
  - destruct (make_curve (bs_degree s) _) as [d|] eqn:Ed; [|discriminate]. cbn [bind] in E.
    destruct (traverse _ ns) as [l'|] eqn:El; [|discriminate]. cbn [bind] in E. injection E as <-.
    destruct Hc as [<-|Hc]; [|exact (IH l' eq_refl c Hc)].
    destruct (bs_degree s) as [|[|[|[|]]]]; auto; cbn in Ed.
    + destruct (firstn _ _) as [|? [|? [|? [|? ?]]]]; try discriminate. injection Ed as <-. eauto.
    + destruct (firstn _ _) as [|? [|? [|? [|? [|? ?]]]]]; try discriminate. injection Ed as <-. eauto.
Qed.

Definition cubic_item (c : cubic) : shape := SCubic (PVector (c0 c)) (PVector (c1 c)) (PVector (c2 c)) (PVector (c3p c)).
Lemma add_cubics l : (forall c, In c l -> exists q, c = CCubic q) -> exists m, l = map CCubic m /\ add_curves l = (map cubic_item m, None).
Proof.
  induction l as [|c l IH]; intros H; [exists []; auto|].
  destruct (H c (or_introl eq_refl)) as (q & ->). destruct IH as (m & -> & E); [intros c Hc; apply H; right; exact Hc|].
  exists (q :: m). split; [reflexivity|]. cbn [add_curves]. rewrite E. reflexivity.
Qed.

Lemma cubic_item_covers k c x : covers (cast_position identity k) (cubic_item c) x <-> exists t, 0 <= t <= 1 /\ x = cubic_point_at_t c t.
Proof.
  unfold cubic_item, covers. rewrite !cast_vector. split.
  - intros (v1 & v2 & v3 & v4 & [= <-] & [= <-] & [= <-] & [= <-] & t & T & ->). exists t. split; [exact T|].
    destruct c; unfold cubic_point_at_t, vadd, vscale; cbn. f_equal; ring.
  - intros (t & T & ->). do 4 eexists. do 4 (split; [reflexivity|]). exists t. split; [exact T|].
    destruct c; unfold cubic_point_at_t, vadd, vscale; cbn. f_equal; ring.
Qed.

Lemma spline_covers pts s k : new_bspline pts 3 false None = Ok s -> exists l, add_geometry (Spline s) = (l, None) /\
  length l = (length pts - 3)%nat /\
  forall x, (exists sh, In sh l /\ covers (cast_position identity k) sh x) <->
            (exists t, 0 <= t <= INR (length pts - 3) /\ point_at_t s t false = Ok x).
Proof.
  intros E. destruct (to_bezier_closed pts 3 s (or_intror eq_refl) E) as (l & El & Ll & H).
  destruct (new_bspline_fields _ _ _ _ _ E) as (_ & Hd & _). pose proof (class_of_curves s l El) as Hc. rewrite Hd in Hc.
  destruct (add_cubics l Hc) as (m & -> & Ea). cbn [add_geometry]. unfold add_spline. rewrite El, Ea.
  exists (map cubic_item m). split; [reflexivity|]. rewrite map_length in *. split; [exact Ll|].
  destruct (uniform_basis pts 3 false s E) as (Hn & _). intros x. split.
  - intros (sh & Hs & Hx). apply in_map_iff in Hs. destruct Hs as (q & <- & Hq). apply cubic_item_covers in Hx. destruct Hx as (t & T & ->).
    apply In_nth_error in Hq. destruct Hq as (i & Hi). assert (Bi : (i < length m)%nat) by (apply nth_error_Some; congruence).
    pose proof (pos_INR i). assert (INR i + 1 <= INR (length pts - 3)) by (rewrite <- S_INR; apply le_INR; lia).
    exists (INR i + t). split; [lra|]. rewrite (H i (CCubic q)); [|rewrite nth_error_map, Hi; reflexivity|lra].
    replace (INR i + t - INR i) with t by ring. reflexivity.
  - intros (t & T & Ep). destruct (length pts - 3)%nat as [|n] eqn:En; [lia|].
    destruct (unit_span n t T) as (i & Hi & B). destruct (nth_error m i) as [q|] eqn:Eq.
    2: { apply nth_error_None in Eq. lia. }
    exists (cubic_item q). split; [apply in_map, (nth_error_In m i Eq)|]. apply cubic_item_covers. exists (t - INR i). split; [lra|].
    rewrite (H i (CCubic q)) in Ep; [|rewrite nth_error_map, Eq; reflexivity|exact B]. injection Ep as Ep. symmetry. exact Ep.
Qed.
Lemma quadratic_spline pts s : new_bspline pts 2 false None = Ok s -> add_geometry (Spline s) = ([], Some TypeError).
Proof.
  intros E. destruct (to_bezier_closed pts 2 s (or_introl eq_refl) E) as (l & El & Ll & H).
  destruct (new_bspline_fields _ _ _ _ _ E) as (_ & Hd & _). pose proof (class_of_curves s l El) as Hc. rewrite Hd in Hc.
  destruct (uniform_basis pts 2 false s E) as (Hn & _). cbn [add_geometry]. unfold add_spline. rewrite El.
  destruct l as [|c l]; [cbn in Ll; lia|]. destruct (Hc c (or_introl eq_refl)) as (q & ->). reflexivity.
Qed.
