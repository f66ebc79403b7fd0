(** The point of a B-spline whose control points are transformed, Patro/GeometryEngine/Spline.py 191-373. *)
From Coq Require Import Reals List ZArith Lra Lia.
From Verif Require Import Base ModelVector ModelBezier ModelSpline ModelPrimitive SpecPrimitive.
Import ListNotations.
Local Open Scope R_scope.
Local Open Scope result_scope.

Section Image.
Variable f : vec -> vec.
Hypothesis affine : affine_map f.

Definition lift (r : result vec) : result vec := match r with Ok p => Ok (f p) | Raise e => Raise e end.
Definition lifts (r : result (list vec)) : result (list vec) := match r with Ok p => Ok (map f p) | Raise e => Raise e end.
Definition moved (s : bspline) : bspline := BS (map f (bs_points s)) (bs_degree s) (bs_closed s) (bs_knots s) (bs_uniform s).

Lemma f_mix p q a : f (vadd (vscale p (1 - a)) (vscale q a)) = vadd (vscale (f p) (1 - a)) (vscale (f q) a).
Proof.
  destruct affine as (m11 & m12 & m21 & m22 & u & v & H). rewrite !H. unfold vadd, vscale. cbn [vx vy]. f_equal; ring.
Qed.
Lemma py_get_map l i : py_get (map f l) i = lift (py_get l i).
Proof.
  unfold py_get. rewrite map_length. destruct (0 <=? i)%Z.
  - rewrite nth_error_map. destruct (nth_error l (Z.to_nat i)); reflexivity.
  - destruct (0 <=? Z.of_nat (length l) + i)%Z; [|reflexivity]. rewrite nth_error_map.
    destruct (nth_error l (Z.to_nat (Z.of_nat (length l) + i))); reflexivity.
Qed.
Lemma update_map j p l : update j (f p) (map f l) = map f (update j p l).
Proof. revert j. induction l as [|x l IH]; intros [|j]; cbn; try reflexivity. rewrite IH. reflexivity. Qed.
Lemma for_loop_map {A} (b b' : A -> list vec -> result (list vec)) l : (forall x p, b' x (map f p) = lifts (b x p)) ->
  forall p, for_loop b' l (map f p) = lifts (for_loop b l p).
Proof.
  intro H. induction l as [|x l IH]; intro p; cbn [for_loop]; [reflexivity|]. rewrite H.
  destruct (b x p) as [q|e]; cbn [bind lifts]; [apply IH|reflexivity].
Qed.
Lemma traverse_map {A} (g g' : A -> result vec) l : (forall x, g' x = lift (g x)) -> traverse g' l = lifts (traverse g l).
Proof.
  intro H. induction l as [|x l IH]; cbn [traverse]; [reflexivity|]. rewrite H. destruct (g x); cbn [bind lift lifts]; [|reflexivity].
  rewrite IH. destruct (traverse g l); reflexivity.
Qed.
Lemma body_map knots l d t r j p : deboor_body knots l d t r j (map f p) = lifts (deboor_body knots l d t r j p).
Proof.
  unfold deboor_body. destruct (py_get knots _) as [a|]; cbn [bind]; [|reflexivity].
  destruct (py_get knots _) as [b|]; cbn [bind]; [|reflexivity]. rewrite !py_get_map.
  set (al := if Reqb (a - b) 0 then 0 else (t - b) / (a - b)). clearbody al.
  destruct (py_get p (Z.of_nat j - 1)) as [x|e], (py_get p (Z.of_nat j)) as [y|e']; cbn [bind lift];
    destruct (Reqb al 0), (Reqb al 1); cbn [bind lifts]; rewrite <- ?f_mix, ?update_map; reflexivity.
Qed.
Lemma span_moved s t : span (moved s) t = span s t.
Proof. unfold span, start_knot, end_knot, moved. cbn [bs_points bs_degree bs_knots bs_uniform]. rewrite map_length. reflexivity. Qed.
Lemma deboor_moved s t : deboor (moved s) t = lift (deboor s t).
Proof.
  unfold deboor. rewrite span_moved. destruct (span s t) as [[l|]|e]; cbn [bind]; [|reflexivity..].
  unfold order, moved. cbn [bs_points bs_degree bs_knots].
  rewrite (traverse_map (fun j => py_get (bs_points s) (Z.of_nat j + (l - Z.of_nat (bs_degree s))))) by (intro; apply py_get_map).
  destruct (traverse _ _) as [p|e]; cbn [bind lifts]; [|reflexivity].
  rewrite (for_loop_map (fun r points => for_loop (fun j points => deboor_body (bs_knots s) l (bs_degree s) t r j points)
    (rev (seq r (bs_degree s + 1 - r))) points)) by (intros; apply for_loop_map; intros; apply body_map).
  destruct (for_loop _ _ p) as [q|e]; cbn [bind lifts]; [|reflexivity]. apply py_get_map.
Qed.
Lemma basis_moved s k : forall i t, basis_function (moved s) k i t = basis_function s k i t.
Proof.
  induction k as [|k IH]; intros i t; cbn [basis_function]; [reflexivity|]. change (bs_knots (moved s)) with (bs_knots s).
  rewrite !IH. reflexivity.
Qed.
Lemma naive_moved s t : naive_point_at_t (moved s) t = lift (naive_point_at_t s t).
Proof.
  unfold naive_point_at_t. change (bs_degree (moved s)) with (bs_degree s). unfold moved at 2. cbn [bs_points]. rewrite map_length.
  assert (E : forall l, traverse (fun i => basis_function (moved s) (bs_degree s) i t) l = traverse (fun i => basis_function s (bs_degree s) i t) l).
  { induction l as [|x l IH]; cbn [traverse]; [reflexivity|]. rewrite basis_moved, IH. reflexivity. }
  rewrite E. destruct (traverse _ _); reflexivity.
Qed.
Lemma point_moved s t naive : point_at_t (moved s) t naive = lift (point_at_t s t naive).
Proof.
  unfold point_at_t. rewrite deboor_moved, naive_moved.
  unfold end_knot. change (bs_uniform (moved s)) with (bs_uniform s).
  change (bs_points (moved s)) with (map f (bs_points s)). change (bs_degree (moved s)) with (bs_degree s). change (bs_knots (moved s)) with (bs_knots s).
  rewrite map_length, !py_get_map. destruct (bs_uniform s); [|destruct naive; reflexivity].
  destruct (Reqb t 0); [reflexivity|]. cbn [bind]. destruct (Reqb t _); [reflexivity|]. destruct naive; reflexivity.
Qed.
Lemma new_moved points degree closed knots : new_bspline (map f points) degree closed knots =
  match new_bspline points degree closed knots with Ok s => Ok (moved s) | Raise e => Raise e end.
Proof.
  unfold new_bspline. destruct knots as [k|]; [destruct (negb _); reflexivity|]. rewrite map_length.
  destruct (uniform_knots _ _); reflexivity.
Qed.
Lemma weight_point l i w : insert_point (map f l) i w = lift (insert_point l i w).
Proof.
  unfold insert_point. rewrite !py_get_map. destruct (py_get l (Z.of_nat i - 1)), (py_get l (Z.of_nat i)); cbn [bind lift];
    destruct (Reqb w 0), (Reqb w 1); cbn [bind lift]; rewrite <- ?f_mix; reflexivity.
Qed.
Lemma insert_moved s t : insert_knot (moved s) t = match insert_knot s t with Ok s => Ok (moved s) | Raise e => Raise e end.
Proof.
  unfold insert_knot. rewrite span_moved. destruct (span s t) as [[l|]|e]; cbn [bind]; [|reflexivity..].
  change (bs_degree (moved s)) with (bs_degree s). change (bs_knots (moved s)) with (bs_knots s).
  change (bs_points (moved s)) with (map f (bs_points s)). rewrite map_length.
  rewrite (traverse_map (fun i => w <- insert_weight (bs_knots s) (bs_degree s) l t i;; insert_point (bs_points s) i w)).
  - destruct (traverse _ _) as [p|e]; cbn [bind lifts]; [|reflexivity]. apply new_moved.
  - intro i. destruct (insert_weight _ _ _ _ _); cbn [bind lift]; [apply weight_point|reflexivity].
Qed.
Lemma spline_image points degree closed knots s : new_bspline points degree closed knots = Ok s ->
  exists s', new_bspline (map f points) degree closed knots = Ok s' /\
    (forall t naive, point_at_t s' t naive = match point_at_t s t naive with Ok p => Ok (f p) | Raise e => Raise e end) /\
    (forall t, insert_knot s' t = match insert_knot s t with
       | Ok r => Ok (BS (map f (bs_points r)) (bs_degree r) (bs_closed r) (bs_knots r) (bs_uniform r)) | Raise e => Raise e end).
Proof.
  intro H. exists (moved s). rewrite new_moved, H. split; [reflexivity|]. split; [exact (point_moved s)|exact (insert_moved s)].
Qed.
End Image.
