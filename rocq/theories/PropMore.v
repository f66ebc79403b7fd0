(** Further theorems on C12, C13, C17, C51, C56, C61, C71, C126, C137: what single queries answer. *)
From Coq Require Import String Reals List Lra Lia.
From Verif Require Import Base ModelVector ModelLine ModelBezier ModelUnits ModelTex ModelPolygon ModelTriangle ModelArrow ModelFormula.
From Verif Require Import SpecVector SpecLine SpecBezier SpecTex.
From Verif Require Import ProofVector ProofBezier ProofTex ProofMore.
From Verif Require PropTex ModelPath.
Import ListNotations.
Local Open Scope string_scope.
Local Open Scope list_scope.
Local Open Scope R_scope.

(** C12.  The middle is at half the distance from both points; the absolute value is the vector of the first quadrant of the same length which
    differs by signs only. *)
Theorem C12_middle : forall a b, dist a (vmiddle a b) = dist a b / 2 /\ dist b (vmiddle a b) = dist a b / 2.
Proof.
  intros a b. split; apply sq_eq_nonneg; try apply dist_nonneg; try (pose proof (dist_nonneg a b); lra).
  - replace (dist a b / 2 * (dist a b / 2)) with (dist a b * dist a b / 4) by field. rewrite !dist_sq. unfold vmiddle, vscale, vadd. cbn [vx vy]. field.
  - replace (dist a b / 2 * (dist a b / 2)) with (dist a b * dist a b / 4) by field. rewrite !dist_sq. unfold vmiddle, vscale, vadd. cbn [vx vy]. field.
Qed.
Print Assumptions C12_middle.
Theorem C12_abs : forall a, 0 <= vx (vabs a) /\ 0 <= vy (vabs a) /\ (vx (vabs a) = vx a \/ vx (vabs a) = - vx a) /\ (vy (vabs a) = vy a \/ vy (vabs a) = - vy a).
Proof.
  intros a. unfold vabs. cbn [vx vy]. repeat split; try apply Rabs_pos.
  - destruct (Rle_lt_dec 0 (vx a)); [left; apply Rabs_pos_eq | right; apply Rabs_left]; lra.
  - destruct (Rle_lt_dec 0 (vy a)); [left; apply Rabs_pos_eq | right; apply Rabs_left]; lra.
Qed.
Print Assumptions C12_abs.

(** C13.  The question of orthogonality, of vectors and of lines, has the same tolerance on the dot product. *)
Theorem C13_is_orthogonal_partial : forall a b,
  (is_orthogonal a b = true <-> Rabs (vx a * vx b + vy a * vy b) <= 5 / 10 ^ 8) /\ (perpendicular a b -> is_orthogonal a b = true).
Proof.
  intros a b. assert (A : is_orthogonal a b = true <-> Rabs (vx a * vx b + vy a * vy b) <= 5 / 10 ^ 8).
  { unfold is_orthogonal, round7_is_zero, dot. destruct (Rleb_spec (Rabs (vx a * vx b + vy a * vy b)) (5 / 10 ^ 8)); split; auto; try discriminate; lra. }
  split; [exact A|]. intros P. apply A. rewrite P, Rabs_R0. lra.
Qed.
Print Assumptions C13_is_orthogonal_partial.
Theorem C13_line_is_orthogonal_partial : forall a b, line_is_orthogonal a b = true <-> Rabs (vx (l_v a) * vx (l_v b) + vy (l_v a) * vy (l_v b)) <= 5 / 10 ^ 8.
Proof. intros a b. apply C13_is_orthogonal_partial. Qed.
Print Assumptions C13_line_is_orthogonal_partial.
Example C13_orthogonal : is_orthogonal (V 1 2) (V (-4) 2) = true /\ is_orthogonal (V 1 2) (V 1 1) = false.
Proof.
  split; [apply C13_is_orthogonal_partial; unfold perpendicular; cbn [vx vy]; lra|].
  destruct (is_orthogonal (V 1 2) (V 1 1)) eqn:E; [|reflexivity]. apply C13_is_orthogonal_partial in E. cbn [vx vy] in E. rewrite Rabs_pos_eq in E by lra. lra.
Qed.

(** C17.  The normal at the start is the unit vector on the left of the motion. *)
Theorem C17_quadratic_normal0 : forall c, q0 c <> q1 c -> exists t n, quad_tangent0 c = Ok t /\ quad_normal0 c = Ok n /\ len n = 1 /\
  perpendicular t n /\ 0 < vx t * vy n - vy t * vx n.
Proof.
  intros c H. destruct (quad_tangent0_ok c H) as (w & E & L & _). exists w, (normal w). unfold quad_normal0. rewrite E. cbn.
  split; [reflexivity|]. split; [reflexivity|]. unfold normal, perpendicular, len in *. cbn [vx vy].
  assert (Q : vx w * vx w + vy w * vy w = 1).
  { rewrite <- (sqrt_sqrt (vx w * vx w + vy w * vy w)) by nra. rewrite L. ring. }
  repeat split; [|ring|nra]. replace (- vy w * - vy w + vx w * vx w) with 1 by lra. apply sqrt_1.
Qed.
Print Assumptions C17_quadratic_normal0.

(** C61.  The interpolated length is that of a broken line whose vertices are on the curve, from its start to its end, at parameters which
    increase by at most dt. *)
Theorem C61_broken : forall f dt, 0 < dt -> exists ts n, steps dt 0 ts /\ forall m, (n <= m)%nat -> interpolated_length m f dt = Ok (broken f 0 ts).
Proof. exact interpolated_broken. Qed.
Print Assumptions C61_broken.
(** By default a curve run at constant speed on its chord has vertices 1/20 apart; a curve whose ends are the same has no default. *)
Theorem C61_default : forall a b,
  (a <> b -> exists dt, default_dt a b = Ok dt /\ 0 < dt /\ dt * dist a b = 1 / 20) /\ default_dt a a = Raise ZeroDivisionError.
Proof.
  intros a b. unfold default_dt. rewrite !magnitude_len, !len_dist0. split.
  - intros N. assert (D : 0 < dist b a).
    { destruct (Rle_lt_or_eq_dec 0 (dist b a) (dist_nonneg b a)) as [L|L]; [exact L|]. exfalso. apply N.
      pose proof (dist_sq b a) as S. rewrite <- L in S. destruct a as [x y], b as [z t]. cbn [vx vy] in S.
      pose proof (Rle_0_sqr (x - z)) as U. pose proof (Rle_0_sqr (y - t)) as W. unfold Rsqr in U, W.
      assert (X : x - z = 0) by (apply Rsqr_0_uniq; unfold Rsqr; nra). assert (Y : y - t = 0) by (apply Rsqr_0_uniq; unfold Rsqr; nra).
      f_equal; lra. }
    unfold fdiv. destruct (Reqb_spec (dist b a) 0); [lra|]. eexists. split; [reflexivity|].
    split; [apply Rdiv_lt_0_compat; lra|]. rewrite (dist_sym a b). field. lra.
  - replace (dist a a) with 0; [unfold fdiv; rewrite Reqb_refl; reflexivity|].
    symmetry. apply sq_eq_nonneg; [apply dist_nonneg|lra|]. rewrite dist_sq. ring.
Qed.
Print Assumptions C61_default.

(** C51.  The sides in inches *)
Theorem C51_inches : forall p, height_in p * 25.4 = p_height p /\ width_in p * 25.4 = p_width p.
Proof. intros p. unfold height_in, width_in. split; field; lra. Qed.
Print Assumptions C51_inches.

(** C71.  The other test, which nothing calls: it raises exactly when an edge crosses the horizontal line of the point, and otherwise answers
    no. *)
Theorem C71_crossing_refuted : forall edges q, let up a b := vy a <= vy q < vy b in
  (crossing_number_test edges q = Raise AttributeError /\ exists e, In e edges /\ (up (s_p0 e) (s_p1 e) \/ up (s_p1 e) (s_p0 e))) \/
  (crossing_number_test edges q = Ok false /\ forall e, In e edges -> ~ up (s_p0 e) (s_p1 e) /\ ~ up (s_p1 e) (s_p0 e)).
Proof.
  intros edges q. cbv zeta. unfold crossing_number_test. cbv zeta. induction edges as [|e l IH].
  - right. split; [reflexivity|]. intros e [].
  - cbn [traverse bind].
    destruct (Rleb_spec (vy (s_p0 e)) (vy q)), (Rltb_spec (vy q) (vy (s_p1 e))), (Rleb_spec (vy (s_p1 e)) (vy q)), (Rltb_spec (vy q) (vy (s_p0 e))); cbn [andb orb bind];
    try (left; split; [reflexivity|]; exists e; split; [left; reflexivity|]; lra);
    (destruct IH as [[E (x & I & U)] | [E N]];
     [left; split; [|exists x; split; [right; exact I|exact U]]; revert E; destruct (traverse _ l); cbn; congruence
     |right; split; [revert E; destruct (traverse _ l); cbn; congruence|]; intros x [<- | I]; [lra|apply N; exact I]]).
Qed.
Print Assumptions C71_crossing_refuted.

(** C126.  The three kinds of heads *)
Theorem C126_sides : forall h,
  (both_side h = true <-> h_left h = true /\ h_right h = true) /\ (only_left h = true <-> h_left h = true /\ h_right h = false) /\
  (only_right h = true <-> h_left h = false /\ h_right h = true).
Proof. intros h. unfold both_side, only_left, only_right. destruct (h_left h), (h_right h); cbn; intuition congruence. Qed.
Print Assumptions C126_sides.

(** C56.  The text of a new document *)
Theorem C56_new_document : forall h filename class_name class_options h' d, new_document h filename class_name class_options = (h', d) ->
  (forall i t, holds h i t -> holds h' i t) /\ d_stem d = stem filename /\ d_preambule d <> d_content d /\
  holds h' (Ref (d_preambule d)) (Node (d_preambule d) [] [] []) /\
  holds h' (Ref (d_content d)) (Node (d_content d) (lit "\begin{document}" ++ newline) (lit "\end{document}" ++ newline) []) /\
  exists n, forall m, (n <= m)%nat -> document_str m h' d =
    Ok (lit "\documentclass[" ++ class_options ++ lit "]{" ++ class_name ++ lit "}" ++ newline ++ lit "\begin{document}" ++ newline ++ lit "\end{document}" ++ newline).
Proof.
  intros h f c o h' d E. unfold new_document, new_buffer, new_environment in E. cbv zeta in E.
  injection E as E1 E2. subst h' d. cbn [d_stem d_preambule d_content].
  set (h' := (h ++ [Buffer [] [] []]) ++ _).
  assert (L : length (h ++ [Buffer [] [] []]) = S (length h)) by (rewrite app_length; cbn; lia).
  assert (HP : holds h' (Ref (length h)) (Node (length h) [] [] [])).
  { apply holds_buffer with (content := []); [|constructor]. unfold h'. rewrite nth_error_app1 by lia. rewrite nth_error_app2, Nat.sub_diag by lia. reflexivity. }
  assert (HC : holds h' (Ref (length (h ++ [Buffer [] [] []]))) (Node (length (h ++ [Buffer [] [] []])) (lit "\begin{document}" ++ newline) (lit "\end{document}" ++ newline) [])).
  { apply holds_buffer with (content := []); [|constructor]. unfold h'. rewrite nth_error_app2, Nat.sub_diag by lia. reflexivity. }
  repeat split; [| |exact HP|exact HC|].
  - intros i t H. unfold h'. do 2 apply extend_holds. exact H.
  - rewrite L. lia.
  - exact (PropTex.C56_document h' (Document (stem f) c o (length h) (length (h ++ [Buffer [] [] []]))) _ _ HP HC).
Qed.
Print Assumptions C56_new_document.

(** C27.  A path which begins by a curve cannot be closed with a rounded corner; without a radius it can. *)
Theorem C27_close_refuted : forall a q1 q2 q3 absolute k,
  ModelPath.draw (ModelPath.new_path a) [ModelPath.QuadraticTo q1 q2 absolute; ModelPath.Close None (Some k)] = Raise AttributeError /\
  ModelPath.draw (ModelPath.new_path a) [ModelPath.CubicTo q1 q2 q3 absolute; ModelPath.Close None (Some k)] = Raise AttributeError /\
  is_ok (ModelPath.draw (ModelPath.new_path a) [ModelPath.QuadraticTo q1 q2 absolute; ModelPath.Close None None]).
Proof. intros. split; [reflexivity|]. split; [reflexivity|]. eexists. reflexivity. Qed.
Print Assumptions C27_close_refuted.
