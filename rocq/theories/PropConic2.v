(** Further theorems on C30, C74, C75: the domain of an arc, the circle through a point, its ends and its area, the matrix of an ellipse. *)
From Coq Require Import Reals List Lra Lia.
From Coquelicot Require Import Coquelicot.
From Verif Require Import Base ModelVector ModelTransformation ModelLine ModelBezier ModelConic.
From Verif Require Import SpecVector SpecLine SpecConic GlueConic.
From Verif Require Import ProofVector ProofConic ProofConic2 ProofConic3 ProofEllipse ProofArc.
Import ListNotations.
Local Open Scope R_scope.

(** C30.  The kinds of domains: [s] and [e] are the ends. *)
Theorem C30_kinds : forall s e,
  (d_is_null (Dom s e) = true <-> s = e) /\
  (d_is_closed (Dom s e) = true <-> (360 <= e - s \/ 360 <= s - e)) /\
  (d_is_over_closed (Dom s e) = true <-> (360 < e - s \/ 360 < s - e)) /\
  (d_is_counterclockwise (Dom s e) = true <-> s <= e) /\
  (d_is_clockwise (Dom s e) = true <-> e < s).
Proof.
  intros s e. unfold d_is_null, d_is_closed, d_is_over_closed, d_is_counterclockwise, d_is_clockwise, d_span. cbn [d_start d_stop].
  assert (A : Rabs (e - s) = e - s /\ s <= e \/ Rabs (e - s) = s - e /\ e < s).
  { destruct (Rle_lt_dec s e); [left|right]; split; auto; [rewrite Rabs_pos_eq | rewrite Rabs_left]; lra. }
  repeat split; intros H; repeat match type of H with context [Reqb ?a ?b] => destruct (Reqb_spec a b) | context [Rleb ?a ?b] => destruct (Rleb_spec a b) |
    context [Rltb ?a ?b] => destruct (Rltb_spec a b) end; try discriminate;
  repeat match goal with |- context [Reqb ?a ?b] => destruct (Reqb_spec a b) | |- context [Rleb ?a ?b] => destruct (Rleb_spec a b) |
    |- context [Rltb ?a ?b] => destruct (Rltb_spec a b) end; try reflexivity; exfalso + idtac; try (destruct A; lra); lra.
Qed.
Print Assumptions C30_kinds.
Example C30_kinds_case : d_is_closed (Dom 10 370) = true /\ d_is_over_closed (Dom 10 370) = false /\ d_is_clockwise (Dom 90 0) = true.
Proof. repeat split; [apply (C30_kinds 10 370); lra | | apply (C30_kinds 90 0); lra].
  destruct (d_is_over_closed (Dom 10 370)) eqn:E; [|reflexivity]. apply (C30_kinds 10 370) in E. lra. Qed.

(** C74.  The circle from its centre and a point is the whole circle through this point. *)
Theorem C74_from_two_points : forall o p, let c := circle_from_two_points o p in
  c_center c = o /\ on_circle o (c_radius c) p /\ c_domain c = None.
Proof.
  intros o p. cbn. split; [reflexivity|]. split; [|reflexivity]. unfold on_circle. rewrite magnitude_len, len_dist0. apply dist_sym.
Qed.
Print Assumptions C74_from_two_points.
(** The ends of an arc are its points at the angles of its domain; a whole circle has none. *)
Theorem C74_ends : forall c, match c_domain c with
  | None => circle_start_point c = None /\ circle_stop_point c = None
  | Some d => exists p q, circle_start_point c = Some p /\ circle_stop_point c = Some q /\
      polar (c_center c) (c_radius c) (d_start d) p /\ polar (c_center c) (c_radius c) (d_stop d) q
  end.
Proof.
  intros c. unfold circle_start_point, circle_stop_point. destruct (c_domain c) as [d|]; cbn [option_map]; [|split; reflexivity].
  eexists _, _. split; [reflexivity|]. split; [reflexivity|]. split; apply circle_point_ok.
Qed.
Print Assumptions C74_ends.
(** The area is the one swept by the vector from the origin to a point which turns on the circle once: half the integral of x dy - y dx. *)
Theorem C74_area : forall c,
  is_RInt (fun a => (vx (circle_point_at_angle c a) * Derive (fun b => vy (circle_point_at_angle c b)) a -
                     vy (circle_point_at_angle c a) * Derive (fun b => vx (circle_point_at_angle c b)) a) / 2) 0 360 (circle_area c).
Proof.
  intros c. set (k := PI / 180). set (r := c_radius c). set (x := vx (c_center c)). set (y := vy (c_center c)).
  assert (PX : forall a, vx (circle_point_at_angle c a) = x + r * cos (k * a)).
  { intros a. destruct (circle_point_ok c a) as [E _]. rewrite E. unfold rad, k, x, r. do 3 f_equal. field. }
  assert (PY : forall a, vy (circle_point_at_angle c a) = y + r * sin (k * a)).
  { intros a. destruct (circle_point_ok c a) as [_ E]. rewrite E. unfold rad, k, y, r. do 3 f_equal. field. }
  assert (DX : forall a, Derive (fun b => vx (circle_point_at_angle c b)) a = - (r * k * sin (k * a))).
  { intros a. rewrite (Derive_ext _ (fun b => x + r * cos (k * b))) by exact PX. apply is_derive_unique. auto_derive; [exact I|]. ring. }
  assert (DY : forall a, Derive (fun b => vy (circle_point_at_angle c b)) a = r * k * cos (k * a)).
  { intros a. rewrite (Derive_ext _ (fun b => y + r * sin (k * b))) by exact PY. apply is_derive_unique. auto_derive; [exact I|]. ring. }
  apply is_RInt_ext with (f := fun a => k * r * (r + x * cos (k * a) + y * sin (k * a)) / 2).
  { intros a _. rewrite PX, PY, DX, DY. pose proof (sin2_cos2 (k * a)) as H. unfold Rsqr in H.
    replace (k * r * (r + x * cos (k * a) + y * sin (k * a)) / 2) with (k * r * (r * 1 + x * cos (k * a) + y * sin (k * a)) / 2) by field.
    rewrite <- H. match goal with |- ?a = ?b => change (@eq R a b) end. field. }
  set (F := fun a => (r ^ 2 * k * a + r * x * sin (k * a) - r * y * cos (k * a)) / 2).
  assert (E : circle_area c = minus (F 360) (F 0)).
  { unfold minus, plus, opp, F. cbn -[cos sin pow]. unfold circle_area. fold r.
    replace (k * 360) with (2 * PI) by (unfold k; field). replace (k * 0) with 0 by ring. rewrite cos_2PI, sin_2PI, cos_0, sin_0. unfold k. field. }
  rewrite E. apply (is_RInt_derive F).
  - intros a _. unfold F. auto_derive; [exact I|]. field.
  - intros a _. apply (ex_derive_continuous (fun a => k * r * (r + x * cos (k * a) + y * sin (k * a)) / 2)). auto_derive. exact I.
Qed.
Print Assumptions C74_area.

(** C75.  The matrix: with the abscissa u along the first axis and v along the second one, the value at a point should be
    (ry u)^2 + (rx v)^2 - (rx ry)^2; two coefficients are wrong. *)
Theorem C75_matrix_partial : forall e q u v, frame (e_center e) (e_angle e) q u v ->
  let c := cos (rad (e_angle e)) in let s := sin (rad (e_angle e)) in let a := e_rx e in let b := e_ry e in
  let x := vx q - vx (e_center e) in let y := vy q - vy (e_center e) in
  let m := ellipse_matrix e in m10 m = m01 m /\ m20 m = m02 m /\ m21 m = m12 m /\
  conic_value m q = (b * u) ^ 2 + (a * v) ^ 2 - (a * b) ^ 2 +
    a ^ 2 * (s - s ^ 2) * x ^ 2 + ((a * b * c * s) ^ 2 - (a * c) ^ 2 - (b * s) ^ 2) * y ^ 2.
Proof.
  intros e q u v [X Y]. cbv zeta. set (c := cos (rad (e_angle e))) in *. set (s := sin (rad (e_angle e))) in *.
  assert (T : s ^ 2 = 1 - c ^ 2). { unfold s, c. pose proof (sin2_cos2 (rad (e_angle e))) as H. unfold Rsqr in H. lra. }
  split; [reflexivity|]. split; [reflexivity|]. split; [reflexivity|].
  unfold conic_value, ellipse_matrix. cbv zeta. cbn [m00 m01 m02 m10 m11 m12 m20 m21 m22]. rewrite radians_rad. fold c s.
  set (xc := vx (e_center e)) in *. set (yc := vy (e_center e)) in *. set (a := e_rx e). set (b := e_ry e).
  assert (U : u = c * (vx q - xc) + s * (vy q - yc)).
  { rewrite X, Y. replace (c * (xc + u * c - v * s - xc) + s * (yc + u * s + v * c - yc)) with (u * (c ^ 2 + s ^ 2)) by ring. rewrite T. ring. }
  assert (W : v = c * (vy q - yc) - s * (vx q - xc)).
  { rewrite X, Y. replace (c * (yc + u * s + v * c - yc) - s * (xc + u * c - v * s - xc)) with (v * (c ^ 2 + s ^ 2)) by ring. rewrite T. ring. }
  rewrite U, W. field.
Qed.
Print Assumptions C75_matrix_partial.
Example C75_matrix_case : frame (V 1 2) 0 (V 4 2) 3 0.
Proof. unfold frame. cbn. rewrite rad_0, cos_0, sin_0. split; ring. Qed.
(** The vectors of the axes take the angle for a length and the radius for an angle. *)
Theorem C75_vectors_refuted : forall e,
  polar (V 0 0) (e_angle e) (e_rx e) (major_vector e) /\ polar (V 0 0) (e_angle e + 90) (e_ry e) (minor_vector e).
Proof.
  intros e. unfold polar, major_vector, minor_vector, from_polar, from_angle, vscale. cbn [vx vy]. rewrite !radians_rad. repeat split; ring.
Qed.
Print Assumptions C75_vectors_refuted.
(** The constructor: a diameter is twice a radius; a distance longer than the circle gives the whole circle. *)
Theorem C74_made : forall o r s l dom, new_circle o r dom false None = Ok (Circ o r dom) /\
  new_circle o (2 * r) dom true None = Ok (Circ o r dom) /\
  new_circle o (2 * r) dom true (Some (s, l)) = new_circle o r dom false (Some (s, l)) /\
  (2 * PI * r < l -> new_circle o r dom false (Some (s, l)) = Ok (Circ o r None)) /\
  (l <= 2 * PI * r -> forall c, new_circle o r dom false (Some (s, l)) = Ok c -> exists d, c_domain c = Some d).
Proof.
  intros o r s l dom. unfold new_circle. cbv zeta iota. replace (2 * r / 2) with r by field. repeat split.
  - intros H. rewrite Rltb_true by exact H. reflexivity.
  - intros H c E. rewrite Rltb_false in E by exact H. destruct (fdiv l r) as [q|x]; cbn [bind] in E; [|discriminate].
    injection E as <-. eexists. reflexivity.
Qed.
Print Assumptions C74_made.
