(** Intersections, ellipses, arcs given by their end points. *)
From Coq Require Import Reals List Lra Lia Psatz ZArith Bool.
From Verif Require Import Base ModelVector ModelTransformation ModelLine ModelBezier ModelConic.
From Verif Require Import SpecVector SpecLine SpecConic GlueConic ProofVector ProofSegment ProofConic.
Import ListNotations.
Local Open Scope R_scope.
Local Open Scope result_scope.

Lemma line_equation a b q : a <> b ->
  (aligned a b q <-> (vy b - vy a) * (vx q - vx a) - (vx b - vx a) * (vy q - vy a) = 0).
Proof.
  intro N. split.
  - intros (t & X & Y). rewrite X, Y. ring.
  - intro E. set (dx := vx b - vx a) in *. set (dy := vy b - vy a) in *.
    assert (P : dx * dx + dy * dy <> 0).
    { intro Z. apply sumsq0 in Z. apply N, vec_eq; unfold dx, dy in Z; lra. }
    exists ((dx * (vx q - vx a) + dy * (vy q - vy a)) / (dx * dx + dy * dy)). fold dx dy. split.
    + apply (Rmult_eq_reg_r (dx * dx + dy * dy)); [|exact P]. field_simplify; [|exact P].
      assert (dy * dx * (vy q - vy a) * 1 = dy * dy * (vx q - vx a)) by (transitivity (dy * (dx * (vy q - vy a))); [ring|]; replace (dx * (vy q - vy a)) with (dy * (vx q - vx a)) by lra; ring).
      nra.
    + apply (Rmult_eq_reg_r (dx * dx + dy * dy)); [|exact P]. field_simplify; [|exact P].
      assert (dx * (dy * (vx q - vx a)) = dx * (dx * (vy q - vy a))) by (f_equal; lra).
      nra.
Qed.

Lemma circle_equation c r q : dist c q = Rabs r <-> (vx q - vx c) ^ 2 + (vy q - vy c) ^ 2 = r ^ 2.
Proof.
  assert (E : r ^ 2 = Rabs r * Rabs r) by (rewrite <- Rabs_mult, Rabs_pos_eq by apply Rle_0_sqr; ring).
  pose proof (dist_sq c q) as D. split.
  - intro H. rewrite E, <- H, D. ring.
  - intro H. apply sq_eq_nonneg; [apply dist_nonneg|apply Rabs_pos|]. rewrite D, <- E, <- H. ring.
Qed.

Lemma solve_line_circle dx dy D r x y : dx ^ 2 + dy ^ 2 <> 0 ->
  (x ^ 2 + y ^ 2 = r ^ 2 /\ dy * x - dx * y = D <->
   exists u, u * u = r ^ 2 * (dx ^ 2 + dy ^ 2) - D ^ 2 /\
     x = (D * dy + dx * u) / (dx ^ 2 + dy ^ 2) /\ y = (- D * dx + dy * u) / (dx ^ 2 + dy ^ 2)).
Proof.
  intro N. split.
  - intros [C L]. exists (dx * x + dy * y). split; [rewrite <- C, <- L; ring|].
    split; rewrite <- L; field; exact N.
  - intros (u & U & -> & ->). split.
    + replace (((D * dy + dx * u) / (dx ^ 2 + dy ^ 2)) ^ 2 + ((- D * dx + dy * u) / (dx ^ 2 + dy ^ 2)) ^ 2)
        with ((D ^ 2 + u * u) / (dx ^ 2 + dy ^ 2)) by (field; exact N).
      rewrite U. field. exact N.
    + field. exact N.
Qed.

Lemma intersect_segment_ok c s : s_p0 s <> s_p1 s -> exists m, intersect_segment c s = Ok m /\
  (forall q, met m q <-> on_circle (c_center c) (Rabs (c_radius c)) q /\ aligned (s_p0 s) (s_p1 s) q) /\
  (forall p q, m = MTwo p q -> p <> q).
Proof.
  intro N. unfold intersect_segment. cbn zeta. set (p0 := s_p0 s) in *. set (p1 := s_p1 s) in *. set (c0 := c_center c). set (r := c_radius c).
  replace (vx (s_vector s)) with (vx p1 - vx p0) by reflexivity.
  replace (vy (s_vector s)) with (vy p1 - vy p0) by reflexivity.
  set (dx := vx p1 - vx p0). set (dy := vy p1 - vy p0).
  assert (P : dx ^ 2 + dy ^ 2 <> 0).
  { intro Z. assert (Z' : dx * dx + dy * dy = 0) by lra. apply sumsq0 in Z'. apply N, vec_eq; unfold dx, dy in Z'; lra. }
  set (D := cross (vsub p0 c0) (vsub p1 c0)).
  assert (ED : D = dy * (vx p0 - vx c0) - dx * (vy p0 - vy c0)) by (unfold D, cross, vsub, dx, dy; cbn; ring).
  assert (Key : forall q, on_circle c0 (Rabs r) q /\ aligned p0 p1 q <->
     exists u, u * u = r ^ 2 * (dx ^ 2 + dy ^ 2) - D ^ 2 /\
       vx q - vx c0 = (D * dy + dx * u) / (dx ^ 2 + dy ^ 2) /\ vy q - vy c0 = (- D * dx + dy * u) / (dx ^ 2 + dy ^ 2)).
  { intro q. rewrite <- (solve_line_circle dx dy D r (vx q - vx c0) (vy q - vy c0) P).
    unfold on_circle. rewrite circle_equation, (line_equation p0 p1 q N). fold dx dy.
    assert (T : dy * (vx q - vx p0) - dx * (vy q - vy p0) = dy * (vx q - vx c0) - dx * (vy q - vy c0) - D) by (rewrite ED; ring).
    rewrite T. split; intros [A B]; (split; [exact A|lra]). }
  set (disc := r ^ 2 * (dx ^ 2 + dy ^ 2) - D ^ 2) in *.
  destruct (Rltb_spec disc 0) as [L|L].
  { exists MNone. split; [reflexivity|]. split; [|discriminate]. intro q. rewrite Key. split; [intros []|].
    intros (u & U & _). pose proof (Rle_0_sqr u) as Q. unfold Rsqr in Q. lra. }
  destruct (Reqb_spec disc 0) as [Z|Z].
  { rewrite !fdiv_ok by exact P. cbn [bind]. eexists. split; [reflexivity|]. split; [|discriminate]. intro q. rewrite Key. cbn [met]. split.
    - intros ->. exists 0. cbn [vadd vx vy]. split; [lra|]. split; field; exact P.
    - intros (u & U & X & Y). rewrite Z in U. assert (u = 0) by (apply Rsqr_0_uniq; exact U). subst u.
      apply vec_eq; cbn [vadd vx vy]; [rewrite Rmult_0_r, Rplus_0_r in X|rewrite Rmult_0_r, Rplus_0_r in Y]; lra. }
  rewrite !fdiv_ok by exact P. cbn [bind]. eexists. split; [reflexivity|].
  assert (Pos : 0 < disc) by lra. assert (Sq : sqrt disc * sqrt disc = disc) by (apply sqrt_sqrt; lra).
  assert (Sp : 0 < sqrt disc) by (apply sqrt_lt_R0; exact Pos).
  set (g := sign dy). assert (Hg : g * g = 1) by (unfold g, sign; destruct (Rltb dy 0); ring).
  assert (Ha : Rabs dy = g * dy).
  { unfold g, sign. destruct (Rltb_spec dy 0); [rewrite Rabs_left by assumption|rewrite Rabs_pos_eq by lra]; ring. }
  rewrite Ha. split.
  - intro q. rewrite Key. cbn [met]. split.
    + intros [-> | ->]; [exists (- g * sqrt disc)|exists (g * sqrt disc)]; cbn [vadd vx vy];
        (split; [transitivity (g * g * (sqrt disc * sqrt disc)); [ring|rewrite Hg, Sq; ring]|]); split; field; exact P.
    + intros (u & U & X & Y).
      assert (F : (u - g * sqrt disc) * (u + g * sqrt disc) = 0).
      { replace ((u - g * sqrt disc) * (u + g * sqrt disc)) with (u * u - g * g * (sqrt disc * sqrt disc)) by ring.
        rewrite U, Hg, Sq. ring. }
      apply Rmult_integral in F. destruct F as [F|F].
      * right. assert (u = g * sqrt disc) by lra. subst u. apply vec_eq; cbn [vadd vx vy];
          [replace (vx q) with (vx q - vx c0 + vx c0) by ring; rewrite X|replace (vy q) with (vy q - vy c0 + vy c0) by ring; rewrite Y]; field; exact P.
      * left. assert (u = - g * sqrt disc) by lra. subst u. apply vec_eq; cbn [vadd vx vy];
          [replace (vx q) with (vx q - vx c0 + vx c0) by ring; rewrite X|replace (vy q) with (vy q - vy c0 + vy c0) by ring; rewrite Y]; field; exact P.
  - intros a b H E.
    pose proof (f_equal (fun m => match m with MTwo p _ => p | _ => c0 end) H) as Ha'. cbv beta iota in Ha'.
    pose proof (f_equal (fun m => match m with MTwo _ p => p | _ => c0 end) H) as Hb'. cbv beta iota in Hb'.
    rewrite <- Ha', <- Hb' in E. clear Ha' Hb' H.
    assert (E1 : (D * dy - g * dx * sqrt disc) / (dx ^ 2 + dy ^ 2) = (D * dy + g * dx * sqrt disc) / (dx ^ 2 + dy ^ 2)).
    { assert (X : vx (vadd (V ((D * dy - g * dx * sqrt disc) / (dx ^ 2 + dy ^ 2)) ((- D * dx - g * dy * sqrt disc) / (dx ^ 2 + dy ^ 2))) c0)
        = vx (vadd (V ((D * dy + g * dx * sqrt disc) / (dx ^ 2 + dy ^ 2)) ((- D * dx + g * dy * sqrt disc) / (dx ^ 2 + dy ^ 2))) c0)) by (rewrite E; reflexivity).
      cbn [vadd vx] in X. lra. }
    assert (E2 : (- D * dx - g * dy * sqrt disc) / (dx ^ 2 + dy ^ 2) = (- D * dx + g * dy * sqrt disc) / (dx ^ 2 + dy ^ 2)).
    { assert (X : vy (vadd (V ((D * dy - g * dx * sqrt disc) / (dx ^ 2 + dy ^ 2)) ((- D * dx - g * dy * sqrt disc) / (dx ^ 2 + dy ^ 2))) c0)
        = vy (vadd (V ((D * dy + g * dx * sqrt disc) / (dx ^ 2 + dy ^ 2)) ((- D * dx + g * dy * sqrt disc) / (dx ^ 2 + dy ^ 2))) c0)) by (rewrite E; reflexivity).
      cbn [vadd vy] in X. lra. }
    unfold Rdiv in E1, E2. apply Rmult_eq_reg_r in E1; [|apply Rinv_neq_0_compat; exact P].
    apply Rmult_eq_reg_r in E2; [|apply Rinv_neq_0_compat; exact P].
    assert (Zx : dx = 0).
    { assert (T : (g * sqrt disc) * dx = 0) by lra. apply Rmult_integral in T. destruct T as [T|T]; [|exact T].
      exfalso. apply Rmult_integral in T. destruct T as [T|T]; [rewrite T in Hg; lra|lra]. }
    assert (Zy : dy = 0).
    { assert (T : (g * sqrt disc) * dy = 0) by lra. apply Rmult_integral in T. destruct T as [T|T]; [|exact T].
      exfalso. apply Rmult_integral in T. destruct T as [T|T]; [rewrite T in Hg; lra|lra]. }
    apply P. rewrite Zx, Zy. ring.
Qed.
Lemma intersect_segment_null c s : s_p0 s = s_p1 s -> intersect_segment c s = Raise ZeroDivisionError.
Proof.
  intro E. unfold intersect_segment. cbn zeta. unfold s_vector. rewrite E.
  replace (vx (vsub (s_p1 s) (s_p1 s))) with 0 by (cbn; ring). replace (vy (vsub (s_p1 s) (s_p1 s))) with 0 by (cbn; ring).
  replace (cross (vsub (s_p1 s) (c_center c)) (vsub (s_p1 s) (c_center c))) with 0 by (unfold cross; ring).
  replace (c_radius c ^ 2 * (0 ^ 2 + 0 ^ 2) - 0 ^ 2) with 0 by ring. rewrite Rltb_false by lra. rewrite Reqb_refl.
  unfold fdiv at 1. replace (0 ^ 2 + 0 ^ 2) with 0 by ring. rewrite Reqb_refl. reflexivity.
Qed.
(** The points are those of the line: here none is on the segment. *)
Lemma intersect_segment_refuted : let c := Circ (V 0 0) 1 None in let s := Seg (V 2 0) (V 3 0) in
  exists p q, intersect_segment c s = Ok (MTwo p q) /\ p <> q /\ ~ on_segment s p /\ ~ on_segment s q.
Proof.
  intros c s. destruct (intersect_segment_ok c s) as (m & E & M & Dis).
  { cbn. intro H. injection H. lra. }
  assert (C1 : met m (V 1 0)).
  { apply M. split; [apply circle_equation; cbn; ring|]. exists (-1). cbn. lra. }
  assert (C2 : met m (V (-1) 0)).
  { apply M. split; [apply circle_equation; cbn; ring|]. exists (-3). cbn. lra. }
  assert (Out : forall q, met m q -> ~ on_segment s q).
  { intros q Hq (t & T & X & Y). apply M in Hq. destruct Hq as [Hq _]. apply circle_equation in Hq. cbn in X, Y, Hq.
    rewrite X, Y in Hq. nra. }
  destruct m as [|p|p q]; cbn in C1, C2.
  - destruct C1.
  - exfalso. rewrite <- C2 in C1. injection C1. lra.
  - exists p, q. split; [exact E|]. split; [apply Dis; reflexivity|]. split; apply Out; cbn; auto.
Qed.

(** ** Two circles *)
Lemma intersect_circle_ok c1 c2 : c_center c1 <> c_center c2 ->
  let common q := on_circle (c_center c1) (Rabs (c_radius c1)) q /\ on_circle (c_center c2) (Rabs (c_radius c2)) q in
  (intersect_circle c1 c2 = Ok MNone /\ forall q, ~ common q) \/
  (exists p q, intersect_circle c1 c2 = Ok (MOne p) /\ (forall q', common q' <-> q' = q) /\
     (vx (c_center c1) <= vx (c_center c2) -> p = q) /\
     (vx (c_center c2) < vx (c_center c1) -> p = vadd (c_center c1) (vneg (vsub q (c_center c1))))) \/
  (intersect_circle c1 c2 = Raise TypeError /\ exists p q, p <> q /\ common p /\ common q).
Proof.
  intros N common. unfold intersect_circle. cbn zeta.
  set (o1 := c_center c1) in *. set (o2 := c_center c2) in *. set (r1 := c_radius c1) in *. set (r2 := c_radius c2) in *.
  set (v := vsub o2 o1). set (D := dist o2 o1).
  assert (HD : 0 < D).
  { unfold D. rewrite <- len_dist0. apply len_pos. intros [X Y]. cbn in X, Y. apply N, vec_eq; lra. }
  assert (ML : magnitude v = D) by (rewrite magnitude_len; apply len_dist0).
  assert (DD : D * D = (vx v) ^ 2 + (vy v) ^ 2) by (unfold D; rewrite dist_sq; unfold v, vsub; cbn; ring).
  rewrite ML. set (g := sign (vx v)). assert (Hg : g * g = 1) by (unfold g, sign; destruct (Rltb (vx v) 0); ring).
  assert (G0 : g <> 0) by (intro Z; rewrite Z in Hg; lra). assert (D0 : D <> 0) by lra.
  rewrite fdiv_ok by (apply Rmult_integral_contrapositive; split; [lra|apply Rmult_integral_contrapositive; split; assumption]).
  cbn [bind].
  set (X := (D * D + r1 ^ 2 - r2 ^ 2) / (2 * D)).
  assert (EX : ((g * D) ^ 2 - r2 ^ 2 + r1 ^ 2) / (2 * (g * D)) = g * X).
  { unfold X. replace ((g * D) ^ 2) with (g * g * (D * D)) by ring. rewrite Hg.
    transitivity ((g * g) * ((1 * (D * D) - r2 ^ 2 + r1 ^ 2) / (2 * (g * D)))); [rewrite Hg; ring|]. field. split; assumption. }
  rewrite EX. replace (r1 ^ 2 - (g * X) ^ 2) with (r1 ^ 2 - X ^ 2) by (replace ((g * X) ^ 2) with (g * g * X ^ 2) by ring; rewrite Hg; ring).
  (* coordinates along and across v *)
  assert (Key : forall q, common q <-> exists y, y * y = r1 ^ 2 - X ^ 2 /\
     vx q = vx o1 + (X * vx v - y * vy v) / D /\ vy q = vy o1 + (X * vy v + y * vx v) / D).
  { intro q. unfold common, on_circle. rewrite !circle_equation.
    set (a := vx q - vx o1). set (b := vy q - vy o1).
    assert (S2 : (vx q - vx o2) ^ 2 + (vy q - vy o2) ^ 2 = (a - vx v) ^ 2 + (b - vy v) ^ 2) by (unfold a, b, v, vsub; cbn; ring).
    rewrite S2. split.
    - intros [A B]. exists ((vx v * b - vy v * a) / D).
      assert (L : vx v * a + vy v * b = X * D).
      { unfold X. replace ((D * D + r1 ^ 2 - r2 ^ 2) / (2 * D) * D) with ((D * D + r1 ^ 2 - r2 ^ 2) / 2) by (field; exact D0).
        rewrite DD. nra. }
      assert (X' : X = (vx v * a + vy v * b) / D) by (rewrite L; field; exact D0).
      split; [|split].
      + rewrite X', <- A. replace ((vx v * b - vy v * a) / D * ((vx v * b - vy v * a) / D)) with ((vx v * b - vy v * a) ^ 2 / (D * D)) by (field; exact D0).
        replace (((vx v * a + vy v * b) / D) ^ 2) with ((vx v * a + vy v * b) ^ 2 / (D * D)) by (field; exact D0).
        apply (Rmult_eq_reg_r (D * D)); [|nra]. field_simplify; [|exact D0|exact D0]. replace (D ^ 2) with (D * D) by ring. rewrite DD. ring.
      + rewrite X'. replace (((vx v * a + vy v * b) / D * vx v - (vx v * b - vy v * a) / D * vy v) / D)
          with (a * (vx v ^ 2 + vy v ^ 2) / (D * D)) by (field; exact D0). rewrite <- DD. unfold a. field. exact D0.
      + rewrite X'. replace (((vx v * a + vy v * b) / D * vy v + (vx v * b - vy v * a) / D * vx v) / D)
          with (b * (vx v ^ 2 + vy v ^ 2) / (D * D)) by (field; exact D0). rewrite <- DD. unfold b. field. exact D0.
    - intros (y & Y & A & B).
      assert (A' : a = (X * vx v - y * vy v) / D) by (unfold a; lra). assert (B' : b = (X * vy v + y * vx v) / D) by (unfold b; lra).
      assert (Q : a ^ 2 + b ^ 2 = r1 ^ 2).
      { rewrite A', B'. replace (((X * vx v - y * vy v) / D) ^ 2 + ((X * vy v + y * vx v) / D) ^ 2)
          with ((X ^ 2 + y * y) * (vx v ^ 2 + vy v ^ 2) / (D * D)) by (field; exact D0). rewrite <- DD, Y. field. exact D0. }
      split; [exact Q|].
      assert (L : vx v * a + vy v * b = X * D).
      { rewrite A', B'. replace (vx v * ((X * vx v - y * vy v) / D) + vy v * ((X * vy v + y * vx v) / D))
          with (X * (vx v ^ 2 + vy v ^ 2) / D) by (field; exact D0). rewrite <- DD. field. exact D0. }
      assert (E : 2 * (X * D) = D * D + r1 ^ 2 - r2 ^ 2) by (unfold X; field; exact D0).
      replace ((a - vx v) ^ 2 + (b - vy v) ^ 2) with (a ^ 2 + b ^ 2 - 2 * (vx v * a + vy v * b) + (vx v ^ 2 + vy v ^ 2)) by ring.
      rewrite Q, L, <- DD. lra. }
  destruct (Rltb_spec (r1 ^ 2 - X ^ 2) 0) as [L|L].
  { left. split; [reflexivity|]. intros q C. apply Key in C. destruct C as (y & Y & _).
    pose proof (Rle_0_sqr y) as Q. unfold Rsqr in Q. lra. }
  right. unfold normalise, vdiv. rewrite ML, Reqb_false by exact D0. cbn [bind].
  destruct (Reqb_spec (r1 ^ 2 - X ^ 2) 0) as [Z|Z].
  - left. exists (vadd o1 (vscale (V (vx v / D) (vy v / D)) (g * X))), (V (vx o1 + X * vx v / D) (vy o1 + X * vy v / D)).
    split; [reflexivity|]. split; [|split].
    + intro q. rewrite Key, Z. split.
      * intros (y & Y & A & B). assert (y = 0) by (apply Rsqr_0_uniq; exact Y). subst y.
        apply vec_eq; cbn [vx vy]; [rewrite A|rewrite B]; field; exact D0.
      * intros ->. exists 0. cbn [vx vy]. split; [ring|]. split; field; exact D0.
    + intro Hx. assert (g = 1) as -> by (unfold g, sign; rewrite Rltb_false; [reflexivity|unfold v, vsub; cbn; lra]).
      apply vec_eq; cbn [vadd vscale vx vy]; field; exact D0.
    + intro Hx. assert (g = -1) as -> by (unfold g, sign; rewrite Rltb_true; [reflexivity|unfold v, vsub; cbn; lra]).
      apply vec_eq; cbn [vadd vscale vneg vsub vx vy]; field; exact D0.
  - right. split; [reflexivity|]. set (h := sqrt (r1 ^ 2 - X ^ 2)).
    assert (Hh : h * h = r1 ^ 2 - X ^ 2) by (apply sqrt_sqrt; lra).
    assert (Ph : 0 < h) by (apply sqrt_lt_R0; lra).
    exists (V (vx o1 + (X * vx v - h * vy v) / D) (vy o1 + (X * vy v + h * vx v) / D)),
           (V (vx o1 + (X * vx v - (- h) * vy v) / D) (vy o1 + (X * vy v + (- h) * vx v) / D)).
    split; [|split; apply Key; [exists h|exists (- h)]; (split; [rewrite <- Hh; ring|split; reflexivity])].
    intro E. pose proof (f_equal vx E) as E1. pose proof (f_equal vy E) as E2. clearbody v. cbn [vx vy] in E1, E2.
    assert (F1 : h * vy v = 0).
    { apply (Rmult_eq_reg_r (/ D)); [|apply Rinv_neq_0_compat; exact D0]. unfold Rdiv in E1. lra. }
    assert (F2 : h * vx v = 0).
    { apply (Rmult_eq_reg_r (/ D)); [|apply Rinv_neq_0_compat; exact D0]. unfold Rdiv in E2. lra. }
    apply Rmult_integral in F1. apply Rmult_integral in F2.
    assert (vx v = 0) by lra. assert (vy v = 0) by lra. rewrite H, H0 in DD. nra.
Qed.
