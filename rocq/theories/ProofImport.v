(** Lemmas on the import of DXF entities. *)
From Coq Require Import Reals List Bool Arith Lra Lia Psatz String.
From Verif Require Import Base ModelVector ModelLine ModelConic ModelSpline ModelDxf ModelImport SpecVector SpecConic SpecSpline SpecDxf
  SpecImport GlueDxf GlueImport ProofVector ProofConic ProofConic3 ProofArc ProofDxf ProofDxf2 ProofDxf3 ProofSpline.
Import ListNotations.
Local Open Scope R_scope.
Local Open Scope result_scope.

(** ** Angular domains *)
Lemma domain_ok (Pt : R -> vec) s e : (forall a, Pt (a + 360) = Pt a) -> 0 <= s <= 360 -> 0 <= e <= 360 ->
  forall X, (exists a, within (Some (Dom s e)) a /\ X = Pt a) <-> (exists a, from_to 360 s e a /\ X = Pt a).
Proof.
  intros Per Bs Be X. unfold within, from_to, d_is_inside, d_is_counterclockwise. cbn [d_start d_stop]. split.
  - intros (a & [Ba I1] & ->). destruct (Rleb_spec s e) as [L|L].
    + apply andb_true_iff in I1 as [A B]. destruct (Rleb_spec s a); [|discriminate]. destruct (Rleb_spec a e); [|discriminate].
      exists a. split; [left; lra|reflexivity].
    + apply negb_true_iff, andb_false_iff in I1. destruct (Rle_lt_dec s a) as [H|H].
      * exists a. split; [right; lra|reflexivity].
      * exists (a + 360). split; [|symmetry; apply Per]. right. split; [lra|]. split; [lra|].
        destruct (Rltb_spec e a) as [G|G]; [|lra]. destruct (Rltb_spec a s); [destruct I1; discriminate|lra].
  - intros (a & [[L A]|[L A]] & ->).
    + exists a. split; [|reflexivity]. split; [lra|]. destruct (Rleb_spec s e) as [H|H]; [|lra].
      destruct (Rleb_spec s a); [|lra]. destruct (Rleb_spec a e); [reflexivity|lra].
    + destruct (Rle_lt_dec a 360) as [H|H].
      * exists a. split; [|reflexivity]. split; [lra|]. destruct (Rleb_spec s e) as [G|G]; [lra|].
        destruct (Rltb_spec e a); [|reflexivity]. destruct (Rltb_spec a s); [lra|reflexivity].
      * exists (a - 360). split; [|rewrite <- (Per (a - 360)); f_equal; lra]. split; [lra|].
        destruct (Rleb_spec s e) as [G|G]; [lra|]. destruct (Rltb_spec e (a - 360)); [lra|reflexivity].
Qed.

Lemma rad_turn a : cos (rad (a + 360)) = cos (rad a) /\ sin (rad (a + 360)) = sin (rad a).
Proof.
  replace (rad (a + 360)) with (rad a + 2 * PI) by (unfold rad; field).
  replace (rad a + 2 * PI) with (rad a + 2 * INR 1 * PI) by (cbn; ring). split; [apply cos_period|apply sin_period].
Qed.
Lemma circle_turn c a : circle_point_at_angle c (a + 360) = circle_point_at_angle c a.
Proof.
  apply (polar_unique (c_center c) (c_radius c) a); [|apply circle_point_ok].
  destruct (circle_point_ok c (a + 360)) as [X Y]. destruct (rad_turn a) as [C S]. rewrite C in X. rewrite S in Y. split; assumption.
Qed.
Lemma ellipse_turn e a : ellipse_point_at_angle e (a + 360) = ellipse_point_at_angle e a.
Proof.
  unfold ellipse_point_at_angle, from_ellipse. rewrite !radians_rad. destruct (rad_turn a) as [-> ->]. reflexivity.
Qed.

Lemma circle_visible c r X : 0 <= r -> (visible (OneCircle (Circ c r None)) X <-> dist c X = r).
Proof.
  intros Hr. cbn [visible c_domain]. split.
  - intros (a & _ & ->). pose proof (circle_point_ok (Circ c r None) a) as [X Y]. cbn [c_center c_radius] in X, Y.
    unfold dist. rewrite X, Y. pose proof (sin2_cos2 (rad a)) as S. unfold Rsqr in S.
    transitivity (sqrt (r * r * (sin (rad a) * sin (rad a) + cos (rad a) * cos (rad a)))); [f_equal; ring|].
    rewrite S, Rmult_1_r. apply sqrt_square. exact Hr.
  - intros D. destruct (vec_dec X c) as [->|N].
    + exists 0. split; [split; [lra|exact I]|]. apply vec_eq; destruct (circle_point_ok (Circ c r None) 0) as [A B]; cbn [c_center c_radius] in *.
      * assert (Z : r = 0) by (rewrite <- D; unfold dist; replace ((vx c - vx c) * (vx c - vx c) + (vy c - vy c) * (vy c - vy c)) with 0 by ring; apply sqrt_0).
        rewrite A, Z. ring.
      * assert (Z : r = 0) by (rewrite <- D; unfold dist; replace ((vx c - vx c) * (vx c - vx c) + (vy c - vy c) * (vy c - vy c)) with 0 by ring; apply sqrt_0).
        rewrite B, Z. ring.
    + destruct (angle_for_point_ok (Circ c r None) X N) as (a & _ & A & P). cbn [c_center c_radius] in P. rewrite D in P.
      exists a. split; [split; [lra|exact I]|]. apply (polar_unique c r a); [exact P|apply (circle_point_ok (Circ c r None))].
Qed.

Lemma arc_visible c r s e X : 0 <= s <= 360 -> 0 <= e <= 360 ->
  (visible (OneCircle (Circ c r (Some (Dom s e)))) X <-> exists a, from_to 360 s e a /\ polar c r a X).
Proof.
  intros S E. cbn [visible c_domain]. rewrite (domain_ok (circle_point_at_angle (Circ c r (Some (Dom s e)))) s e); auto using circle_turn.
  split; intros (a & F & P); exists a; (split; [exact F|]).
  - subst X. apply (circle_point_ok (Circ c r (Some (Dom s e)))).
  - apply (polar_unique c r a); [exact P|apply (circle_point_ok (Circ c r (Some (Dom s e))))].
Qed.

Lemma dxf_ellipse_unique c m k t X Y : dxf_ellipse_point c m k t X -> dxf_ellipse_point c m k t Y -> X = Y.
Proof. intros [A B] [C D]. apply vec_eq; congruence. Qed.
Lemma degrees_le a b : a <= b <-> degrees a <= degrees b.
Proof.
  pose proof PI_RGT_0 as P. unfold degrees. split; intro H.
  - apply Rmult_le_compat_r; [left; apply Rinv_0_lt_compat; exact P|lra].
  - apply Rmult_le_reg_r in H; [lra|apply Rinv_0_lt_compat; exact P].
Qed.
Lemma degrees_turn a : degrees (a + 2 * PI) = degrees a + 360.
Proof. unfold degrees. field. pose proof PI_RGT_0. lra. Qed.
Lemma degrees_0 : degrees 0 = 0. Proof. unfold degrees. field. pose proof PI_RGT_0. lra. Qed.
Lemma degrees_2PI : degrees (2 * PI) = 360. Proof. unfold degrees. field. pose proof PI_RGT_0. lra. Qed.
Lemma from_to_degrees s e a : from_to (2 * PI) s e a <-> from_to 360 (degrees s) (degrees e) (degrees a).
Proof.
  unfold from_to. rewrite <- degrees_turn. pose proof (degrees_le s e). pose proof (degrees_le s a). pose proof (degrees_le a e).
  pose proof (degrees_le e s). pose proof (degrees_le a (e + 2 * PI)).
  assert (degrees e < degrees s <-> e < s) by (split; intros L; apply Rnot_le_lt; intros G; apply (Rlt_not_le _ _ L); tauto).
  tauto.
Qed.

Lemma ellipse_visible e c m k s t X : e_domain e = Some (Dom (degrees s) (degrees t)) ->
  (forall x, dxf_ellipse_point c m k x (ellipse_point_at_angle e (degrees x))) -> 0 <= s <= 2 * PI -> 0 <= t <= 2 * PI ->
  (visible (OneEllipse e) X <-> exists a, from_to (2 * PI) s t a /\ dxf_ellipse_point c m k a X).
Proof.
  intros D P S T. cbn [visible]. rewrite D.
  assert (DR : forall x, 0 <= x <= 2 * PI -> 0 <= degrees x <= 360).
  { intros x H. rewrite <- degrees_0 at 1. rewrite <- degrees_2PI. split; apply (proj1 (degrees_le _ _)); lra. }
  rewrite (domain_ok (ellipse_point_at_angle e) _ _ (ellipse_turn e) (DR s S) (DR t T)). split.
  - intros (a & F & ->). exists (rad a).
    assert (Ea : a = degrees (rad a)) by (unfold degrees, rad; field; pose proof PI_RGT_0; lra).
    split; [apply from_to_degrees; rewrite <- Ea; exact F|]. rewrite Ea at 2. apply P.
  - intros (a & F & Q). exists (degrees a). split; [apply from_to_degrees; exact F|]. exact (dxf_ellipse_unique _ _ _ _ _ _ Q (P a)).
Qed.

(** ** Splines *)
Lemma quot_scale a x y : a <> 0 -> quot (a * x) (a * y) = quot x y.
Proof.
  intros A. unfold quot. destruct (Req_EM_T y 0) as [->|Y].
  - rewrite Rmult_0_r. destruct (Req_EM_T 0 0); [reflexivity|lra].
  - destruct (Req_EM_T (a * y) 0) as [Z|Z]; [apply Rmult_integral in Z; tauto|field; auto].
Qed.
Lemma basis_affine K K' a b p : 0 < a -> forall i t, (forall j, (i <= j <= i + p + 1)%nat -> K' j = a * K j + b) ->
  basis K' p i (a * t + b) = basis K p i t.
Proof.
  intros A. induction p as [|p IH]; intros i t H.
  - cbn [basis]. rewrite (H i), (H (i + 1)%nat) by lia.
    destruct (Rle_dec (a * K i + b) (a * t + b)), (Rle_dec (K i) t); try nra.
    destruct (Rlt_dec (a * t + b) (a * K (i + 1)%nat + b)), (Rlt_dec t (K (i + 1)%nat)); nra.
  - cbn [basis]. rewrite (IH i t) by (intros; apply H; lia). rewrite (IH (i + 1)%nat t) by (intros; apply H; lia).
    rewrite !(H _) by lia.
    replace (a * t + b - (a * K i + b)) with (a * (t - K i)) by ring.
    replace (a * K (i + S p)%nat + b - (a * K i + b)) with (a * (K (i + S p)%nat - K i)) by ring.
    replace (a * K (i + S p + 1)%nat + b - (a * t + b)) with (a * (K (i + S p + 1)%nat - t)) by ring.
    replace (a * K (i + S p + 1)%nat + b - (a * K (i + 1)%nat + b)) with (a * (K (i + S p + 1)%nat - K (i + 1)%nat)) by ring.
    rewrite !quot_scale by lra. reflexivity.
Qed.
Lemma sumn_ext n f g : (forall i, (i < n)%nat -> f i = g i) -> sumn n f = sumn n g.
Proof. induction n as [|n IH]; intros H; cbn; [reflexivity|]. rewrite IH, H by (auto with arith; intros; apply H; lia). reflexivity. Qed.
Lemma spline_affine K K' a b p P t : 0 < a -> (forall j, (j < List.length P + p + 1)%nat -> K' j = a * K j + b) ->
  spline_point K' p P (a * t + b) = spline_point K p P t.
Proof.
  intros A H. unfold spline_point. f_equal; apply sumn_ext; intros i Hi; (rewrite (basis_affine K K' a b); [reflexivity|exact A|]);
    intros j Hj; apply H; lia.
Qed.

Lemma spline_visible p c P knots s X : new_bspline P p c None = Ok s -> regular knots p (List.length P) ->
  (visible (OneSpline s) X <-> on_spline_curve (knot knots) p P X).
Proof.
  intros E (a & b & A & L & H). pose proof (new_uniform_len P p c s E) as N.
  pose proof (new_bspline_good P p c None s E N) as G. destruct (new_bspline_fields P p c None s E) as (EP & Ed & _ & Eu).
  destruct (g_uniform s G Eu) as [Le F]. rewrite EP, Ed in *. rewrite N in F.
  set (U := knot (bs_knots s)) in *. set (n := List.length P) in *.
  assert (U0 : U p = 0) by (rewrite F by lia; replace (Nat.min (p - p) (n - p)) with 0%nat by lia; reflexivity).
  assert (U1 : U n = INR (n - p)) by (rewrite F by lia; f_equal; lia).
  assert (KU : forall j, (j < n + p + 1)%nat -> knot knots j = a * U j + b) by (intros j Hj; rewrite H, F by lia; reflexivity).
  assert (ND : P <> []) by (intros ->; unfold n in Le; cbn in Le; lia).
  assert (LE : hd_error (rev P) = Some (last P (V 0 0))).
  { rewrite (app_removelast_last (V 0 0) ND) at 1. rewrite rev_app_distr. reflexivity. }
  destruct (uniform_ends P p c s E) as [_ UE]. fold n in UE.
  cbn [visible]. rewrite EP, Ed. fold n. unfold on_spline_curve. fold n. rewrite LE, !KU, U0, U1 by lia. split.
  - intros (t & [T0 [T1|T1]] & Q).
    + left. exists (a * t + b). split; [split; nra|].
      destruct (evaluation_ok P p c None s t E N) as (ws & _ & Q' & W); [fold n; fold U; rewrite U0, U1; lra|].
      rewrite Q' in Q. injection Q as <-. rewrite W. symmetry. apply spline_affine; [exact A|exact KU].
    + right. subst t. rewrite UE in Q. injection Q as <-. reflexivity.
  - intros [(t & T & ->)|Q].
    + set (u := (t - b) / a). assert (Et : t = a * u + b) by (unfold u; field; lra).
      assert (Bu : 0 <= u < INR (n - p)) by (rewrite Et in T; split; nra).
      exists u. split; [lra|]. destruct (evaluation_ok P p c None s u E N) as (ws & _ & Q' & W); [fold n; fold U; rewrite U0, U1; lra|].
      rewrite Q', W, Et. f_equal. symmetry. apply spline_affine; [exact A|exact KU].
    + injection Q as ->. exists (INR (n - p)). split; [split; [apply pos_INR|lra]|exact UE].
Qed.

(** ** Polylines *)
Definition build (p : polyline) (l : list (R * R * R * R * R)) : polyline :=
  fold_left (fun p q => let '(x, y, _, _, b) := q in add_vertex p (V x y) b) l p.
Lemma build_ok l : forall p, corners (build p l) = corners p ++ vertices l /\ pl_closed (build p l) = pl_closed p.
Proof.
  induction l as [|[[[[x y] s] e] b] l IH]; intros p; [cbn; rewrite app_nil_r; auto|].
  destruct (IH (add_vertex p (V x y) b)) as [A B]. change (build p ((x, y, s, e, b) :: l)) with (build (add_vertex p (V x y) b) l).
  rewrite A, B. split; [|reflexivity]. unfold add_vertex, corners. cbn [pl_vertices]. rewrite map_app, <- app_assoc. reflexivity.
Qed.
Lemma legs_bulges first l : Forall (fun q : vec * R => 0 <= snd q) l -> Forall (fun leg : vec * vec * R => 0 <= snd leg) (legs_from first l).
Proof.
  induction l as [|[p b] [|[q c] l] IH]; intros F; inversion F as [|? ? B F']; subst; cbn [legs_from]; [constructor|destruct first; auto|].
  constructor; [exact B|]. apply IH. exact F'.
Qed.
Lemma Forall2_In_both {A B} (R : A -> B -> Prop) l m : Forall2 R l m ->
  (forall a, In a l -> exists b, In b m /\ R a b) /\ (forall b, In b m -> exists a, In a l /\ R a b).
Proof.
  induction 1 as [|a b l m H F [IH1 IH2]]; split; intros x H0; try contradiction.
  - destruct H0 as [->|H0]; [exists b; cbn; auto|destruct (IH1 x H0) as (y & Y & Z); exists y; cbn; auto].
  - destruct H0 as [->|H0]; [exists a; cbn; auto|destruct (IH2 x H0) as (y & Y & Z); exists y; cbn; auto].
Qed.
Lemma polyline_visible closed l items X : geometry (build (Polyline closed []) l) = Ok items ->
  Forall (fun q => 0 <= snd q) (vertices l) ->
  (visible (OneList items) X <-> exists P Q b, In (P, Q, b) (legs closed (vertices l)) /\ on_leg P Q b X).
Proof.
  intros E B. pose proof (geometry_ok _ _ E) as F. destruct (build_ok l (Polyline closed [])) as [C D]. cbn [corners pl_vertices map app pl_closed] in C, D.
  rewrite C, D in F. assert (LB : Forall (fun leg : vec * vec * R => 0 <= snd leg) (legs closed (vertices l))) by (apply legs_bulges; exact B).
  rewrite Forall_forall in LB. destruct (Forall2_In_both _ _ _ F) as [F1 F2]. cbn [visible]. split.
  - intros (i & I1 & S). destruct (F2 i I1) as ([[P Q] b] & J & K). specialize (K (LB _ J)). exists P, Q, b. split; [exact J|]. apply K. exact S.
  - intros (P & Q & b & J & O). destruct (F1 _ J) as (i & I1 & K). specialize (K (LB _ J)). exists i. split; [exact I1|]. apply K. exact O.
Qed.

(** ** Entities *)
Lemma null_dec u : {null u} + {~ null u}.
Proof.
  unfold null. destruct (Req_EM_T (vx u) 0); destruct (Req_EM_T (vy u) 0); [left; auto|right; tauto..].
Qed.

Lemma read_ok e i : read_entity e = Ok (Some i) -> other_type e -> readable e -> forall X, visible i X <-> traced e X.
Proof.
  destruct e as [a b|c r|c r s t|c m k s t|cl l|p cl P K W|ty]; cbn [read_entity dxftype String.eqb Ascii.eqb Bool.eqb orb readable traced other_type].
  - intros [= <-] _ _ X. apply (segment_shown (to_vector a) (to_vector b) X).
  - intros [= <-] _ H X. apply circle_visible. exact H.
  - intros [= <-] _ [H1 H2] X. apply arc_visible; assumption.
  - unfold ModelImport.on_ellipse. intros E _ (N & V' & K & S & T) X.
    destruct (dxf_ellipse_ok (xy c) (xy m) k s t N K V') as (e & E' & D & P).
    unfold to_vector in E. unfold xy in E'. rewrite E' in E. cbn [bind] in E. injection E as <-. apply ellipse_visible; assumption.
  - unfold ModelImport.on_polyline. fold (build (Polyline cl []) l). intros E _ H X.
    destruct (geometry (build (Polyline cl []) l)) as [g|] eqn:G; [|discriminate E]. cbn [bind] in E. injection E as <-.
    apply polyline_visible; assumption.
  - unfold ModelImport.on_spline. intros E _ H X. change (map to_vector P) with (map xy P) in E.
    destruct (new_bspline (map xy P) p cl None) as [s|] eqn:G; [|discriminate E]. cbn [bind] in E. injection E as <-.
    apply (spline_visible p cl _ _ s); [exact G|rewrite map_length; exact H].
  - unfold read_entity. cbn [dxftype]. intros E O _ X.
    repeat match type of E with context [String.eqb ?x ?y] => destruct (String.eqb_spec x y); [exfalso; apply O; cbn; auto 8|cbn [orb] in E] end.
    discriminate E.
Qed.

Lemma read_total e : other_type e ->
  (is_ok (read_entity e) <-> legible e) /\ (supported e = false -> read_entity e = Ok None) /\
  (supported e = true -> read_entity e <> Ok None).
Proof.
  destruct e as [a b|c r|c r s t|c m k s t|cl l|p cl P K W|ty]; intros O; cbn [legible supported];
    (split; [|split; [intros D; try discriminate D|intros D; try discriminate D; try (cbn; discriminate)]]).
  - split; [auto|intros _; eexists; reflexivity].
  - split; [auto|intros _; eexists; reflexivity].
  - split; [auto|intros _; eexists; reflexivity].
  - cbn. unfold on_ellipse_item. split; [auto|intros _]. destruct (null_dec (to_vector m)) as [N|N].
    + rewrite orientation_null by exact N. cbn [bind]. destruct (Reqb 90 90); eexists; reflexivity.
    + destruct (orientation_ok _ N) as (o & -> & _). cbn [bind]. destruct (Reqb o 90); eexists; reflexivity.
  - cbn. unfold on_ellipse_item. destruct (orientation (to_vector m)) as [o|x]; cbn [bind]; [destruct (Reqb o 90); discriminate|discriminate].
  - cbn [read_entity dxftype String.eqb Ascii.eqb Bool.eqb orb]. unfold ModelImport.on_polyline. fold (build (Polyline cl []) l).
    destruct (build_ok l (Polyline cl [])) as [C D]. cbn [corners pl_vertices map app pl_closed] in C, D.
    pose proof (geometry_total (build (Polyline cl []) l)) as T. rewrite C, D in T.
    assert (NE : vertices l <> [] <-> l <> []) by (destruct l as [|[[[[? ?] ?] ?] ?] ?]; cbn; split; congruence).
    assert (FE : Forall (fun leg => snd leg <> 0 -> fst (fst leg) <> snd (fst leg)) (legs cl (vertices l)) <->
                 Forall (fun '(P, Q, b) => b <> 0 -> P <> Q) (legs cl (vertices l))).
    { rewrite !Forall_forall. split; intros H [[P Q] b] J; apply (H (P, Q, b) J). }
    rewrite FE in T. rewrite <- NE. rewrite <- T. unfold is_ok. destruct (geometry (build (Polyline cl []) l)); cbn [bind]; split; intros [x E]; try discriminate E; eexists; reflexivity.
  - cbn. fold (build (Polyline cl []) l). destruct (geometry (build (Polyline cl []) l)); discriminate.
  - cbn [read_entity dxftype String.eqb Ascii.eqb Bool.eqb orb]. unfold on_spline, new_bspline, uniform_knots. rewrite map_length.
    destruct (Nat.ltb_spec (List.length P) (p + 1)); cbn [bind]; split; try (intros [x E]; discriminate E); try lia; intros _; eexists; reflexivity.
  - cbn. unfold new_bspline. destruct (uniform_knots p (List.length (map to_vector P))); discriminate.
  - unfold read_entity. cbn [dxftype].
    repeat match goal with |- context [String.eqb ?x ?y] => destruct (String.eqb_spec x y); [exfalso; apply O; cbn; auto 8|cbn [orb]] end.
    split; [auto|intros _; eexists; reflexivity].
  - unfold read_entity. cbn [dxftype].
    repeat match goal with |- context [String.eqb ?x ?y] => destruct (String.eqb_spec x y); [exfalso; apply O; cbn; auto 8|cbn [orb]] end.
    reflexivity.
Qed.

Lemma import_items l : Forall other_type l -> forall acc items, read_entities l acc = Ok items <->
  exists m, items = acc ++ m /\ Forall2 (fun e i => read_entity e = Ok (Some i)) (filter supported l) m.
Proof.
  induction 1 as [|e l O F IH]; intros acc items; cbn [read_entities filter].
  - split; [intros [= <-]; exists []; rewrite app_nil_r; auto|intros (m & -> & G); inversion G; rewrite app_nil_r; reflexivity].
  - destruct (read_total e O) as (_ & U & S). destruct (supported e) eqn:Es.
    + specialize (S eq_refl). destruct (read_entity e) as [[i|]|x] eqn:Er; [|congruence|].
      * cbn [bind]. rewrite IH. split.
        -- intros (m & -> & G). exists (i :: m). rewrite <- app_assoc. split; [reflexivity|constructor; assumption].
        -- intros (m & -> & G). inversion G as [|? i' ? m' G1 G2]; subst. rewrite Er in G1. injection G1 as <-.
           exists m'. rewrite <- app_assoc. auto.
      * cbn [bind]. split; [discriminate|]. intros (m & _ & G). inversion G as [|? i' ? m' G1 G2]; subst. rewrite Er in G1. discriminate G1.
    + rewrite (U eq_refl). cbn [bind]. apply IH.
Qed.

Lemma import_ok l items : Forall other_type l -> dxf_import l = Ok items ->
  Forall2 (fun e i => readable e -> forall X, visible i X <-> traced e X) (filter supported l) items.
Proof.
  intros O E. apply import_items in E as (m & -> & F); [|exact O]. cbn [app].
  assert (O' : Forall other_type (filter supported l)) by (rewrite Forall_forall in *; intros e H; apply filter_In in H; apply O; tauto).
  clear O. induction F as [|e i l' m H F IH]; constructor; inversion O'; subst; [|auto].
  intros R. apply read_ok; assumption.
Qed.

Lemma import_defined l : Forall other_type l -> (is_ok (dxf_import l) <-> Forall legible l).
Proof.
  intros O. unfold dxf_import. generalize (@nil imported). induction O as [|e l O F IH]; intros acc; cbn [read_entities].
  - split; [auto|intros _; eexists; reflexivity].
  - destruct (read_total e O) as (T & _). destruct (read_entity e) as [i|x] eqn:Er; cbn [bind].
    + rewrite IH. split; intros H; [constructor; [apply T; eexists; reflexivity|exact H]|inversion H; assumption].
    + split; [intros [y E]; discriminate E|]. intros H. inversion H as [|? ? L]. destruct (proj2 T L) as [y E]. discriminate E.
Qed.
