(** Lemmas on the arcs of DXF polylines. *)
From Coq Require Import Reals List Bool Arith Lra Lia Psatz.
From Verif Require Import Base ModelVector ModelLine ModelConic ModelDxf SpecVector SpecConic SpecDxf GlueDxf
  ProofVector ProofConic ProofConic3 ProofArc.
Import ListNotations.
Local Open Scope R_scope.

(** ** Trigonometry of the bulge *)
Lemma atan_cs b : exists c, c <> 0 /\ cos (atan b) = c /\ sin (atan b) = b * c /\ c * c * (1 + b * b) = 1.
Proof.
  pose proof (atan_bound b) as [A1 A2].
  assert (C : 0 < cos (atan b)) by (apply cos_gt_0; lra).
  exists (cos (atan b)). split; [lra|]. split; [reflexivity|].
  assert (T : sin (atan b) = b * cos (atan b)).
  { pose proof (tan_atan b) as T. unfold tan in T. apply (f_equal (fun x => x * cos (atan b))) in T.
    field_simplify in T; [lra|lra]. }
  split; [exact T|]. pose proof (sin2_cos2 (atan b)) as S2. unfold Rsqr in S2. rewrite T in S2.
  transitivity (b * cos (atan b) * (b * cos (atan b)) + cos (atan b) * cos (atan b)); [ring|exact S2].
Qed.
Lemma cs2 b : cos (2 * atan b) = (1 - b * b) / (1 + b * b) /\ sin (2 * atan b) = 2 * b / (1 + b * b).
Proof.
  destruct (atan_cs b) as (c & Nc & C & S1 & E). rewrite cos_2a, sin_2a, C, S1.
  assert (P : 0 < 1 + b * b) by nra.
  assert (E' : c * c = 1 / (1 + b * b)) by (apply (Rmult_eq_reg_r (1 + b * b)); [rewrite E; field; lra|lra]).
  split.
  - transitivity (c * c * (1 - b * b)); [ring|]. rewrite E'. field. lra.
  - transitivity (c * c * (2 * b)); [ring|]. rewrite E'. field. lra.
Qed.
Lemma cs4 b : cos (4 * atan b) = ((1 - b * b) * (1 - b * b) - 4 * (b * b)) / ((1 + b * b) * (1 + b * b)) /\
  sin (4 * atan b) = 4 * b * (1 - b * b) / ((1 + b * b) * (1 + b * b)).
Proof.
  destruct (cs2 b) as [C S2]. replace (4 * atan b) with (2 * (2 * atan b)) by ring.
  rewrite (cos_2a (2 * atan b)), (sin_2a (2 * atan b)), C, S2. assert (P : 0 < 1 + b * b) by nra. split; field; lra.
Qed.

(** ** The centre *)
Definition center_of (P Q : vec) (k : R) : vec :=
  V ((vx P + vx Q) / 2 - k * (vy Q - vy P)) ((vy P + vy Q) / 2 + k * (vx Q - vx P)).
Definition kb (b : R) : R := (1 / b - b) / 4.

Lemma center_ok P Q b : b <> 0 -> bulge_center P Q b (center_of P Q (kb b)).
Proof.
  intro B. destruct (cs4 b) as [C4 S4]. unfold bulge_center, turned, center_of, vsub, kb. cbn [vx vy].
  rewrite C4, S4. assert (P0 : 0 < 1 + b * b) by nra. split; field; split; lra.
Qed.
Lemma cos4_not_1 b : b <> 0 -> cos (4 * atan b) < 1.
Proof.
  intro B. destruct (cs4 b) as [C4 _]. rewrite C4. assert (P0 : 0 < 1 + b * b) by nra.
  apply (Rmult_lt_reg_r ((1 + b * b) * (1 + b * b))); [nra|]. unfold Rdiv. rewrite Rmult_assoc, Rinv_l by nra. nra.
Qed.
Lemma center_unique P Q b C : b <> 0 -> bulge_center P Q b C -> C = center_of P Q (kb b).
Proof.
  intros B [X Y]. destruct (center_ok P Q b B) as [X' Y']. set (D := center_of P Q (kb b)) in *.
  pose proof (cos4_not_1 b B) as K. set (c := cos (4 * atan b)) in *. set (s := sin (4 * atan b)) in *.
  assert (T : s * s + c * c = 1) by apply sin2_cos2.
  unfold vsub in *. cbn [vx vy] in *. set (dx := vx C - vx D). set (dy := vy C - vy D).
  assert (E1 : (1 - c) * dx + s * dy = 0) by (unfold dx, dy; lra).
  assert (E2 : (1 - c) * dy - s * dx = 0) by (unfold dx, dy; lra).
  assert (Dx : 2 * (1 - c) * dx = 0).
  { transitivity ((1 - c) * ((1 - c) * dx + s * dy) - s * ((1 - c) * dy - s * dx) + (1 - (s * s + c * c)) * dx); [ring|].
    rewrite E1, E2, T. ring. }
  assert (Dy : 2 * (1 - c) * dy = 0).
  { transitivity ((1 - c) * ((1 - c) * dy - s * dx) + s * ((1 - c) * dx + s * dy) + (1 - (s * s + c * c)) * dy); [ring|].
    rewrite E1, E2, T. ring. }
  apply vec_eq.
  - apply Rmult_integral in Dx. unfold dx in *. destruct Dx; lra.
  - apply Rmult_integral in Dy. unfold dy in *. destruct Dy; lra.
Qed.

(** ** The middle of the arc *)
Definition middle_of (P Q : vec) (b : R) : vec := center_of P Q (- (b / 2)).
Lemma middle_ok P Q b : b <> 0 -> arc_middle P Q b (middle_of P Q b).
Proof.
  intro B. exists (center_of P Q (kb b)). split; [apply center_ok; exact B|].
  destruct (cs2 b) as [C2 S2]. unfold turned, middle_of, center_of, vsub, kb. cbn [vx vy].
  rewrite C2, S2. assert (P0 : 0 < 1 + b * b) by nra. split; field; split; lra.
Qed.
Lemma turned_fun t a b b' : turned t a b -> turned t a b' -> b = b'.
Proof. intros [A B] [C D]. apply vec_eq; congruence. Qed.
Lemma middle_unique P Q b M : b <> 0 -> arc_middle P Q b M -> M = middle_of P Q b.
Proof.
  intros B (C & HC & HM). apply center_unique in HC; [|exact B]. subst C.
  destruct (middle_ok P Q b B) as (C & HC & HM'). apply center_unique in HC; [|exact B]. subst C.
  pose proof (turned_fun _ _ _ _ HM HM') as E. pose proof (f_equal vx E) as E1. pose proof (f_equal vy E) as E2.
  cbn [vsub vx vy] in E1, E2. apply vec_eq; lra.
Qed.

(** ** The item of a leg *)
Lemma vec_dec (a b : vec) : {a = b} + {a <> b}.
Proof. destruct (veqb_spec a b); [now left|now right]. Qed.
Lemma dist_pos a b : a <> b -> 0 < dist a b.
Proof.
  intro N. rewrite <- len_dist0. apply len_pos. intros [X Y]. cbn [vsub vx vy] in X, Y. apply N, vec_eq; lra.
Qed.
Lemma dist_0 a : dist a a = 0.
Proof. unfold dist. rewrite !Rminus_diag_eq by reflexivity. rewrite Rmult_0_r, Rplus_0_r. apply sqrt_0. Qed.
Lemma center_dist P Q k : dist (center_of P Q k) P * dist (center_of P Q k) P = dist P Q * dist P Q * (1 / 4 + k * k) /\
  dist (center_of P Q k) Q * dist (center_of P Q k) Q = dist P Q * dist P Q * (1 / 4 + k * k).
Proof. rewrite !dist_sq. unfold center_of. cbn [vx vy]. split; field. Qed.
Lemma center_off P Q k : P <> Q -> center_of P Q k <> P /\ center_of P Q k <> Q.
Proof.
  intro N. pose proof (dist_pos P Q N) as D. destruct (center_dist P Q k) as [A B].
  assert (0 < dist P Q * dist P Q) by nra. assert (0 < 1 / 4 + k * k) by nra.
  assert (0 < dist P Q * dist P Q * (1 / 4 + k * k)) by (apply Rmult_lt_0_compat; assumption).
  split; intro E; rewrite E in *; rewrite dist_0 in *; lra.
Qed.

Lemma radius_sq P Q b : b <> 0 ->
  (dist P Q / 4 * (b + 1 / b)) * (dist P Q / 4 * (b + 1 / b)) = dist P Q * dist P Q * (1 / 4 + kb b * kb b).
Proof. intro B. unfold kb. field. exact B. Qed.

Definition next_is (p : polyline) (i : nat) (w : vertex) : Prop := next p i = Ok (Some w).

Lemma chord_ok p i v w : getitem p i = Ok v -> next_is p i w ->
  segment_vector p i = Ok (vsub (v_point w) (v_point v)) /\ demi_chord p i = Ok (dist (v_point v) (v_point w) / 2).
Proof.
  intros V W. unfold demi_chord, segment_vector. rewrite V. cbn [bind]. rewrite W. cbn [bind].
  rewrite magnitude_len, len_dist0, dist_sym. auto.
Qed.
Lemma radius_ok p i v w : getitem p i = Ok v -> next_is p i w -> v_bulge v <> 0 ->
  bulge_radius p i = Ok (dist (v_point v) (v_point w) / 4 * (v_bulge v + 1 / v_bulge v)) /\
  sagitta_dual p i = Ok (dist (v_point v) (v_point w) * kb (v_bulge v)).
Proof.
  intros V W B. destruct (chord_ok p i v w V W) as [_ L]. unfold bulge_radius, sagitta_dual. rewrite V. cbn [bind].
  rewrite Reqb_false by exact B. rewrite L. cbn [bind]. unfold kb. split; f_equal; field; exact B.
Qed.

Lemma item_null p i j v w : getitem p i = Ok v -> getitem p j = Ok w -> v_bulge v = 0 ->
  item_for p i j = Ok (ISegment (Seg (v_point v) (v_point w))).
Proof. intros V W B. unfold item_for. rewrite V, W. cbn [bind]. rewrite B, Reqb_refl. reflexivity. Qed.
Lemma item_stuck p i j v w : getitem p i = Ok v -> getitem p j = Ok w -> next_is p i w -> v_bulge v <> 0 ->
  v_point v = v_point w -> item_for p i j = Raise NotANumber.
Proof.
  intros V W N B E. destruct (chord_ok p i v w V N) as [L _]. unfold item_for. rewrite V, W. cbn [bind].
  rewrite Reqb_false by exact B. unfold s_center, vdiv at 1. rewrite Reqb_false by lra. cbn [bind].
  rewrite L. cbn [bind]. unfold normalise, vdiv. rewrite magnitude_len, len_dist0, E, dist_0, Reqb_refl. reflexivity.
Qed.
Lemma item_arc p i j v w : getitem p i = Ok v -> getitem p j = Ok w -> next_is p i w -> v_bulge v <> 0 ->
  v_point v <> v_point w ->
  let P := v_point v in let Q := v_point w in let b := v_bulge v in
  let C := center_of P Q (sign b * kb b) in
  exists start stop,
  item_for p i j = Ok (IArc (Circ C (dist P Q / 4 * (b + 1 / b))
    (Some (if Rltb b 0 then Dom stop start else Dom start stop)))) /\
  0 <= start < 360 /\ polar C (dist C P) start P /\ 0 <= stop < 360 /\ polar C (dist C Q) stop Q.
Proof.
  intros V W N B E P Q b C. destruct (chord_ok p i v w V N) as [L _]. destruct (radius_ok p i v w V N B) as [R0 S0].
  destruct (center_off P Q (sign b * kb b) E) as [CP CQ]. fold C in CP, CQ.
  unfold item_for. rewrite V, W. cbn [bind].
  rewrite Reqb_false by exact B. unfold s_center, vdiv at 1. rewrite Reqb_false by lra. cbn [bind].
  rewrite L. cbn [bind]. unfold normalise, vdiv. rewrite magnitude_len, len_dist0, dist_sym.
  pose proof (dist_pos P Q E) as D. fold P Q b. rewrite (Reqb_false (dist P Q)) by lra. cbn [bind].
  rewrite S0, R0. cbn [bind]. fold P Q b.
  set (C' := vadd _ _).
  assert (EC : C' = C).
  { unfold C', C, center_of, vadd, vscale, normal, vsub. cbn [s_p0 s_p1 vx vy]. unfold kb. apply vec_eq; cbn [vx vy]; field; split; auto; lra. }
  rewrite EC. clear C' EC.
  destruct (angle_for_point_ok (Circ C (dist P Q / 4 * (b + 1 / b)) None) P) as (s & Es & Bs & Ps); [intro X; apply CP; symmetry; exact X|].
  destruct (angle_for_point_ok (Circ C (dist P Q / 4 * (b + 1 / b)) None) Q) as (e & Ee & Be & Pe); [intro X; apply CQ; symmetry; exact X|].
  cbn [c_center] in Ps, Pe. exists s, e. rewrite Es. cbn [bind]. rewrite Ee. cbn [bind].
  unfold lift_angle. rewrite (Rltb_false s 0), (Rltb_false e 0) by lra. auto.
Qed.

(** ** The points shown *)
Lemma atan_pos b : 0 < b -> 0 < atan b.
Proof. intro B. rewrite <- atan_0. apply atan_increasing. exact B. Qed.
Lemma positive_bulge_arc P Q b r s e : 0 < b -> P <> Q -> r = dist P Q / 4 * (b + 1 / b) ->
  let C := center_of P Q (kb b) in
  0 <= s < 360 -> polar C (dist C P) s P -> 0 <= e < 360 -> polar C (dist C Q) e Q ->
  forall X, shown (IArc (Circ C r (Some (Dom s e)))) X <-> on_bulge_arc P Q b X.
Proof.
  intros B N Er C Bs Ps Be Pe X. pose proof (dist_pos P Q N) as D.
  pose proof (atan_pos b B) as T0. destruct (atan_bound b) as [_ T1]. pose proof PI_RGT_0 as Pi.
  assert (R0 : 0 < r).
  { rewrite Er. apply Rmult_lt_0_compat; [lra|]. assert (0 < 1 / b) by (apply Rdiv_lt_0_compat; lra). lra. }
  destruct (center_dist P Q (kb b)) as [A1 A2]. fold C in A1, A2.
  pose proof (radius_sq P Q b) as RS. rewrite <- Er in RS.
  assert (E1 : dist C P = r) by (apply sq_eq_nonneg; [apply dist_nonneg|lra|rewrite A1, RS by lra; reflexivity]).
  assert (E2 : dist C Q = r) by (apply sq_eq_nonneg; [apply dist_nonneg|lra|rewrite A2, RS by lra; reflexivity]).
  rewrite E1 in Ps. rewrite E2 in Pe.
  (* the angle of the end *)
  set (full := degrees (4 * atan b)).
  assert (Hfull : rad full = 4 * atan b) by apply rad_degrees.
  assert (Bfull : 0 < full < 360).
  { unfold full, degrees. split.
    - apply Rdiv_lt_0_compat; [|lra]. apply Rmult_lt_0_compat; lra.
    - apply (Rmult_lt_reg_r PI); [lra|]. unfold Rdiv. rewrite Rmult_assoc, Rinv_l by lra. lra. }
  assert (Turn : forall z Y, turned z (vsub P C) (vsub Y C) <-> polar C r (s + degrees z) Y).
  { intros z Y. unfold turned, polar. rewrite rad_plus, rad_degrees, cos_plus, sin_plus. destruct Ps as [X1 Y1].
    unfold vsub. cbn [vx vy]. rewrite X1, Y1.
    replace (vx C + r * cos (rad s) - vx C) with (r * cos (rad s)) by ring.
    replace (vy C + r * sin (rad s) - vy C) with (r * sin (rad s)) by ring.
    split; intros [H1 H2]; split; lra. }
  assert (Pq : polar C r (s + full) Q) by (apply Turn, center_ok; lra).
  assert (Per : forall (k : Z) a Y, polar C r (a + 360 * IZR k) Y <-> polar C r a Y).
  { intros k a Y. unfold polar. replace (a + 360 * IZR k) with (a - 360 * IZR (- k)) by (rewrite opp_IZR; ring).
    destruct (ProofArc.trig_turns a (- k)) as [Ec Es]. rewrite Ec, Es. reflexivity. }
  assert (He : e = s + full \/ e = s + full - 360).
  { assert (Q1 : forall a, 0 <= a < 360 -> polar C r a Q -> a = e).
    { intros a Ba Pa. pose proof (circle_inverse_ok (Circ C r None) a R0 Ba) as I1.
      pose proof (circle_inverse_ok (Circ C r None) e R0 Be) as I2.
      rewrite (polar_unique C r a _ Q (circle_point_ok (Circ C r None) a) Pa) in I1.
      rewrite (polar_unique C r e _ Q (circle_point_ok (Circ C r None) e) Pe) in I2. congruence. }
    destruct (Rlt_le_dec (s + full) 360) as [H|H].
    - left. symmetry. apply Q1; [lra|exact Pq].
    - right. symmetry. apply Q1; [lra|]. apply (Per 1%Z). replace (s + full - 360 + 360 * 1) with (s + full) by ring. exact Pq. }
  assert (Sw : forall a, swept s e a <-> exists k : Z, s <= a + 360 * IZR k <= s + full).
  { intro a. unfold swept. destruct He as [-> | ->].
    - split; [intros [[_ H]|[H _]]; [exact H|lra]|intro H; left; split; [lra|exact H]].
    - replace (s + full - 360 + 360) with (s + full) by ring.
      split; [intros [[H _]|[_ H]]; [lra|exact H]|intro H; right; split; [lra|exact H]]. }
  cbn [shown c_domain]. split.
  - intros (a & Ba & I1 & ->). apply (inside_ok _ a 0) in I1; cbn [d_start d_stop]; [|lra|lra|lra].
    cbn [d_start d_stop] in I1. apply Sw in I1. destruct I1 as (k & I1).
    set (z := rad (a + 360 * IZR k - s)).
    assert (Hz : s + degrees z = a + 360 * IZR k) by (unfold z, degrees, rad; field; lra).
    assert (Bz : 0 <= z <= 4 * atan b).
    { rewrite <- Hfull. unfold z, rad. split; [apply Rmult_le_pos; [lra|lra]|apply Rmult_le_compat_r; lra]. }
    exists C, (z / (4 * atan b)). split; [apply center_ok; lra|]. split.
    + split; [apply Rmult_le_pos; [lra|left; apply Rinv_0_lt_compat; lra]|].
      apply (Rmult_le_reg_r (4 * atan b)); [lra|]. unfold Rdiv. rewrite Rmult_assoc, Rinv_l by lra. lra.
    + replace (z / (4 * atan b) * (4 * atan b)) with z by (field; lra).
      apply Turn. rewrite Hz. apply Per. apply (circle_point_ok (Circ C r (Some (Dom s e)))).
  - intros (C' & u & HC & Bu & HT). apply center_unique in HC; [|lra]. subst C'. fold C in HT. apply Turn in HT.
    set (g := degrees (u * (4 * atan b))) in *.
    assert (Bg : 0 <= g <= full).
    { unfold g. replace (degrees (u * (4 * atan b))) with (u * full) by (unfold full, degrees; field; lra). nra. }
    destruct (Rlt_le_dec (s + g) 360) as [H|H].
    + exists (s + g). split; [lra|]. split.
      * apply (inside_ok _ _ 0); cbn [d_start d_stop]; [lra|lra|lra|]. apply Sw. exists 0%Z. lra.
      * apply (polar_unique C r (s + g)); [exact HT|apply (circle_point_ok (Circ C r (Some (Dom s e))))].
    + exists (s + g - 360). split; [lra|]. split.
      * apply (inside_ok _ _ 0); cbn [d_start d_stop]; [lra|lra|lra|]. apply Sw. exists 1%Z. lra.
      * apply (polar_unique C r (s + g - 360)); [|apply (circle_point_ok (Circ C r (Some (Dom s e))))].
        apply (Per 1%Z). replace (s + g - 360 + 360 * 1) with (s + g) by ring. exact HT.
Qed.
