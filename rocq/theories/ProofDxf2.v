(** Lemmas on whole DXF polylines, negative bulges and ellipses. *)
From Coq Require Import Reals List Bool Arith Lra Lia Psatz.
From Verif Require Import Base ModelVector ModelLine ModelConic ModelDxf SpecVector SpecConic SpecDxf GlueDxf
  ProofVector ProofConic ProofConic3 ProofArc ProofDxf.
Import ListNotations.
Local Open Scope R_scope.

(** ** The legs *)
Definition leg_for (p : polyline) (ij : nat * nat) (leg : vec * vec * R) : Prop :=
  exists v w, getitem p (fst ij) = Ok v /\ getitem p (snd ij) = Ok w /\ next_is p (fst ij) w /\
  leg = (v_point v, v_point w, v_bulge v).
Definition corner (v : vertex) : vec * R := (v_point v, v_bulge v).

Lemma getitem_app pre v post c : getitem (Polyline c (pre ++ v :: post)) (length pre) = Ok v.
Proof. unfold getitem. cbn [pl_vertices]. rewrite nth_error_app2 by lia. rewrite Nat.sub_diag. reflexivity. Qed.
Lemma getitem_app1 pre v w post c : getitem (Polyline c (pre ++ v :: w :: post)) (S (length pre)) = Ok w.
Proof.
  unfold getitem. cbn [pl_vertices]. rewrite nth_error_app2 by lia. replace (S (length pre) - length pre)%nat with 1%nat by lia.
  reflexivity.
Qed.

Lemma legs_suffix (c : bool) (first : option vec) (suf : list vertex) : forall pre, suf <> [] ->
  (if c then exists f rest, pre ++ suf = f :: rest /\ first = Some (v_point f) else first = None) ->
  Forall2 (leg_for (Polyline c (pre ++ suf)))
    (map (fun i => (i, S i)) (seq (length pre) (length suf - 1)) ++
     (if c then [((length (pre ++ suf) - 1)%nat, O)] else []))
    (legs_from first (map corner suf)).
Proof.
  induction suf as [|v suf IH]; intros pre N HF; [congruence|].
  destruct suf as [|w suf].
  - cbn [length Nat.sub seq map app legs_from corner]. destruct c.
    + destruct HF as (f & rest & E & ->). repeat constructor. exists v, f. cbn [fst snd].
      replace (length (pre ++ [v]) - 1)%nat with (length pre) by (rewrite app_length; cbn; lia).
      split; [apply getitem_app|].
      assert (G : getitem (Polyline true (pre ++ [v])) 0 = Ok f) by (unfold getitem; cbn [pl_vertices]; rewrite E; reflexivity).
      split; [exact G|]. split; [|reflexivity].
      unfold next_is, next, is_last_index. cbn [pl_vertices pl_closed]. rewrite app_length. cbn [length].
      rewrite (proj2 (Nat.eqb_eq _ _)) by lia. rewrite G. reflexivity.
    + rewrite HF. constructor.
  - specialize (IH (pre ++ [v])). rewrite <- app_assoc in IH. cbn [app] in IH.
    rewrite app_length in IH. cbn [length] in IH.
    replace (length pre + 1)%nat with (S (length pre)) in IH by lia.
    cbn [length]. replace (S (S (length suf)) - 1)%nat with (S (S (length suf) - 1)) by lia.
    cbn [seq map app].
    change (legs_from first (corner v :: corner w :: map corner suf)) with
      ((v_point v, v_point w, v_bulge v) :: legs_from first (map corner (w :: suf))).
    constructor.
    + exists v, w. cbn [fst snd]. split; [apply getitem_app|]. split; [apply getitem_app1|]. split; [|reflexivity].
      unfold next_is, next, is_last_index. cbn [pl_vertices]. rewrite app_length. cbn [length].
      rewrite (proj2 (Nat.eqb_neq _ _)) by lia. rewrite getitem_app1. reflexivity.
    + apply IH; [discriminate|exact HF].
Qed.
Lemma legs_ok p : (pl_closed p = true -> pl_vertices p <> []) ->
  exists l, iter_on_segment p = Ok l /\ Forall2 (leg_for p) l (legs (pl_closed p) (corners p)).
Proof.
  intro N. destruct p as [c vs]. cbn [pl_closed pl_vertices] in N. unfold iter_on_segment, legs, corners.
  cbn [pl_closed pl_vertices].
  destruct vs as [|v vs].
  - destruct c; [destruct N; reflexivity|]. exists []. split; [reflexivity|constructor].
  - pose proof (legs_suffix c (if c then Some (v_point v) else None) (v :: vs) []) as L.
    cbn [app length] in L. fold corner. destruct c.
    + eexists. split; [reflexivity|]. cbn [length Nat.sub] in L |- *. rewrite Nat.sub_0_r in *.
      apply L; [discriminate|]. exists v, vs. auto.
    + eexists. split; [reflexivity|]. rewrite app_nil_r in L. apply L; [discriminate|reflexivity].
Qed.
Lemma iter_empty p : pl_closed p = true -> pl_vertices p = [] -> iter_on_segment p = Raise IndexError.
Proof. intros C V. unfold iter_on_segment. rewrite C, V. reflexivity. Qed.

Lemma traverse_legs {A B C} (f : A -> result B) (T : A -> C -> Prop) (G : C -> B -> Prop) :
  (forall a c b, T a c -> f a = Ok b -> G c b) ->
  forall l cs, Forall2 T l cs -> forall bs, traverse f l = Ok bs -> Forall2 G cs bs.
Proof.
  intros H l cs F. induction F as [|a c l cs HT F IH]; intros bs E.
  - injection E as <-. constructor.
  - cbn [traverse] in E. destruct (f a) as [b|] eqn:Ea; [|discriminate]. cbn [bind] in E.
    destruct (traverse f l) as [bs'|]; [|discriminate]. cbn [bind] in E. injection E as <-. constructor; [exact (H a c b HT Ea)|apply IH; reflexivity].
Qed.
Lemma traverse_iff {A B C} (f : A -> result B) (T : A -> C -> Prop) (G : C -> Prop) :
  (forall a c, T a c -> (is_ok (f a) <-> G c)) ->
  forall l cs, Forall2 T l cs -> (is_ok (traverse f l) <-> Forall G cs).
Proof.
  intros H l cs F. induction F as [|a c l cs HT F IH].
  - split; [constructor|]. intros _. exists []. reflexivity.
  - cbn [traverse]. pose proof (H a c HT) as Ha. split.
    + intros [bs E]. destruct (f a) as [b|] eqn:Ea; [|discriminate]. cbn [bind] in E.
      destruct (traverse f l) as [bs'|]; [|discriminate].
      constructor; [apply Ha; exists b; reflexivity|apply IH; exists bs'; reflexivity].
    + intro G0. inversion G0 as [|? ? G1 G2]; subst. apply Ha in G1. apply IH in G2. destruct G1 as [b ->], G2 as [bs ->].
      cbn [bind]. eexists. reflexivity.
Qed.

Definition draws (leg : vec * vec * R) (item : dxf_item) : Prop :=
  let '(P, Q, b) := leg in forall X, shown item X <-> on_leg P Q b X.

Lemma segment_shown P Q X : shown (ISegment (Seg P Q)) X <-> on_chord P Q X.
Proof.
  cbn [shown]. unfold on_chord. split.
  - intros (t & T & ->). exists t. split; [exact T|]. unfold s_interpolate, interpolate_two_points, vadd, vscale. cbn [s_p0 s_p1 vx vy]. split; ring.
  - intros (t & T & A & B). exists t. split; [exact T|]. apply vec_eq.
    + rewrite A. unfold s_interpolate, interpolate_two_points, vadd, vscale. cbn [s_p0 s_p1 vx vy]. ring.
    + rewrite B. unfold s_interpolate, interpolate_two_points, vadd, vscale. cbn [s_p0 s_p1 vx vy]. ring.
Qed.

Lemma geometry_cases (G : vec * vec * R -> dxf_item -> Prop) p :
  (forall ij leg item, leg_for p ij leg -> item_for p (fst ij) (snd ij) = Ok item -> G leg item) ->
  forall items, geometry p = Ok items -> Forall2 G (legs (pl_closed p) (corners p)) items.
Proof.
  intros H items E. unfold geometry in E.
  destruct (iter_on_segment p) as [l|] eqn:El; [|discriminate]. cbn [bind] in E.
  assert (N : pl_closed p = true -> pl_vertices p <> []) by (intros C V; rewrite iter_empty in El; [discriminate|exact C|exact V]).
  destruct (legs_ok p N) as (l' & El' & F). rewrite El in El'. injection El' as <-.
  apply (traverse_legs _ (leg_for p) G H l _ F items E).
Qed.
Lemma geometry_ok p items : geometry p = Ok items ->
  Forall2 (fun leg item => 0 <= snd leg -> draws leg item) (legs (pl_closed p) (corners p)) items.
Proof.
  apply geometry_cases. intros [i j] leg item (v & w & V & W & N & ->) E. cbn [fst snd] in *. intros B X.
  destruct (Req_dec (v_bulge v) 0) as [Z|Z].
  - rewrite (item_null p i j v w V W Z) in E. injection E as <-. rewrite segment_shown. unfold on_leg. tauto.
  - destruct (vec_dec (v_point v) (v_point w)) as [S|S]; [rewrite (item_stuck p i j v w V W N Z S) in E; discriminate|].
    destruct (item_arc p i j v w V W N Z S) as (s & e & E' & Bs & Ps & Be & Pe).
    rewrite E' in E. apply (f_equal (fun r => match r with Ok x => x | Raise _ => item end)) in E. cbv beta iota in E. subst item.
    rewrite (Rltb_false (v_bulge v) 0) by lra.
    assert (K : sign (v_bulge v) * kb (v_bulge v) = kb (v_bulge v)) by (unfold sign; rewrite Rltb_false by lra; ring).
    rewrite K in *. rewrite (positive_bulge_arc (v_point v) (v_point w) (v_bulge v) _ s e); try assumption; try lra.
    unfold on_leg. tauto.
Qed.
Lemma geometry_total p : is_ok (geometry p) <->
  (pl_closed p = true -> corners p <> []) /\
  Forall (fun leg => snd leg <> 0 -> fst (fst leg) <> snd (fst leg)) (legs (pl_closed p) (corners p)).
Proof.
  assert (NE : corners p <> [] <-> pl_vertices p <> []).
  { unfold corners. destruct (pl_vertices p); cbn; split; congruence. }
  assert (Main : (pl_closed p = true -> pl_vertices p <> []) -> (is_ok (geometry p) <->
    Forall (fun leg => snd leg <> 0 -> fst (fst leg) <> snd (fst leg)) (legs (pl_closed p) (corners p)))).
  { intro N. destruct (legs_ok p N) as (l & El & F). unfold geometry. rewrite El. cbn [bind].
    apply (traverse_iff _ (leg_for p)); [|exact F].
    intros [i j] leg (v & w & V & W & Nx & ->). cbn [fst snd] in *.
    destruct (Req_dec (v_bulge v) 0) as [Z|Z].
    - rewrite (item_null p i j v w V W Z). split; [intros _ X; congruence|intros _; eexists; reflexivity].
    - destruct (vec_dec (v_point v) (v_point w)) as [S|S].
      + rewrite (item_stuck p i j v w V W Nx Z S). split; [intros [x X]; discriminate|intro X; elim X; assumption].
      + destruct (item_arc p i j v w V W Nx Z S) as (s & e & E' & _). rewrite E'. split; [intros _ _; exact S|intros _; eexists; reflexivity]. }
  split.
  - intro O. assert (N : pl_closed p = true -> pl_vertices p <> []).
    { intros C V. destruct O as [x O]. unfold geometry in O. rewrite (iter_empty p C V) in O. discriminate. }
    split; [intro C; apply NE, N, C|apply Main; assumption].
  - intros [N F]. apply Main; [intro C; apply NE, N, C|exact F].
Qed.

(** ** Negative bulges *)
Lemma middle_on_arc P Q b M : arc_middle P Q b M -> on_bulge_arc P Q b M.
Proof.
  intros (C & HC & HM). exists C, (1 / 2). split; [exact HC|]. split; [lra|].
  replace (1 / 2 * (4 * atan b)) with (2 * atan b) by field. exact HM.
Qed.
Lemma polar_dist C r a X : polar C r a X -> dist C X * dist C X = r * r.
Proof.
  intros [A B]. rewrite dist_sq, A, B. pose proof (sin2_cos2 (rad a)) as T. unfold Rsqr in T.
  transitivity (r * r * (sin (rad a) * sin (rad a) + cos (rad a) * cos (rad a))); [ring|]. rewrite T. ring.
Qed.
Lemma circle_angle C r a b X : 0 < r -> 0 <= a < 360 -> 0 <= b < 360 -> polar C r a X -> polar C r b X -> a = b.
Proof.
  intros R0 Ba Bb Pa Pb. pose proof (circle_inverse_ok (Circ C r None) a R0 Ba) as I1.
  pose proof (circle_inverse_ok (Circ C r None) b R0 Bb) as I2.
  rewrite (polar_unique C r a _ X (circle_point_ok (Circ C r None) a) Pa) in I1.
  rewrite (polar_unique C r b _ X (circle_point_ok (Circ C r None) b) Pb) in I2. congruence.
Qed.
Lemma polar_turn C r a X : polar C r (a + 360) X <-> polar C r a X.
Proof.
  unfold polar. rewrite rad_plus, rad_360. replace (rad a + 2 * PI) with (rad a + 2 * INR 1 * PI) by (cbn; ring).
  rewrite cos_period, sin_period. reflexivity.
Qed.

Lemma negative_middle P Q b r s e M : b < 0 -> P <> Q -> r = dist P Q / 4 * (b + 1 / b) ->
  let C := center_of P Q (- kb b) in
  0 <= s < 360 -> polar C (dist C P) s P -> 0 <= e < 360 -> polar C (dist C Q) e Q ->
  arc_middle P Q b M -> ~ shown (IArc (Circ C r (Some (Dom e s)))) M.
Proof.
  intros B N Er C Bs Ps Be Pe HM Sh. pose proof (dist_pos P Q N) as D.
  apply middle_unique in HM; [|lra]. cbn [shown c_domain] in Sh. destruct Sh as (a & Ba & In & EM).
  pose proof (circle_point_ok (Circ C r (Some (Dom e s))) a) as PM. rewrite <- EM in PM. cbn [c_center c_radius] in PM.
  pose proof (polar_dist _ _ _ _ PM) as DM.
  assert (DM' : dist C M * dist C M = dist P Q * dist P Q * ((b / 2 - kb b) * (b / 2 - kb b))).
  { rewrite HM. rewrite !dist_sq. unfold C, middle_of, center_of. cbn [vx vy]. ring. }
  rewrite Er, radius_sq in DM by lra. rewrite DM' in DM.
  apply Rmult_eq_reg_l in DM; [|nra].
  assert (b = -1).
  { unfold kb in DM. apply (f_equal (fun x => 4 * b * b * x)) in DM.
    assert (DM2 : (3 * (b * b) - 1) * (3 * (b * b) - 1) = (1 + b * b) * (1 + b * b)).
    { apply (Rmult_eq_reg_l (/ 4)); [|lra]. transitivity (4 * b * b * ((b / 2 - (1 / b - b) / 4) * (b / 2 - (1 / b - b) / 4))); [field; lra|].
      rewrite DM. field. lra. }
    assert (Z : 8 * (b * b) * ((b + 1) * (b - 1)) = 0) by lra.
    apply Rmult_integral in Z. destruct Z as [Z|Z]; [nra|]. apply Rmult_integral in Z. destruct Z; lra. }
  subst b. assert (K : kb (-1) = 0) by (unfold kb; field). set (h := dist P Q / 2) in *.
  assert (Hr : r = - h) by (rewrite Er; unfold h; field). assert (H0 : 0 < h) by (unfold h; lra).
  destruct (center_dist P Q (- kb (-1))) as [A1 A2]. fold C in A1, A2. rewrite K in A1, A2.
  assert (E1 : dist C P = h) by (apply sq_eq_nonneg; [apply dist_nonneg|lra|rewrite A1; unfold h; field]).
  assert (E2 : dist C Q = h) by (apply sq_eq_nonneg; [apply dist_nonneg|lra|rewrite A2; unfold h; field]).
  rewrite E1 in Ps. rewrite E2 in Pe.
  assert (CX : vx C = (vx P + vx Q) / 2 /\ vy C = (vy P + vy Q) / 2) by (unfold C, center_of; cbn [vx vy]; rewrite K; split; ring).
  destruct CX as [CX CY].
  assert (MX : vx M = vx C - (vy Q - vy P) / 2 /\ vy M = vy C + (vx Q - vx P) / 2).
  { rewrite HM. unfold middle_of, center_of. cbn [vx vy]. rewrite CX, CY. split; field. }
  destruct MX as [MX MY].
  (* the angle of Q and of the shown point *)
  assert (R180 : rad 180 = PI) by (unfold rad; field). assert (R90 : rad 90 = PI / 2) by (unfold rad; field).
  assert (Qe : polar C h (s + 180) Q).
  { destruct Ps as [X1 Y1]. unfold polar. rewrite rad_plus, R180, neg_cos, neg_sin. split; lra. }
  assert (Ma : polar C h (s + 90) (V (2 * vx C - vx M) (2 * vy C - vy M))).
  { destruct Ps as [X1 Y1]. unfold polar. rewrite rad_plus, R90, cos_plus, sin_plus, cos_PI2, sin_PI2. cbn [vx vy]. split; lra. }
  assert (Ma' : polar C h a (V (2 * vx C - vx M) (2 * vy C - vy M))).
  { destruct PM as [X1 Y1]. rewrite Hr in X1, Y1. unfold polar. cbn [vx vy]. split; lra. }
  assert (He : e = s + 180 \/ e = s - 180).
  { destruct (Rlt_le_dec (s + 180) 360).
    - left. apply (circle_angle C h e (s + 180) Q); try assumption; lra.
    - right. apply (circle_angle C h e (s - 180) Q); try assumption; try lra. apply polar_turn.
      replace (s - 180 + 360) with (s + 180) by ring. exact Qe. }
  assert (Ha : a = s + 90 \/ a = s - 270).
  { destruct (Rlt_le_dec (s + 90) 360).
    - left. apply (circle_angle C h a (s + 90) (V (2 * vx C - vx M) (2 * vy C - vy M))); try assumption; lra.
    - right. apply (circle_angle C h a (s - 270) (V (2 * vx C - vx M) (2 * vy C - vy M))); try assumption; try lra. apply polar_turn.
      replace (s - 270 + 360) with (s + 90) by ring. exact Ma. }
  unfold d_is_inside, d_is_counterclockwise in In. cbn [d_start d_stop] in In.
  destruct (Rleb_spec e s) as [L|L].
  - apply andb_true_iff in In. destruct In as [I1 I2].
    destruct (Rleb_spec e a), (Rleb_spec a s); try discriminate. lra.
  - destruct (Rltb_spec s a), (Rltb_spec a e); try discriminate; lra.
Qed.
Lemma geometry_negative p items : geometry p = Ok items ->
  Forall2 (fun leg item => snd leg < 0 ->
    (exists c, item = IArc c /\ c_radius c < 0 /\ bulge_center (fst (fst leg)) (snd (fst leg)) (- snd leg) (c_center c)) /\
    exists M, arc_middle (fst (fst leg)) (snd (fst leg)) (snd leg) M /\
      on_bulge_arc (fst (fst leg)) (snd (fst leg)) (snd leg) M /\ ~ shown item M)
    (legs (pl_closed p) (corners p)) items.
Proof.
  apply geometry_cases. intros [i j] leg item (v & w & V & W & N & ->) E. cbn [fst snd] in *. intro B.
  destruct (vec_dec (v_point v) (v_point w)) as [S|S]; [rewrite (item_stuck p i j v w V W N) in E; [discriminate|lra|exact S]|].
  destruct (item_arc p i j v w V W N) as (s & e & E' & Bs & Ps & Be & Pe); [lra|exact S|].
  rewrite E' in E. apply (f_equal (fun r => match r with Ok x => x | Raise _ => item end)) in E. cbv beta iota in E. subst item.
  rewrite (Rltb_true (v_bulge v) 0) by lra.
  assert (K : sign (v_bulge v) * kb (v_bulge v) = - kb (v_bulge v)) by (unfold sign; rewrite Rltb_true by lra; ring).
  rewrite K in *. split.
  - eexists. split; [reflexivity|]. cbn [c_radius c_center]. split.
    + pose proof (dist_pos _ _ S) as D.
      assert (1 / v_bulge v < 0) by (unfold Rdiv; rewrite Rmult_1_l; apply Rinv_lt_0_compat; exact B). nra.
    + replace (- kb (v_bulge v)) with (kb (- v_bulge v)) by (unfold kb; field; lra). apply center_ok. lra.
  - exists (middle_of (v_point v) (v_point w) (v_bulge v)). assert (Mi := middle_ok (v_point v) (v_point w) (v_bulge v) ltac:(lra)).
    split; [exact Mi|]. split; [apply middle_on_arc; exact Mi|].
    apply (negative_middle (v_point v) (v_point w) (v_bulge v)); try assumption; reflexivity.
Qed.
