(** Lemmas on arrow heads. *)
From Coq Require Import Reals List Bool Lra Lia.
From Verif Require Import Base ModelVector ModelTransformation ModelPolygon ModelPath ModelBezier ModelLine ModelArrow SpecVector SpecArrow
  ProofVector.
Import ListNotations.
Local Open Scope R_scope.
Local Open Scope result_scope.

Lemma normalise_unit u : ~ null u -> exists w, normalise u = Ok w /\ vx u = len u * vx w /\ vy u = len u * vy w /\
  vx w * vx w + vy w * vy w = 1 /\ 0 < len u.
Proof.
  intros N. pose proof (len_pos u N) as L. unfold normalise, vdiv. rewrite magnitude_len, Reqb_false by lra.
  eexists. split; [reflexivity|]. cbn [vx vy].
  assert (S : len u * len u = vx u * vx u + vy u * vy u) by (unfold len; apply sqrt_sqrt; nra).
  repeat split; try (field; lra); [|exact L].
  apply (Rmult_eq_reg_r (len u * len u)); [|nra]. field_simplify; [|lra]. simpl. nra.
Qed.

Lemma null_dec u : {null u} + {~ null u}.
Proof.
  unfold null. destruct (Req_EM_T (vx u) 0); destruct (Req_EM_T (vy u) 0); [left; auto|right; tauto..].
Qed.

Lemma frame_eq p d x y : ~ null d -> along p d x = along p d y -> aside p d x = aside p d y -> x = y.
Proof.
  unfold along, aside, null. intros N A B. destruct x as [a b], y as [a' b'], p as [p q], d as [e f]. cbn [vx vy] in *.
  assert (D : 0 < e * e + f * f).
  { destruct (Req_EM_T e 0) as [->|E0]; [destruct (Req_EM_T f 0) as [->|F0]; [tauto|]|].
    - pose proof (Rsqr_pos_lt f F0) as G. unfold Rsqr in G. lra.
    - pose proof (Rsqr_pos_lt e E0) as G. unfold Rsqr in G. pose proof (Rle_0_sqr f) as G'. unfold Rsqr in G'. lra. }
  assert (X : (e * e + f * f) * (a - a') = 0).
  { replace _ with (e * ((e * (a - p) + f * (b - q)) - (e * (a' - p) + f * (b' - q))) - f * ((e * (b - q) - f * (a - p)) - (e * (b' - q) - f * (a' - p)))) by ring.
    rewrite A, B. ring. }
  assert (Y : (e * e + f * f) * (b - b') = 0).
  { replace _ with (f * ((e * (a - p) + f * (b - q)) - (e * (a' - p) + f * (b' - q))) + e * ((e * (b - q) - f * (a - p)) - (e * (b' - q) - f * (a' - p)))) by ring.
    rewrite A, B. ring. }
  apply Rmult_integral in X. apply Rmult_integral in Y. f_equal; lra.
Qed.

Lemma pointer_unique p d a w t l r t' l' r' : ~ null d ->
  pointer p d a w t l r -> pointer p d a w t' l' r' -> t = t' /\ l = l' /\ r = r'.
Proof.
  intros N [T [L1 L2] [R1 R2]] [T' [L1' L2'] [R1' R2']]. repeat split; [congruence|apply (frame_eq p d); congruence..].
Qed.

Definition head_of (p e : vec) (a w o : R) : head := Head p e a w o true true true.
Definition lpoint p e a w := vadd (vsub p (vscale e a)) (vscale (normal e) w).
Definition rpoint p e a w := vsub (vsub p (vscale e a)) (vscale (normal e) w).

Lemma pointer_made p d e a w : vx d = len d * vx e -> vy d = len d * vy e -> vx e * vx e + vy e * vy e = 1 ->
  pointer p d a w p (lpoint p e a w) (rpoint p e a w).
Proof.
  intros X Y U. unfold lpoint, rpoint. constructor; [reflexivity|..]; unfold along, aside, vadd, vsub, vscale, normal; cbn [vx vy];
    rewrite X, Y; split.
  - transitivity (- a * len d * (vx e * vx e + vy e * vy e)); [ring|rewrite U; ring].
  - transitivity (w * len d * (vx e * vx e + vy e * vy e)); [ring|rewrite U; ring].
  - transitivity (- a * len d * (vx e * vx e + vy e * vy e)); [ring|rewrite U; ring].
  - transitivity (- w * len d * (vx e * vx e + vy e * vy e)); [ring|rewrite U; ring].
Qed.

Lemma triangle p d a w : ~ null d -> exists h P l r, triangular_head p d a w 0 true true = Ok (h, P) /\
  p_points P = [p; l; r] /\ pointer p d a w p l r /\ tip_point h = p /\
  left_point h = Ok (Some l) /\ right_point h = Ok (Some r).
Proof.
  intros N. destruct (normalise_unit d N) as (e & E & X & Y & U & _).
  exists (head_of p e a w 0), (Poly [p; lpoint p e a w; rpoint p e a w] None None None None None None),
    (lpoint p e a w), (rpoint p e a w).
  split; [|split; [reflexivity|split; [apply pointer_made; assumption|repeat split]]].
  unfold triangular_head, new_head. rewrite E. cbn [bind negb andb].
  unfold make_points, has_axial_offset. cbn [h_offset]. rewrite Reqb_refl. reflexivity.
Qed.

Lemma triangle_null p d a w o l r : null d -> triangular_head p d a w o l r = Raise NotANumber.
Proof.
  intros [X Y]. unfold triangular_head, new_head, normalise, vdiv. rewrite magnitude_len.
  unfold len. rewrite X, Y. replace (0 * 0 + 0 * 0) with 0 by ring. rewrite sqrt_0, Reqb_refl. reflexivity.
Qed.

Lemma triangle_side p d a w o l r : ~ null d -> l && r = false -> triangular_head p d a w o l r = Raise AttributeError.
Proof.
  intros N S. destruct (normalise_unit d N) as (e & E & _).
  unfold triangular_head, new_head. rewrite E. cbn [bind].
  unfold make_points, has_axial_offset, both_side, only_left, offseted_back_tip_point, left_point, right_point, back_tip_point.
  cbn [h_offset h_left h_right h_ready]. rewrite S.
  destruct l, r; try discriminate S; destruct (Reqb o 0); reflexivity.
Qed.

Lemma triangle_offset p d a w o l r : ~ null d -> o <> 0 -> triangular_head p d a w o l r = Raise AttributeError.
Proof.
  intros N O. destruct (normalise_unit d N) as (e & E & _).
  unfold triangular_head, new_head. rewrite E. cbn [bind].
  unfold make_points, has_axial_offset, both_side, only_left, offseted_back_tip_point, left_point, right_point, back_tip_point.
  cbn [h_offset h_left h_right h_ready]. rewrite Reqb_false by assumption.
  destruct l, r; reflexivity.
Qed.

Lemma len_scaled k d : 0 < k -> len (V (k * vx d) (k * vy d)) = k * len d.
Proof.
  intros K. unfold len. cbn [vx vy]. replace (k * vx d * (k * vx d) + k * vy d * (k * vy d)) with ((k * k) * (vx d * vx d + vy d * vy d)) by ring.
  rewrite sqrt_mult by nra. rewrite sqrt_square by lra. reflexivity.
Qed.

(** The magnitude of the direction does not matter. *)
Lemma pointer_scaled p d a w k t l r : 0 < k -> pointer p d a w t l r -> pointer p (V (k * vx d) (k * vy d)) a w t l r.
Proof.
  intros K [T [L1 L2] [R1 R2]]. constructor; [exact T|..]; rewrite len_scaled by assumption; unfold along, aside in *; cbn [vx vy] in *; nra.
Qed.

(** Moving the anchor point and the direction moves the head. *)
Lemma turned_len t a b : turned t a b -> len b = len a.
Proof.
  intros [X Y]. unfold len. rewrite X, Y. f_equal. pose proof (sin2_cos2 t) as S. unfold Rsqr in S.
  replace _ with ((sin t * sin t + cos t * cos t) * (vx a * vx a + vy a * vy a)) by ring. rewrite S. ring.
Qed.
Lemma moved_frame t q p d x p' d' x' : turned t d d' -> moved t q p p' -> moved t q x x' ->
  along p' d' x' = along p d x /\ aside p' d' x' = aside p d x.
Proof.
  intros [DX DY] (a & [AX AY] & PX & PY) (b & [BX BY] & QX & QY). unfold along, aside.
  rewrite DX, DY, PX, PY, QX, QY, AX, AY, BX, BY. pose proof (sin2_cos2 t) as S. unfold Rsqr in S.
  split.
  - replace _ with ((sin t * sin t + cos t * cos t) * (vx d * (vx x - vx p) + vy d * (vy x - vy p))) by ring. rewrite S. ring.
  - replace _ with ((sin t * sin t + cos t * cos t) * (vx d * (vy x - vy p) - vy d * (vx x - vx p))) by ring. rewrite S. ring.
Qed.
Lemma pointer_moved u q p d a w l r p' d' l' r' : turned u d d' -> moved u q p p' -> moved u q l l' -> moved u q r r' ->
  pointer p d a w p l r -> pointer p' d' a w p' l' r'.
Proof.
  intros D P L R' [T [L1 L2] [R1 R2]].
  destruct (moved_frame u q p d l p' d' l' D P L) as [X Y]. destruct (moved_frame u q p d r p' d' r' D P R') as [X' Y'].
  constructor; [reflexivity|..]; rewrite (turned_len u d d' D); split; congruence.
Qed.
Lemma turned_null t a b : turned t a b -> null b -> null a.
Proof.
  intros [X Y] [Z1 Z2]. rewrite X in Z1. rewrite Y in Z2. pose proof (sin2_cos2 t) as S. unfold Rsqr in S. split.
  - replace (vx a) with (cos t * (cos t * vx a - sin t * vy a) + sin t * (sin t * vx a + cos t * vy a)); [rewrite Z1, Z2; ring|].
    replace (vx a) with ((sin t * sin t + cos t * cos t) * vx a) at 3 by (rewrite S; ring). ring.
  - replace (vy a) with (- sin t * (cos t * vx a - sin t * vy a) + cos t * (sin t * vx a + cos t * vy a)); [rewrite Z1, Z2; ring|].
    replace (vy a) with ((sin t * sin t + cos t * cos t) * vy a) at 3 by (rewrite S; ring). ring.
Qed.

Lemma head_moved u q p d a w p' d' : ~ null d -> turned u d d' -> moved u q p p' ->
  exists h P h' P', triangular_head p d a w 0 true true = Ok (h, P) /\ triangular_head p' d' a w 0 true true = Ok (h', P') /\
    Forall2 (moved u q) (p_points P) (p_points P').
Proof.
  intros N D M. destruct (triangle p d a w N) as (h & P & l & r & E & EP & G & _).
  assert (N' : ~ null d') by (intros Z; exact (N (turned_null u d d' D Z))).
  destruct (triangle p' d' a w N') as (h' & P' & l' & r' & E' & EP' & G' & _).
  exists h, P, h', P'. repeat (split; [assumption|]). rewrite EP, EP'.
  pose (im := fun x => V (vx q + (cos u * vx x - sin u * vy x)) (vy q + (sin u * vx x + cos u * vy x))).
  assert (I : forall x, moved u q x (im x)).
  { intros x. exists (V (cos u * vx x - sin u * vy x) (sin u * vx x + cos u * vy x)). repeat split. }
  destruct (pointer_unique p' d' a w p' l' r' p' (im l) (im r) N' G' (pointer_moved u q p d a w l r p' d' (im l) (im r) D M (I l) (I r) G))
    as (_ & -> & ->). repeat constructor; auto.
Qed.

(** The angle of the head *)
Lemma head_angle_ok h p l r d : h_length h <> 0 \/ h_width h <> 0 ->
  pointer p d (h_length h) (h_width h) p l r -> ~ null d -> exists x, head_angle h = Ok x /\
  let u := V (vx l - vx p) (vy l - vy p) in let v := V (vx r - vx p) (vy r - vy p) in
  dot u v = len u * len v * cos (rad x) /\ cross u v = len u * len v * sin (rad x).
Proof.
  intros H [_ [L1 L2] [R1 R2]] ND.
  destruct (orientation_ok (V (h_length h) (h_width h))) as (t & E & _ & X & Y).
  { intros [A B]. cbn in A, B. tauto. }
  exists (2 * t). unfold head_angle. rewrite E. split; [reflexivity|].
  set (a := h_length h) in *. set (w := h_width h) in *. clearbody a w. cbn [vx vy] in X, Y.
  pose proof (len_pos d ND) as LD.
  assert (SD : len d * len d = vx d * vx d + vy d * vy d) by (unfold len; apply sqrt_sqrt; nra).
  set (n := len (V a w)) in *.
  assert (SN : n * n = a * a + w * w) by (unfold n, len; cbn [vx vy]; apply sqrt_sqrt; nra).
  assert (PN : 0 <= n) by apply sqrt_pos.
  assert (LU : forall x, along p d x = - a * len d -> (aside p d x = w * len d \/ aside p d x = - w * len d) ->
               len (V (vx x - vx p) (vy x - vy p)) = n).
  { intros x A B. apply Rsqr_inj; [apply sqrt_pos|exact PN|]. unfold Rsqr. rewrite SN. rewrite len_sq. cbn [vx vy].
    assert (K : (len d * len d) * ((vx x - vx p) * (vx x - vx p) + (vy x - vy p) * (vy x - vy p)) = (len d * len d) * (a * a + w * w)).
    { rewrite SD at 1. unfold along, aside in A, B.
      replace ((vx d * vx d + vy d * vy d) * ((vx x - vx p) * (vx x - vx p) + (vy x - vy p) * (vy x - vy p)))
        with ((vx d * (vx x - vx p) + vy d * (vy x - vy p)) * (vx d * (vx x - vx p) + vy d * (vy x - vy p)) +
              (vx d * (vy x - vy p) - vy d * (vx x - vx p)) * (vx d * (vy x - vy p) - vy d * (vx x - vx p))) by ring.
      rewrite A. destruct B as [->| ->]; ring. }
    apply Rmult_eq_reg_l in K; nra. }
  cbv zeta. rewrite (LU l), (LU r) by auto.
  replace (rad (2 * t)) with (2 * rad t) by (unfold rad; field). rewrite cos_2a, sin_2a.
  unfold dot, cross. cbn [vx vy]. unfold along, aside in *.
  set (ux := vx l - vx p) in *. set (uy := vy l - vy p) in *. set (sx := vx r - vx p) in *. set (sy := vy r - vy p) in *.
  clearbody ux uy sx sy. set (dx := vx d) in *. set (dy := vy d) in *.
  assert (QD : 0 < len d * len d) by nra.
  split; apply (Rmult_eq_reg_l (len d * len d)); try lra.
  - rewrite SD at 1. replace ((dx * dx + dy * dy) * (ux * sx + uy * sy)) with
      ((dx * ux + dy * uy) * (dx * sx + dy * sy) + (dx * uy - dy * ux) * (dx * sy - dy * sx)) by ring.
    rewrite L1, L2, R1, R2, X, Y. ring.
  - rewrite SD at 1. replace ((dx * dx + dy * dy) * (ux * sy - uy * sx)) with
      ((dx * ux + dy * uy) * (dx * sy - dy * sx) - (dx * uy - dy * ux) * (dx * sx + dy * sy)) by ring.
    rewrite L1, L2, R1, R2, X, Y. ring.
Qed.

(** ** Curvy heads *)
Lemma curvy p d a w k : ~ null d -> exists h P l r b c, curvy_head p d a w k 0 true true = Ok (h, P) /\
  pointer p d a w p l r /\ bent p l k b /\ bent p r k c /\
  left_point h = Ok (Some l) /\ right_point h = Ok (Some r) /\
  left_curved_point h k = Ok (Some b) /\ right_curved_point h k = Ok (Some c) /\
  P = Path p [PQuad b l true; Linear (PLine r true) (plain None false); PQuad c p true; Linear (PLine p true) (plain None false)] true.
Proof.
  intros N. destruct (normalise_unit d N) as (e & E & X & Y & U & _).
  pose (ctrl := fun v => vsub (V (vx (vadd v p) / 2) (vy (vadd v p) / 2)) (vscale (normal (vsub v p)) k)).
  set (l := lpoint p e a w). set (r := rpoint p e a w).
  assert (CP : forall h s v, tip_point h = p -> s = Ok (Some v) -> curved_point h k s = Ok (Some (ctrl v))).
  { intros h s v T ->. unfold curved_point. cbn [bind]. rewrite T. unfold vdiv. rewrite Reqb_false by lra. reflexivity. }
  assert (B : forall v, bent p v k (ctrl v)).
  { intros v. exists (V ((vx p + vx v) / 2) ((vy p + vy v) / 2)). unfold ctrl, vsub, vadd, vscale, normal. cbn [vx vy]. repeat split; field. }
  set (h := head_of p e a w 0).
  assert (L : left_point h = Ok (Some l)) by reflexivity.
  assert (R' : right_point h = Ok (Some r)) by reflexivity.
  assert (LC : left_curved_point h k = Ok (Some (ctrl l))) by (apply CP; [reflexivity|exact L]).
  assert (RC : right_curved_point h k = Ok (Some (ctrl r))) by (apply CP; [reflexivity|exact R']).
  exists h, (Path p [PQuad (ctrl l) l true; Linear (PLine r true) (plain None false); PQuad (ctrl r) p true; Linear (PLine p true) (plain None false)] true),
    l, r, (ctrl l), (ctrl r).
  split; [|split; [apply pointer_made; assumption|repeat (split; [apply B || assumption|]); reflexivity]].
  unfold curvy_head, new_head. rewrite E. cbn [bind negb andb]. change (Head p e a w 0 true true true) with h.
  assert (M : make_path h k = Ok [QuadraticTo (ctrl l) l true; LineTo r None true; QuadraticTo (ctrl r) p true; Close None None]).
  { unfold make_path. unfold has_axial_offset. replace (h_offset h) with 0 by reflexivity. rewrite Reqb_refl.
    cbn [negb]. replace (both_side h) with true by reflexivity. rewrite LC, L, R', RC. reflexivity. }
  rewrite M. reflexivity.
Qed.

Lemma curvy_pieces p l r b c :
  let P := Path p [PQuad b l true; Linear (PLine r true) (plain None false); PQuad c p true; Linear (PLine p true) (plain None false)] true in
  map (fun i => fst (geometry i P)) (seq 0 (length (parts P))) =
    [Ok (GQuad (Quad p b l)); Ok (GSegment (Seg l r)); Ok (GQuad (Quad r c p)); Ok (GSegment (Seg p p))].
Proof. reflexivity. Qed.

Lemma curvy_side p d a w k o l r : ~ null d -> l && r = false \/ o <> 0 -> curvy_head p d a w k o l r = Raise AttributeError.
Proof.
  intros N S. destruct (normalise_unit d N) as (e & E & _).
  unfold curvy_head, new_head. rewrite E. cbn [bind].
  unfold make_path, has_axial_offset, both_side, only_left, offseted_back_tip_point, left_curved_point, right_curved_point, curved_point,
    left_point, right_point, back_tip_point.
  cbn [h_offset h_left h_right h_ready tip_point h_point h_direction h_length h_width].
  assert (D : forall v, vdiv v 2 = Ok (V (vx v / 2) (vy v / 2))) by (intros v; unfold vdiv; rewrite Reqb_false by lra; reflexivity).
  destruct S as [S|S].
  - destruct l, r; try discriminate S; destruct (Reqb o 0); reflexivity.
  - rewrite Reqb_false by assumption. destruct l, r; cbn [andb negb bind]; rewrite ?D; cbn [bind]; try rewrite D; reflexivity.
Qed.

Lemma bent_frame p d x k c : bent p x k c ->
  2 * along p d c = along p d x + 2 * k * aside p d x /\ 2 * aside p d c = aside p d x - 2 * k * along p d x.
Proof.
  intros (m & X & Y & CX & CY). unfold along, aside. rewrite CX, CY.
  assert (X' : vx m = (vx p + vx x) / 2) by lra. assert (Y' : vy m = (vy p + vy x) / 2) by lra. rewrite X', Y'. split; field.
Qed.

Lemma curvy_mirror p d a w k l r b c : ~ null d -> pointer p d a w p l r -> bent p l k b -> bent p r k c ->
  (mirror p d b c <-> k = 0 \/ a = 0 /\ w = 0).
Proof.
  intros N [_ [L1 L2] [R1 R2]] B C. pose proof (len_pos d N) as LD.
  destruct (bent_frame p d l k b B) as [B1 B2]. destruct (bent_frame p d r k c C) as [C1 C2].
  rewrite L1, L2 in *. rewrite R1, R2 in *. unfold mirror. split.
  - intros [X Y].
    assert (K1 : k * w = 0). { assert (4 * (len d * (k * w)) = 0) by nra. assert (len d * (k * w) = 0) by lra. apply Rmult_integral in H0. lra. }
    assert (K2 : k * a = 0). { assert (4 * (len d * (k * a)) = 0) by nra. assert (len d * (k * a) = 0) by lra. apply Rmult_integral in H0. lra. }
    apply Rmult_integral in K1. apply Rmult_integral in K2. tauto.
  - intros [->|[-> ->]]; split; nra.
Qed.
