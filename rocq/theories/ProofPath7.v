(** Paths: ready made paths, witnesses, copies, conversions. *)
From Coq Require Import Reals List ZArith Bool Lia Lra Psatz.
From Verif Require Import Base ModelVector ModelTransformation ModelLine ModelBezier ModelConic ModelPath
  SpecVector SpecTransformation SpecConic SpecPath GluePath ProofVector ProofTransformation ProofConic ProofConic3
  ProofPath ProofPath2 ProofPath3 ProofPath4 ProofPath5 ProofPath6.
Import ListNotations.
Local Open Scope R_scope.

Lemma draw_history l : forall p, history p (map Command l) = draw p l.
Proof. induction l as [|c l IH]; intros p; [reflexivity|]. cbn. destruct (do_command p c); [apply IH|reflexivity]. Qed.
Lemma drawing_commands l : Forall drawing (map Command l).
Proof. induction l; constructor; cbn; auto. Qed.

(** ** Rounded rectangles and circles *)
Definition rectangle_path (q : vec) (w h r : R) : path :=
  Path q [Linear (PDir 0 w) (close_corner (Some r) (plain None false)); Linear (PDir 90 h) (plain (Some (Rabs r)) false);
          Linear (PDir 0 (- w)) (plain (Some (Rabs r)) false); Linear (PLine q true) (plain (Some (Rabs r)) true)] true.
Lemma rectangle_path_eq q w h r : rounded_rectangle q w h (Some r) = Ok (rectangle_path q w h r).
Proof. reflexivity. Qed.

Definition corner_points (q : vec) (w h : R) : list vec :=
  [q; V (vx q + w) (vy q); V (vx q + w) (vy q + h); V (vx q) (vy q + h)].

Lemma rectangle_follows q w h r i P B : nth_error (corner_points q w h) i = Some P ->
  nth_error (corner_points q w h ++ [q]) (S i) = Some B -> start_point (rectangle_path q w h r) i = Ok P /\ stop_point (rectangle_path q w h r) i = Ok B.
Proof.
  intros HP HB.
  assert (D : Forall drawable [HorizontalTo w None false; VerticalTo h (Some r) false; HorizontalTo (- w) (Some r) false; Close (Some r) (Some r)]).
  { repeat constructor. }
  destruct (draw_follows q _ (rectangle_path q w h r) D (rectangle_path_eq q w h r)) as [_ F].
  apply (F i). cbn [map pen trace arrive]. destruct i as [|[|[|[|i]]]]; cbn in HP, HB |- *; try (destruct i; discriminate); injection HP as <-; injection HB as <-; f_equal; apply pair_equal_spec; split; apply vec_eq; cbn; ring.
Qed.

Lemma heading_x a b w : 0 < w -> vx b = vx a + w -> vy b = vy a -> heading a b (V 1 0).
Proof.
  intros W X Y. assert (D : dist a b = w).
  { unfold dist. transitivity (sqrt (w * w)); [f_equal; rewrite X, Y; ring|apply sqrt_square; lra]. }
  split; [intros ->; lra|]. rewrite D, X, Y. cbn. split; ring.
Qed.
Lemma heading_mx a b w : 0 < w -> vx b = vx a - w -> vy b = vy a -> heading a b (V (-1) 0).
Proof.
  intros W X Y. assert (D : dist a b = w).
  { unfold dist. transitivity (sqrt (w * w)); [f_equal; rewrite X, Y; ring|apply sqrt_square; lra]. }
  split; [intros ->; lra|]. rewrite D, X, Y. cbn. split; ring.
Qed.
Lemma heading_y a b w : 0 < w -> vx b = vx a -> vy b = vy a + w -> heading a b (V 0 1).
Proof.
  intros W X Y. assert (D : dist a b = w).
  { unfold dist. transitivity (sqrt (w * w)); [f_equal; rewrite X, Y; ring|apply sqrt_square; lra]. }
  split; [intros ->; lra|]. rewrite D, X, Y. cbn. split; ring.
Qed.
Lemma heading_my a b w : 0 < w -> vx b = vx a -> vy b = vy a - w -> heading a b (V 0 (-1)).
Proof.
  intros W X Y. assert (D : dist a b = w).
  { unfold dist. transitivity (sqrt (w * w)); [f_equal; rewrite X, Y; ring|apply sqrt_square; lra]. }
  split; [intros ->; lra|]. rewrite D, X, Y. cbn. split; ring.
Qed.

Lemma rectangle_rounded q w h r i : 0 < r -> (i < 4)%nat -> rounded (rectangle_path q w h r) i r.
Proof.
  intros R0 Hi. assert (A : Rabs r = r) by (apply Rabs_pos_eq; lra). unfold rounded, rectangle_path. cbn [parts].
  destruct i as [|[|[|[|i]]]]; [| | | |lia]; cbn [nth_error]; eexists; eexists; (split; [reflexivity|]); cbn; congruence.
Qed.
Lemma rectangle_sound q w h r : sane (rectangle_path q w h r) /\ coherent (rectangle_path q w h r).
Proof.
  apply (drawn_coherent q (map Command [HorizontalTo w None false; VerticalTo h (Some r) false; HorizontalTo (- w) (Some r) false; Close (Some r) (Some r)])).
  - apply drawing_commands.
  - rewrite draw_history. apply rectangle_path_eq.
Qed.

Lemma rectangle_corner q w h r i A P B d1 d2 : 0 < r -> (i < 4)%nat ->
  nth_error (corner_points q w h) (before (rectangle_path q w h r) i) = Some A ->
  nth_error (corner_points q w h) i = Some P ->
  nth_error (corner_points q w h ++ [q]) (S i) = Some B -> heading A P d1 -> heading P B d2 ->
  corner_data (rectangle_path q w h r) i r P d1 d2.
Proof.
  intros R0 Hi HA HP HB H1 H2.
  assert (SA : start_point (rectangle_path q w h r) (before (rectangle_path q w h r) i) = Ok A).
  { apply (rectangle_follows q w h r _ A P HA). destruct i as [|i]; cbn [before rectangle_path parts length] in *.
    - cbn in HP |- *. exact HP.
    - rewrite nth_error_app1 by (cbn; lia). exact HP. }
  destruct (rectangle_follows q w h r i P B HP HB) as [SP SB].
  apply (corner_from_points _ i r A P B d1 d2 (proj1 (rectangle_sound q w h r)) (rectangle_rounded q w h r i R0 Hi) SA SP SB H1 H2).
Qed.

Definition rectangle_arcs (q : vec) (w h r : R) : list (vec * vec * vec) :=
  let at_ x y := V (vx q + x) (vy q + y) in
  [ (at_ r r, at_ 0 r, at_ r 0);
    (at_ (w - r) r, at_ (w - r) 0, at_ w r);
    (at_ (w - r) (h - r), at_ w (h - r), at_ (w - r) h);
    (at_ r (h - r), at_ r h, at_ 0 (h - r)) ].

Lemma arc_values P d1 d2 r : Rabs (crossv d1 d2) = 1 -> dotv d1 d2 = 0 ->
  arc_center P d1 d2 r = V (vx P + r * (vx d2 - vx d1)) (vy P + r * (vy d2 - vy d1)) /\
  arc_start P d1 d2 r = V (vx P - r * vx d1) (vy P - r * vy d1) /\
  arc_stop P d1 d2 r = V (vx P + r * vx d2) (vy P + r * vy d2).
Proof.
  intros C D. unfold arc_center, arc_start, arc_stop, arc_ratio. rewrite C, D.
  split; [|split]; apply vec_eq; cbn; field.
Qed.

Lemma rectangle_values q w h r i c s e : 0 < r -> 0 < w -> 0 < h -> nth_error (rectangle_arcs q w h r) i = Some (c, s, e) ->
  pcenter (rectangle_path q w h r) i = Ok c /\ pstart (rectangle_path q w h r) i = Ok s /\ pstop (rectangle_path q w h r) i = Ok e.
Proof.
  intros R0 W0 H0 H.
  assert (G : forall A P B d1 d2, (i < 4)%nat ->
    nth_error (corner_points q w h) (before (rectangle_path q w h r) i) = Some A ->
    nth_error (corner_points q w h) i = Some P -> nth_error (corner_points q w h ++ [q]) (S i) = Some B ->
    heading A P d1 -> heading P B d2 -> crossv d1 d2 = 1 -> dotv d1 d2 = 0 ->
    c = V (vx P + r * (vx d2 - vx d1)) (vy P + r * (vy d2 - vy d1)) -> s = V (vx P - r * vx d1) (vy P - r * vy d1) ->
    e = V (vx P + r * vx d2) (vy P + r * vy d2) ->
    pcenter (rectangle_path q w h r) i = Ok c /\ pstart (rectangle_path q w h r) i = Ok s /\ pstop (rectangle_path q w h r) i = Ok e).
  { intros A P B d1 d2 Hi HA HP HB H1 H2 C D -> -> ->.
    pose proof (rectangle_corner q w h r i A P B d1 d2 R0 Hi HA HP HB H1 H2) as K.
    assert (N : crossv d1 d2 <> 0) by lra. destruct (corner_values _ i r P d1 d2 K N) as (V1 & V2 & V3 & _).
    destruct (arc_values P d1 d2 r) as (A1 & A2 & A3); [rewrite C; apply Rabs_R1|exact D|].
    rewrite A1 in V1. rewrite A2 in V2. rewrite A3 in V3. auto. }
  destruct i as [|[|[|[|i]]]]; cbn in H; [| | | |destruct i; discriminate]; injection H as <- <- <-.
  - apply (G (V (vx q) (vy q + h)) q (V (vx q + w) (vy q)) (V 0 (-1)) (V 1 0)); try reflexivity; try lia;
      try (apply vec_eq; cbn; ring); try (unfold crossv, dotv; cbn; ring).
    + apply (heading_my _ _ h); cbn; lra.
    + apply (heading_x _ _ w); cbn; lra.
  - apply (G q (V (vx q + w) (vy q)) (V (vx q + w) (vy q + h)) (V 1 0) (V 0 1)); try reflexivity; try lia;
      try (apply vec_eq; cbn; ring); try (unfold crossv, dotv; cbn; ring).
    + apply (heading_x _ _ w); cbn; lra.
    + apply (heading_y _ _ h); cbn; lra.
  - apply (G (V (vx q + w) (vy q)) (V (vx q + w) (vy q + h)) (V (vx q) (vy q + h)) (V 0 1) (V (-1) 0)); try reflexivity; try lia;
      try (apply vec_eq; cbn; ring); try (unfold crossv, dotv; cbn; ring).
    + apply (heading_y _ _ h); cbn; lra.
    + apply (heading_mx _ _ w); cbn; lra.
  - apply (G (V (vx q + w) (vy q + h)) (V (vx q) (vy q + h)) q (V (-1) 0) (V 0 (-1))); try reflexivity; try lia;
      try (apply vec_eq; cbn; ring); try (unfold crossv, dotv; cbn; ring).
    + apply (heading_mx _ _ w); cbn; lra.
    + apply (heading_my _ _ h); cbn; lra.
Qed.

Lemma rectangle_ok q w h r : 0 < r -> 0 < w -> 0 < h -> exists p, rounded_rectangle q w h (Some r) = Ok p /\ closed p = true /\
  length (parts p) = 4%nat /\ forall i c s e, nth_error (rectangle_arcs q w h r) i = Some (c, s, e) ->
    rounded p i r /\ fst (bulge_center i p) = Ok c /\ fst (bulge_start_point i p) = Ok s /\ fst (bulge_stop_point i p) = Ok e.
Proof.
  intros R0 W0 H0. exists (rectangle_path q w h r). split; [reflexivity|]. split; [reflexivity|]. split; [reflexivity|].
  intros i c s e H. assert (Hi : (i < 4)%nat). { apply (nth_error_Some (rectangle_arcs q w h r) i). congruence. }
  split; [apply rectangle_rounded; assumption|].
  pose proof (proj2 (rectangle_sound q w h r)) as Hc.
  rewrite (read_value _ _ _ _ (reads_center i) Hc), (read_value _ _ _ _ (reads_start i) Hc), (read_value _ _ _ _ (reads_stop i) Hc).
  apply rectangle_values; assumption.
Qed.

Lemma circle_path_ok q r : 0 < r -> exists p, circle_path q r = Ok p /\ length (parts p) = 4%nat /\ forall i, (i < 4)%nat ->
  exists j, fst (bulge_center i p) = Ok (V (vx q + r) (vy q + r)) /\ rounded p i r /\
    fst (bulge_stop_point i p) = Ok j /\ fst (bulge_start_point (Nat.modulo (i + 1) 4) p) = Ok j.
Proof.
  intros R0. destruct (rectangle_ok q (2 * r) (2 * r) r R0 ltac:(lra) ltac:(lra)) as (p & E & _ & L & F).
  exists p. split; [exact E|]. split; [exact L|]. intros i Hi.
  assert (C : forall c s e j s' e' c', nth_error (rectangle_arcs q (2 * r) (2 * r) r) i = Some (c, s, e) ->
    nth_error (rectangle_arcs q (2 * r) (2 * r) r) (Nat.modulo (i + 1) 4) = Some (c', s', e') -> j = e -> s' = j -> c = V (vx q + r) (vy q + r) ->
    exists j, fst (bulge_center i p) = Ok (V (vx q + r) (vy q + r)) /\ rounded p i r /\
    fst (bulge_stop_point i p) = Ok j /\ fst (bulge_start_point (Nat.modulo (i + 1) 4) p) = Ok j).
  { intros c s e j s' e' c' H1 H2 -> -> ->. destruct (F _ _ _ _ H1) as (A1 & A2 & A3 & A4). destruct (F _ _ _ _ H2) as (B1 & B2 & B3 & B4).
    exists e. auto. }
  destruct i as [|[|[|[|i]]]]; [| | | |lia]; (eapply C; [reflexivity|reflexivity|reflexivity| |]); apply vec_eq; cbn; ring.
Qed.

(** ** Copies *)

Definition clone_step (acc : result path) (q : part) : result path :=
  (c <- acc ;; q <- clone_part c q ;; Ok (set_parts c (parts c ++ [q])))%result.
Lemma clone_raise l e : fold_left clone_step l (Raise e) = Raise e.
Proof. induction l; [reflexivity|]. cbn. exact IHl. Qed.

Lemma clone_part_segment p q : (exists v f c, q = Linear (PLine v f) c) -> clone_part p q = Raise UnboundLocalError.
Proof. intros (v & f & c & ->). reflexivity. Qed.

Lemma clone_fails l : forall p, (exists q, In q l /\ match q with Linear (PLine _ _) _ | PCubic _ _ _ _ | PStringed _ => True | _ => False end) ->
  ~ is_ok (fold_left clone_step l (Ok p)).
Proof.
  induction l as [|x l IH]; intros p (q & Hi & Hq); [destruct Hi|]. cbn [fold_left].
  unfold clone_step at 2. cbn [bind]. destruct (clone_part p x) as [x'|e] eqn:E.
  - cbn [bind]. apply IH. destruct Hi as [<-|Hi]; [|eauto]. exfalso. destruct x as [[]| | | |]; try destruct Hq; discriminate.
  - cbn [bind]. rewrite clone_raise. intros [? K]. discriminate.
Qed.

Lemma clone_never p : (exists q, In q (parts p) /\ match q with Linear (PLine _ _) _ | PCubic _ _ _ _ | PStringed _ => True | _ => False end) ->
  ~ is_ok (clone_path p).
Proof. apply clone_fails. Qed.

(** A copy which succeeds: the parts are the same, except what [close] sets. *)
Lemma clone_good l : forall c p', closed c = false -> fold_left clone_step l (Ok c) = Ok p' -> exists l',
  p' = Path (p0 c) (parts c ++ l') false /\ length l' = length l /\
  forall i q q', nth_error l i = Some q -> nth_error l' i = Some q' ->
    match q with Linear s k => q' = Linear s (plain (to_radius (radius k)) false) | _ => q' = q end.
Proof.
  induction l as [|x l IH]; intros c p' Hc E; cbn [fold_left] in E.
  - injection E as <-. exists []. rewrite app_nil_r. destruct c as [a pl cl]. cbn in Hc. subst cl. split; [reflexivity|]. split; [reflexivity|].
    intros [|i]; discriminate.
  - unfold clone_step at 2 in E. cbn [bind] in E. destruct (clone_part c x) as [x'|e] eqn:Ex; [|cbn [bind] in E; rewrite clone_raise in E; discriminate].
    cbn [bind] in E. destruct (IH (set_parts c (parts c ++ [x'])) p' Hc E) as (l' & -> & L & N). exists (x' :: l').
    cbn [set_parts p0 parts]. rewrite <- app_assoc. split; [reflexivity|]. split; [cbn; lia|].
    intros [|i] q q' H H'; cbn in H, H'; [|apply (N i q q' H H')]. injection H as ->. injection H' as ->.
    destruct q as [s k|? ? ?|? ? ? ?|?|? ? ? ? ? ? ?]; try discriminate; try (injection Ex as <-; reflexivity).
    assert (Hx : clone_part c (Linear s k) = Ok q' -> linear_part c s (radius k) false = Ok q').
    { destruct s; [discriminate|exact (fun z => z)..]. }
    apply Hx in Ex. unfold linear_part in Ex. destruct (to_radius (radius k)) as [r|] eqn:Er.
    + destruct (length (parts c)); [discriminate|]. destruct (is_linear _); [injection Ex as <-; reflexivity|discriminate].
    + injection Ex as <-. reflexivity.
Qed.

Lemma clone_sound p p' : clone_path p = Ok p' -> p0 p' = p0 p /\ length (parts p') = length (parts p) /\ closed p' = false /\
  forall i, match nth_error (parts p) i with
            | Some (Linear s c) => exists c', nth_error (parts p') i = Some (Linear s c') /\ radius c' = to_radius (radius c)
            | Some q => nth_error (parts p') i = Some q
            | None => nth_error (parts p') i = None
            end.
Proof.
  intros E. destruct (clone_good (parts p) (new_path (p0 p)) p' eq_refl E) as (l' & -> & L & N). cbn [p0 parts new_path app].
  split; [reflexivity|]. split; [exact L|]. split; [reflexivity|]. intros i.
  destruct (nth_error (parts p) i) as [q|] eqn:Hq.
  - destruct (nth_error l' i) as [q'|] eqn:Hq'.
    + pose proof (N i q q' Hq Hq') as G. destruct q; subst q'; try reflexivity. eexists. split; reflexivity.
    + apply nth_error_None in Hq'. assert (K : nth_error (parts p) i <> None) by congruence. apply nth_error_Some in K. lia.
  - apply nth_error_None in Hq. apply nth_error_None. lia.
Qed.

(** ** Conversions *)
Lemma polygon_path_ok a l p : polygon_to_path (a :: l) = Ok p -> follows p (trace a a (map To l ++ [Home])).
Proof.
  intros E. cbn [polygon_to_path] in E.
  replace (map To l ++ [Home]) with (map pen (map (fun q => LineTo q None true) l ++ [Close None None])).
  - apply draw_follows; [|exact E]. apply Forall_app. split; [|repeat constructor]. apply Forall_forall. intros c Hc. apply in_map_iff in Hc.
    destruct Hc as (q & <- & _). cbn. auto.
  - rewrite map_app, map_map. reflexivity.
Qed.
Lemma polygon_path_defined a l : is_ok (polygon_to_path (a :: l)).
Proof.
  cbn [polygon_to_path]. apply new_draw_ok.
  - apply Forall_app. split; [|repeat constructor]. apply Forall_forall. intros c Hc. apply in_map_iff in Hc.
    destruct Hc as (q & <- & _). cbn. auto.
  - generalize (@nil bool). induction l as [|q l IH]; intros seen; cbn.
    + split; [congruence|]. split; [exact I|constructor].
    + split; [congruence|]. split; [exact I|]. apply IH.
Qed.

Lemma polyline_path_ok a l p : polyline_to_path (a :: l) = Ok p -> follows p (trace a a (map By l)).
Proof.
  intros E. cbn [polyline_to_path] in E.
  replace (map By l) with (map pen (map (fun q => LineTo q None false) l)) by (rewrite map_map; reflexivity).
  apply draw_follows; [|exact E]. apply Forall_forall. intros c Hc. apply in_map_iff in Hc. destruct Hc as (q & <- & _). cbn. auto.
Qed.
Lemma polygon_path a l : exists p, polygon_to_path (a :: l) = Ok p /\ follows p (trace a a (map To l ++ [Home])).
Proof. destruct (polygon_path_defined a l) as [p E]. exists p. split; [exact E|]. apply polygon_path_ok, E. Qed.
