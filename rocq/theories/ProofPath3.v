(** Paths: reading the rounded corners. *)
From Coq Require Import Reals List ZArith Bool Lia Lra.
From Verif Require Import Base ModelVector ModelTransformation ModelLine ModelBezier ModelConic ModelPath
  SpecVector SpecPath GluePath ProofVector ProofSpline ProofPath ProofPath2.
Import ListNotations.
Local Open Scope R_scope.
Local Open Scope result_scope.

(** ** Paths up to their caches *)
Definition bare (c : corner) : corner := Corner (radius c) (start_bulge c) (closing c) None None None None None None.
Definition bare_part (q : part) : part := match q with Linear s c => Linear s (bare c) | _ => q end.
Definition strip (p : path) : path := Path (p0 p) (map bare_part (parts p)) (closed p).
Definition same (p p' : path) : Prop := strip p = strip p'.

Lemma strip_stop q r : part_stop (bare_part q) r = part_stop q r.
Proof. destruct q as [[] c| | | |]; reflexivity. Qed.
Lemma last_map A B (f : A -> B) l d d' : l <> [] -> last (map f l) d' = f (last l d).
Proof.
  intros H. destruct (exists_last H) as (l' & x & ->). rewrite map_app. simpl. rewrite !last_last. reflexivity.
Qed.
Lemma strip_start p i : start_point (strip p) i = start_point p i.
Proof.
  apply start_rel.
  - destruct (parts p) as [|q l] eqn:E; [unfold start_point; cbn; rewrite E; reflexivity|].
    rewrite (start0 p q) by (rewrite E; reflexivity).
    rewrite (start0 (strip p) (bare_part q)) by (cbn; rewrite E; reflexivity).
    destruct q as [s c| | | |]; try reflexivity. cbn [bare_part bare start_bulge].
    destruct (start_bulge c); [|reflexivity]. cbn [strip parts].
    rewrite (last_map _ _ _ _ (PStringed true)) by (rewrite E; discriminate).
    destruct (last (parts p) (PStringed true)) as [[]| | | |]; reflexivity.
  - intros j Hj r. unfold stop_of. cbn [strip parts p0]. rewrite nth_error_map.
    destruct (nth_error (parts p) j); [apply strip_stop|reflexivity].
Qed.
Lemma strip_stop_point p i : stop_point (strip p) i = stop_point p i.
Proof.
  unfold stop_point. rewrite strip_start. cbn [strip parts]. rewrite nth_error_map.
  destruct (nth_error (parts p) i); [apply strip_stop|reflexivity].
Qed.
Lemma same_start p p' i : same p p' -> start_point p i = start_point p' i.
Proof. intros H. rewrite <- (strip_start p), <- (strip_start p'), H. reflexivity. Qed.
Lemma same_stop p p' i : same p p' -> stop_point p i = stop_point p' i.
Proof. intros H. rewrite <- (strip_stop_point p), <- (strip_stop_point p'), H. reflexivity. Qed.
Lemma same_length p p' : same p p' -> length (parts p) = length (parts p').
Proof. intros H. pose proof (f_equal (fun p => length (parts p)) H) as E. cbn in E. rewrite !map_length in E. exact E. Qed.
Lemma same_nth p p' i : same p p' -> option_map bare_part (nth_error (parts p) i) = option_map bare_part (nth_error (parts p') i).
Proof. intros H. pose proof (f_equal (fun p => nth_error (parts p) i) H) as E. cbn in E. rewrite !nth_error_map in E. exact E. Qed.
Lemma same_p0 p p' : same p p' -> p0 p = p0 p'.
Proof. intros H. exact (f_equal p0 H). Qed.
Lemma same_closed p p' : same p p' -> closed p = closed p'.
Proof. intros H. exact (f_equal closed H). Qed.
Lemma same_refl p : same p p. Proof. reflexivity. Qed.
Lemma same_trans p q r : same p q -> same q r -> same p r. Proof. unfold same. congruence. Qed.
Lemma same_sym p q : same p q -> same q p. Proof. unfold same. congruence. Qed.

Lemma same_linear p p' i s c' : same p p' -> nth_error (parts p') i = Some (Linear s c') ->
  exists c, nth_error (parts p) i = Some (Linear s c) /\ bare c = bare c'.
Proof.
  intros H E. pose proof (same_nth p p' i H) as G. rewrite E in G. cbn in G.
  destruct (nth_error (parts p) i) as [[]|]; try discriminate. cbn in G. injection G as -> G1 G2 G3.
  exists c. split; [reflexivity|]. unfold bare. congruence.
Qed.
Lemma bare_inj c c' : bare c = bare c' -> radius c = radius c' /\ start_bulge c = start_bulge c' /\ closing c = closing c'.
Proof. intros H. injection H as -> -> ->. auto. Qed.
Lemma same_flag p p' i : same p p' -> is_linear (nth_error (parts p) i) = is_linear (nth_error (parts p') i).
Proof.
  intros H. pose proof (same_nth p p' i H) as G.
  destruct (nth_error (parts p) i) as [[]|], (nth_error (parts p') i) as [[]|]; cbn in *; congruence.
Qed.

Lemma same_sane p p' : same p p' -> sane p -> sane p'.
Proof.
  intros H Hs. constructor.
  - intros j s c E. destruct (same_linear p p' _ s c H E) as (c0 & E0 & B). destruct (bare_inj _ _ B) as (_ & <- & _).
    apply (sane_bulge p Hs j s c0 E0).
  - intros s c E. destruct (same_linear p p' _ s c H E) as (c0 & E0 & B). destruct (bare_inj _ _ B) as (<- & <- & _).
    apply (sane_first p Hs s c0 E0).
  - intros s c E. destruct (same_linear p p' _ s c H E) as (c0 & E0 & B). destruct (bare_inj _ _ B) as (_ & <- & _).
    rewrite <- (same_closed _ _ H). apply (sane_open p Hs s c0 E0).
  - intros Hc. rewrite <- (same_closed _ _ H) in Hc. destruct (sane_closed p Hs Hc) as (a & Ha). exists a. apply ends_nth.
    apply ends_nth in Ha. destruct Ha as (k & Hk).
    destruct (same_linear p' p _ _ k (same_sym _ _ H) Hk) as (c0 & E0 & _). exists c0. rewrite <- (same_length p p' H). exact E0.
  - intros j s c E Hr. destruct (same_linear p p' _ s c H E) as (c0 & E0 & B). destruct (bare_inj _ _ B) as (Er & _ & _).
    rewrite <- (same_flag p p' j H). apply (sane_prev p Hs j s c0 E0). congruence.
  - intros i s c r E Hr. destruct (same_linear p p' _ s c H E) as (c0 & E0 & B). destruct (bare_inj _ _ B) as (Er & _ & _).
    apply (sane_radius p Hs i s c0 r E0). congruence.
  - intros i s c E Hr. destruct (same_linear p p' _ s c H E) as (c0 & E0 & B). destruct (bare_inj _ _ B) as (_ & _ & Er).
    apply (sane_closing p Hs i s c0 E0). congruence.
Qed.

(** ** Reading only fills the caches *)
Definition quiet {A} (m : reader A) : Prop := forall p, same p (snd (m p)).
Lemma quiet_ret A (r : result A) : quiet (ret r). Proof. intros p. reflexivity. Qed.
Lemma quiet_here : quiet here. Proof. intros p. reflexivity. Qed.
Lemma quiet_then A B (m : reader A) (k : A -> reader B) : quiet m -> (forall a, quiet (k a)) -> quiet (andthen m k).
Proof.
  intros Hm Hk p. unfold andthen. specialize (Hm p). destruct (m p) as [[a|e] q]; cbn in *; [|exact Hm].
  apply (same_trans _ q); [exact Hm|apply Hk].
Qed.
Lemma quiet_corner i : quiet (corner_at i).
Proof. intros p. unfold corner_at. destruct (nth_error (parts p) i) as [[]|]; reflexivity. Qed.
Lemma map_update A B (f : A -> B) i x l y : nth_error l i = Some y -> f x = f y -> map f (update i x l) = map f l.
Proof.
  revert i. induction l as [|a l IH]; intros [|i] H E; cbn in *; try discriminate.
  - injection H as ->. rewrite E. reflexivity.
  - rewrite (IH i H E). reflexivity.
Qed.
Lemma same_assign p i s c c' : nth_error (parts p) i = Some (Linear s c) -> bare c' = bare c ->
  same p (set_parts p (update i (Linear s c') (parts p))).
Proof.
  intros H B. unfold same, strip. cbn. f_equal. symmetry. apply (map_update _ _ _ _ _ _ _ H). cbn. rewrite B. reflexivity.
Qed.
Lemma quiet_assign i f : (forall c, bare (f c) = bare c) -> quiet (assign i f).
Proof.
  intros H p. unfold assign. cbn. destruct (nth_error (parts p) i) as [[s c| | | |]|] eqn:E; try reflexivity.
  apply (same_assign p i s c _ E (H c)).
Qed.
Lemma quiet_store A i (f : option A -> corner -> corner) m : (forall v c, bare (f v c) = bare c) -> quiet m -> quiet (store i f m).
Proof. intros H Hm. apply quiet_then; [exact Hm|]. intros a. apply quiet_then; [apply quiet_assign, H|]. intros; apply quiet_ret. Qed.

Ltac quiet :=
  repeat first
    [ apply quiet_ret | apply quiet_here | apply quiet_corner
    | apply quiet_store; [reflexivity|] | apply quiet_then; [|intros ?]
    | match goal with |- quiet (match ?x with _ => _ end) => destruct x end
    | assumption ].
Lemma quiet_prev i : quiet (prev_index i). Proof. unfold prev_index. quiet. Qed.
Lemma quiet_direction i : quiet (direction i). Proof. unfold direction. quiet. Qed.
Lemma quiet_radius i : quiet (radius_of i). Proof. unfold radius_of. quiet. Qed.
Ltac quiet2 := repeat first [progress quiet | apply quiet_prev | apply quiet_direction | apply quiet_radius].
Lemma quiet_bissector i : quiet (bissector i). Proof. unfold bissector. quiet2. Qed.
Lemma quiet_angle i : quiet (bulge_angle_rad i). Proof. unfold bulge_angle_rad. quiet2. Qed.
Lemma quiet_half i : quiet (half_bulge_angle i). Proof. unfold half_bulge_angle. pose proof (quiet_angle i). quiet2. Qed.
Lemma quiet_center i : quiet (bulge_center i).
Proof. unfold bulge_center. pose proof (quiet_bissector i). pose proof (quiet_half i). quiet2. Qed.
Lemma quiet_start i : quiet (bulge_start_point i).
Proof. unfold bulge_start_point. pose proof (quiet_half i). quiet2. Qed.
Lemma quiet_stop i : quiet (bulge_stop_point i).
Proof. unfold bulge_stop_point. pose proof (quiet_half i). quiet2. Qed.
Lemma quiet_bulge i : quiet (bulge_geometry i).
Proof.
  unfold bulge_geometry. pose proof (quiet_center i). pose proof (quiet_start i). pose proof (quiet_stop i). pose proof (quiet_angle i). quiet2.
Qed.
Lemma quiet_points i : quiet (linear_points i).
Proof. unfold linear_points. pose proof quiet_start. pose proof quiet_stop. quiet2; auto. Qed.
Lemma quiet_geometry i : quiet (geometry i).
Proof. unfold geometry. pose proof quiet_points. quiet2; auto. Qed.

Lemma reading_same r p : same p (reading r p).
Proof.
  destruct r; cbn [reading].
  - apply quiet_direction. - apply quiet_center. - apply quiet_start. - apply quiet_stop.
  - apply quiet_bulge. - apply quiet_points. - apply quiet_geometry.
Qed.

(** ** Every history keeps the path sane *)
Lemma new_sane a : sane (new_path a).
Proof. constructor; cbn; try (intros [|j]; intros; discriminate); try discriminate; intros; discriminate. Qed.

Lemma append_sane p q : sane p -> closed p = false ->
  (forall s c, q = Linear s c -> start_bulge c = false /\ (closing c = true -> exists a, s = PLine a true) /\
     match radius c with None => True | Some r => 0 <= r /\ last (map line_flag (parts p)) false = true end) ->
  sane (set_parts p (parts p ++ [q])).
Proof.
  intros Hs Hc Hq.
  assert (N : forall i x, nth_error (parts p ++ [q]) i = Some x -> nth_error (parts p) i = Some x \/ (i = length (parts p) /\ x = q)).
  { intros i x H. destruct (Nat.lt_ge_cases i (length (parts p))) as [L|L].
    - rewrite nth_error_app1 in H by exact L. auto.
    - rewrite nth_error_app2 in H by exact L. destruct (i - length (parts p))%nat eqn:E; cbn in H.
      + injection H as <-. right. split; [lia|reflexivity].
      + destruct n; discriminate. }
  constructor; cbn [set_parts parts closed].
  - intros j s c H. destruct (N _ _ H) as [H1|[_ H1]]; [apply (sane_bulge p Hs j s c H1)|apply (Hq s c (eq_sym H1))].
  - intros s c H. destruct (N _ _ H) as [H1|[L H1]]; [apply (sane_first p Hs s c H1)|].
    destruct (Hq s c (eq_sym H1)) as (B & _ & R). rewrite B. destruct (radius c); [|split; congruence].
    destruct R as [_ R]. destruct (parts p); [discriminate|discriminate].
  - intros s c H Hb. destruct (N _ _ H) as [H1|[_ H1]]; [apply (sane_open p Hs s c H1 Hb)|].
    destruct (Hq s c (eq_sym H1)) as (B & _). congruence.
  - congruence.
  - intros j s c H Hr. destruct (N _ _ H) as [H1|[L H1]].
    + pose proof (sane_prev p Hs j s c H1 Hr) as P. rewrite nth_error_app1; [exact P|].
      destruct (nth_error (parts p) j) eqn:E; [|discriminate]. apply nth_error_Some. congruence.
    + destruct (Hq s c (eq_sym H1)) as (_ & _ & R). destruct (radius c); [|congruence]. destruct R as [_ R].
      rewrite <- (last_flag p j) in R by (symmetry; exact L). rewrite nth_error_app1 by lia. exact R.
  - intros i s c r H Hr. destruct (N _ _ H) as [H1|[L H1]]; [apply (sane_radius p Hs i s c r H1 Hr)|].
    destruct (Hq s c (eq_sym H1)) as (_ & _ & R). rewrite Hr in R. apply R.
  - intros i s c H Hr. destruct (N _ _ H) as [H1|[L H1]]; [apply (sane_closing p Hs i s c H1 Hr)|].
    apply (Hq s c (eq_sym H1)). exact Hr.
Qed.

Lemma linear_part_last p s r cl q : linear_part p s r cl = Ok q -> r <> None -> last (map line_flag (parts p)) false = true.
Proof.
  unfold linear_part. intros E H. destruct r as [r|]; [|congruence]. cbn in E.
  destruct (length (parts p)) as [|j] eqn:L; [discriminate|]. rewrite (last_flag p j L) in E.
  destruct (last (map line_flag (parts p)) false); [reflexivity|discriminate].
Qed.

Lemma appended_linear p c s k : appended p c = Ok (Linear s k) ->
  start_bulge k = false /\ (closing k = true -> exists a, s = PLine a true) /\
     match radius k with None => True | Some r => 0 <= r /\ last (map line_flag (parts p)) false = true end /\ bare k = k.
Proof.
  intros H.
  assert (G : forall s' r cl, linear_part p s' r cl = Ok (Linear s k) -> (cl = true -> exists a, s' = PLine a true) ->
    start_bulge k = false /\ (closing k = true -> exists a, s = PLine a true) /\
     match radius k with None => True | Some r => 0 <= r /\ last (map line_flag (parts p)) false = true end /\ bare k = k).
  { intros s' r cl E Hcl. pose proof (linear_part_eq p s' r cl _ E) as K. injection K as -> ->.
    split; [reflexivity|]. split; [exact Hcl|]. split; [|reflexivity].
    cbn. destruct r as [r|]; cbn; [|exact I]. split; [apply Rabs_pos|]. apply (linear_part_last _ _ _ _ _ E). discriminate. }
  destruct c; cbn [appended] in H; try destruct absolute; try discriminate; apply (G _ _ _ H); intros; try discriminate; eauto.
Qed.

Lemma round_sane a l cl r l' : sane (Path a l cl) -> round_first r l = Ok l' -> (exists b, ends_at b l) -> sane (Path a l' true).
Proof.
  intros Hs E (b & Hb).
  assert (C : forall i s c, nth_error l' i = Some (Linear s c) ->
    exists c0, nth_error l i = Some (Linear s c0) /\ closing c = closing c0 /\
      ((start_bulge c = start_bulge c0 /\ radius c = radius c0) \/ (i = 0%nat /\ start_bulge c = true /\ exists v, radius c = Some v /\ 0 <= v))).
  { destruct r as [r|]; cbn in E; [|injection E as <-; intros; eauto 6].
    destruct l as [|[s0 c0| | | |] rest]; try discriminate. injection E as <-.
    intros [|i] s c H; cbn in H.
    - injection H as -> <-. exists c0. split; [reflexivity|]. split; [reflexivity|]. right. split; [reflexivity|]. split; [reflexivity|].
      exists (Rabs r). split; [reflexivity|apply Rabs_pos].
    - eauto 6. }
  assert (F : forall i, is_linear (nth_error l' i) = is_linear (nth_error l i)).
  { destruct r as [r|]; cbn in E; [|injection E as <-; reflexivity].
    destruct l as [|[s0 c0| | | |] rest]; try discriminate. injection E as <-. intros [|i]; reflexivity. }
  constructor; cbn [parts closed].
  - intros j s c H. destruct (C _ _ _ H) as (c0 & H0 & _ & [[-> _]|[K _]]); [|discriminate]. apply (sane_bulge _ Hs j s c0 H0).
  - intros s c H. destruct (C _ _ _ H) as (c0 & H0 & _ & [[-> ->]|(_ & -> & v & -> & _)]); [apply (sane_first _ Hs s c0 H0)|].
    split; [discriminate|reflexivity].
  - reflexivity.
  - intros _. exists b. apply (round_first_ends _ _ _ _ E Hb).
  - intros j s c H Hr. destruct (C _ _ _ H) as (c0 & H0 & _ & [[_ Er]|[K _]]); [|discriminate].
    rewrite F. apply (sane_prev _ Hs j s c0 H0). congruence.
  - intros i s c v H Hr. destruct (C _ _ _ H) as (c0 & H0 & _ & [[_ Er]|(_ & _ & w & Ew & W)]).
    + apply (sane_radius _ Hs i s c0 v H0). congruence.
    + replace v with w by congruence. exact W.
  - intros i s c H Hr. destruct (C _ _ _ H) as (c0 & H0 & Ec & _). apply (sane_closing _ Hs i s c0 H0). congruence.
Qed.

Lemma command_sane p c p' : sane p -> do_command p c = Ok p' -> sane p'.
Proof.
  intros Hs E. destruct (closed p) eqn:Hc.
  - destruct (do_command_closed p c p' Hc E) as (l & El & ->).
    destruct p as [a lp cl]. apply (round_sane a lp cl _ l Hs El). apply (sane_closed _ Hs Hc).
  - destruct (is_close c) eqn:Ec.
    + destruct c; try discriminate. destruct (do_close_open p r close_radius p' Hc E) as (q & l & Eq & El & ->).
      assert (Hs1 : sane (set_parts p (parts p ++ [q]))).
      { apply append_sane; [exact Hs|exact Hc|]. intros s k ->. destruct (appended_linear _ _ _ _ Eq) as (A & B & C & _). auto. }
      apply (round_sane (p0 p) (parts p ++ [q]) (closed p) _ l Hs1 El). exists (p0 p).
      cbn [appended] in Eq. apply linear_part_eq in Eq. eexists. rewrite last_last. exact Eq.
    + destruct (do_command_open p c p' Hc Ec E) as (q & Eq & ->). apply append_sane; [exact Hs|exact Hc|].
      intros s k ->. destruct (appended_linear _ _ _ _ Eq) as (A & B & C & _). auto.
Qed.

Lemma history_sane l : forall p p', sane p -> history p l = Ok p' -> sane p'.
Proof.
  induction l as [|e l IH]; intros p p' Hs E; cbn [history] in E; [injection E as <-; exact Hs|].
  destruct (happen p e) as [q|] eqn:Eq; [|discriminate]. cbn [bind] in E. apply (IH q p'); [|exact E].
  destruct e; cbn [happen] in Eq.
  - apply (command_sane p c q Hs Eq).
  - injection Eq as <-. apply (same_sane p _ (reading_same r p) Hs).
  - apply (transform_sane t p q Hs Eq).
  - injection Eq as <-. destruct p as [b lp cl]. destruct Hs; constructor; assumption.
Qed.

(** ** The values without caches *)
Definition pcorner (p : path) (i : nat) : result corner :=
  match nth_error (parts p) i with Some (Linear _ c) => Ok (bare c) | _ => Raise AttributeError end.
Definition pradius (p : path) (i : nat) : result R :=
  c <- pcorner p i ;; match radius c with Some r => Ok r | None => Raise AttributeError end.
Definition pprev (p : path) (i : nat) : result nat :=
  c <- pcorner p i ;;
  if start_bulge c then Ok (length (parts p) - 1)%nat else match i with O => Raise AttributeError | S j => Ok j end.
Definition pdirection (p : path) (i : nat) : result vec :=
  c <- pcorner p i ;; b <- stop_point p i ;; a <- start_point p i ;; normalise (vsub b a).
Definition pbissector (p : path) (i : nat) : result vec :=
  r <- pradius p i ;; d <- pdirection p i ;; j <- pprev p i ;; e <- pdirection p j ;; normalise (vsub d e).
Definition pangle (p : path) (i : nat) : result R :=
  r <- pradius p i ;; d <- pdirection p i ;; j <- pprev p i ;; e <- pdirection p j ;; angle <- angle_with d e ;;
  Ok (radians (if Rleb 0 angle then 180 - angle else - (180 + angle))).
Definition pcenter (p : path) (i : nat) : result vec :=
  r <- pradius p i ;; b <- pbissector p i ;; a <- pangle p i ;;
  o <- vdiv (vscale b r) (sin (Rabs (a / 2))) ;; s <- start_point p i ;; Ok (vadd s o).
Definition pstart (p : path) (i : nat) : result vec :=
  r <- pradius p i ;; a <- pangle p i ;; j <- pprev p i ;; d <- pdirection p j ;;
  o <- vdiv (vscale d r) (tan (a / 2)) ;; s <- start_point p i ;; Ok (vsub s (vscale o (sign (a / 2)))).
Definition pstop (p : path) (i : nat) : result vec :=
  r <- pradius p i ;; a <- pangle p i ;; d <- pdirection p i ;;
  o <- vdiv (vscale d r) (tan (a / 2)) ;; s <- start_point p i ;; Ok (vadd s (vscale o (sign (a / 2)))).
Definition pbulge (p : path) (i : nat) : result circle :=
  o <- pcenter p i ;; r <- pradius p i ;; s <- pstart p i ;; a <- angle_for_point (Circ o r None) s ;;
  e <- pstop p i ;; b <- angle_for_point (Circ o r None) e ;; h <- pangle p i ;;
  Ok (Circ o r (Some (if Rltb (degrees h) 0 then Dom b a else Dom a b))).
Definition ppoints (p : path) (i : nat) : result (vec * vec) :=
  c <- pcorner p i ;;
  a <- match radius c with Some _ => pstop p i | None => start_point p i end ;;
  b <- match pradius p (next_index i c) with Ok _ => pstart p (next_index i c) | Raise _ => stop_point p i end ;;
  Ok (a, b).

Definition agrees {A} (k : option A) (r : result A) : Prop := match k with Some v => r = Ok v | None => True end.
Definition coherent (p : path) : Prop := forall i s c, nth_error (parts p) i = Some (Linear s c) ->
  agrees (k_direction c) (pdirection p i) /\ agrees (k_bissector c) (pbissector p i) /\ agrees (k_angle c) (pangle p i) /\
  agrees (k_center c) (pcenter p i) /\ agrees (k_start c) (pstart p i) /\ agrees (k_stop c) (pstop p i).

Definition stable {A} (f : path -> result A) : Prop := forall p p', same p p' -> f p = f p'.
Lemma stable_corner i : stable (fun p => pcorner p i).
Proof.
  intros p p' H. unfold pcorner. pose proof (same_nth p p' i H) as G.
  destruct (nth_error (parts p) i) as [[]|], (nth_error (parts p') i) as [[]|]; cbn in G; try congruence.
Qed.
Lemma stable_bind A B (f : path -> result A) (g : A -> path -> result B) : stable f -> (forall a, stable (g a)) ->
  stable (fun p => bind (f p) (fun a => g a p)).
Proof. intros Hf Hg p p' H. rewrite (Hf p p' H). destruct (f p'); cbn; [apply Hg, H|reflexivity]. Qed.
Lemma stable_const A (r : result A) : stable (fun _ => r). Proof. intros p p' _. reflexivity. Qed.
Lemma stable_start i : stable (fun p => start_point p i). Proof. intros p p' H. apply same_start, H. Qed.
Lemma stable_stop i : stable (fun p => stop_point p i). Proof. intros p p' H. apply same_stop, H. Qed.
Lemma stable_len A (f : nat -> result A) : stable (fun p => f (length (parts p))).
Proof. intros p p' H. rewrite (same_length p p' H). reflexivity. Qed.
Ltac stable := repeat first [apply stable_const | apply stable_corner | apply stable_start | apply stable_stop
  | match goal with |- stable (fun p => bind (@?f p) (fun a => @?g p a)) =>
      refine (stable_bind _ _ f (fun a p => g p a) _ _); [|intros ?] end
  | assumption ].
Lemma stable_radius i : stable (fun p => pradius p i).
Proof. unfold pradius. stable. Qed.
Lemma stable_prev i : stable (fun p => pprev p i).
Proof.
  unfold pprev. stable. intros p p' H. destruct (start_bulge a); [|reflexivity]. rewrite (same_length p p' H). reflexivity.
Qed.
Lemma stable_direction i : stable (fun p => pdirection p i).
Proof. unfold pdirection. stable. Qed.
Ltac stable2 := repeat first [progress stable | apply stable_radius | apply stable_prev | apply stable_direction].
Lemma stable_bissector i : stable (fun p => pbissector p i). Proof. unfold pbissector. stable2. Qed.
Lemma stable_angle i : stable (fun p => pangle p i). Proof. unfold pangle. stable2. Qed.
Lemma stable_pcenter i : stable (fun p => pcenter p i).
Proof. pose proof (stable_bissector i). pose proof (stable_angle i). unfold pcenter. stable2. Qed.
Lemma stable_pstart i : stable (fun p => pstart p i).
Proof. pose proof (stable_angle i). unfold pstart. stable2. Qed.
Lemma stable_pstop i : stable (fun p => pstop p i).
Proof. pose proof (stable_angle i). unfold pstop. stable2. Qed.

(** ** With coherent caches, reading gives the values *)
Definition reads {A} (m : reader A) (f : path -> result A) : Prop :=
  stable f /\ forall p, coherent p -> exists p', m p = (f p, p') /\ same p p' /\ coherent p'.

Lemma reads_stable A (m : reader A) f : reads m f -> stable f. Proof. intros H; apply H. Qed.
Lemma reads_ret A (r : result A) : reads (ret r) (fun _ => r).
Proof. split; [apply stable_const|]. intros p H. exists p. auto using same_refl. Qed.
Lemma reads_here A (k : path -> result A) : stable k -> reads (andthen here (fun p => ret (k p))) k.
Proof. intros Hs. split; [exact Hs|]. intros p H. exists p. auto using same_refl. Qed.
Lemma reads_then A B (m : reader A) f (k : A -> reader B) g : reads m f -> (forall a, reads (k a) (g a)) ->
  reads (andthen m k) (fun p => bind (f p) (fun a => g a p)).
Proof.
  intros [Sm Hm] Hk. split; [apply stable_bind; [exact Sm|intros a; apply Hk]|].
  intros p Hp. destruct (Hm p Hp) as (p1 & E1 & S1 & C1). unfold andthen. rewrite E1.
  destruct (f p) as [a|e]; cbn; [|exists p1; auto].
  destruct (Hk a) as [Sk Hk']. destruct (Hk' p1 C1) as (p2 & E2 & S2 & C2). exists p2. rewrite E2, (Sk p p1 S1).
  split; [reflexivity|]. split; [exact (same_trans _ _ _ S1 S2)|exact C2].
Qed.
Lemma reads_ext A (m : reader A) f g : reads m f -> (forall p, f p = g p) -> reads m g.
Proof.
  intros [S H] E. split; [intros p p' K; rewrite <- !E; apply S, K|].
  intros p Hp. destruct (H p Hp) as (p' & E1 & K). exists p'. rewrite <- E. auto.
Qed.

(** Filling a cache with the value. *)
Definition sets {A} (set : option A -> corner -> corner) (get : corner -> option A) (f : path -> nat -> result A) : Prop :=
  (forall v c, bare (set v c) = bare c) /\
  (forall p i s c v, coherent p -> nth_error (parts p) i = Some (Linear s c) -> f p i = Ok v ->
     agrees (k_direction (set (Some v) c)) (pdirection p i) /\ agrees (k_bissector (set (Some v) c)) (pbissector p i) /\
     agrees (k_angle (set (Some v) c)) (pangle p i) /\ agrees (k_center (set (Some v) c)) (pcenter p i) /\
     agrees (k_start (set (Some v) c)) (pstart p i) /\ agrees (k_stop (set (Some v) c)) (pstop p i)) /\
  (forall p i s c v, coherent p -> nth_error (parts p) i = Some (Linear s c) -> get c = Some v -> f p i = Ok v) /\
  (forall p i, pcorner p i = Raise AttributeError -> f p i = Raise AttributeError).

Lemma coherent_same p i s c c' : coherent p -> nth_error (parts p) i = Some (Linear s c) -> bare c' = bare c ->
  agrees (k_direction c') (pdirection p i) /\ agrees (k_bissector c') (pbissector p i) /\
  agrees (k_angle c') (pangle p i) /\ agrees (k_center c') (pcenter p i) /\
  agrees (k_start c') (pstart p i) /\ agrees (k_stop c') (pstop p i) ->
  coherent (set_parts p (update i (Linear s c') (parts p))).
Proof.
  intros Hp H B A. pose proof (same_assign p i s c c' H B) as S.
  intros j s1 c1 H1.
  rewrite <- (stable_direction j _ _ S), <- (stable_bissector j _ _ S), <- (stable_angle j _ _ S),
    <- (stable_pcenter j _ _ S), <- (stable_pstart j _ _ S), <- (stable_pstop j _ _ S).
  cbn [set_parts parts] in H1. destruct (nth_update _ _ _ _ _ _ H1) as [(<- & E & _)|(N & E)].
  - injection E as -> ->. exact A.
  - apply (Hp j s1 c1 E).
Qed.

Lemma raise_corner p i : pcorner p i = Raise AttributeError -> pradius p i = Raise AttributeError.
Proof. unfold pradius. intros ->. reflexivity. Qed.
Lemma sets_direction : sets set_direction k_direction pdirection.
Proof.
  split; [reflexivity|]. split; [|split].
  - intros p i s c v Hp H E. destruct (Hp i s c H) as (A1 & A2 & A3 & A4 & A5 & A6). cbn. auto 8.
  - intros p i s c v Hp H E. destruct (Hp i s c H) as (A1 & _). rewrite E in A1. exact A1.
  - intros p i E. unfold pdirection. rewrite E. reflexivity.
Qed.
Ltac sets_tac :=
  split; [reflexivity|]; split; [|split];
  [ intros p i s c v Hp H E; destruct (Hp i s c H) as (A1 & A2 & A3 & A4 & A5 & A6); cbn; auto 8
  | intros p i s c v Hp H E; destruct (Hp i s c H) as (A1 & A2 & A3 & A4 & A5 & A6); rewrite E in *; assumption
  | intros p i E; apply raise_corner in E; unfold pbissector, pangle, pcenter, pstart, pstop; rewrite E; reflexivity ].
Lemma sets_bissector : sets set_bissector k_bissector pbissector. Proof. sets_tac. Qed.
Lemma sets_angle : sets set_angle k_angle pangle. Proof. sets_tac. Qed.
Lemma sets_center : sets set_center k_center pcenter. Proof. sets_tac. Qed.
Lemma sets_start : sets set_start k_start pstart. Proof. sets_tac. Qed.
Lemma sets_stop : sets set_stop k_stop pstop. Proof. sets_tac. Qed.

Lemma reads_corner A i (k : corner -> reader A) g : (forall c, k c = k (bare c)) -> (forall c, reads (k c) (g c)) ->
  reads (andthen (corner_at i) k) (fun p => bind (pcorner p i) (fun c => g c p)).
Proof.
  intros Hb Hk. split; [apply stable_bind; [apply stable_corner|intros c; apply Hk]|].
  intros p Hp. unfold andthen, corner_at, pcorner. destruct (nth_error (parts p) i) as [[s c| | | |]|];
    try (exists p; auto using same_refl; fail).
  rewrite Hb. cbn [bind]. destruct (Hk (bare c)) as [_ H]. apply (H p Hp).
Qed.

Lemma reads_radius i : reads (radius_of i) (fun p => pradius p i).
Proof. unfold radius_of, pradius. apply reads_corner; [reflexivity|]. intros c. apply reads_ret. Qed.
Lemma reads_prev i : reads (prev_index i) (fun p => pprev p i).
Proof.
  unfold prev_index, pprev. apply reads_corner; [reflexivity|]. intros c.
  split; [intros p p' H; rewrite (same_length p p' H); reflexivity|].
  intros p Hp. exists p. unfold andthen, here. destruct (start_bulge c); auto using same_refl.
Qed.
(** The value of a cached computation only matters on a linear part. *)
Lemma reads_guard A i (m : reader A) f (g : path -> result A) : reads m g -> stable (fun p => f p i) ->
  (forall p, pcorner p i <> Raise AttributeError -> f p i = g p) ->
  (forall p, pcorner p i = Raise AttributeError -> f p i = Raise AttributeError) ->
  forall set get, sets set get f ->
  reads (andthen (corner_at i) (fun c => match get c with Some v => ret (Ok v) | None => store i set m end)) (fun p => f p i).
Proof.
  intros [Sg Hm] Sf E1 E2 set get (S1 & S2 & S3 & S4). split; [exact Sf|]. intros p Hp. unfold andthen, corner_at.
  destruct (nth_error (parts p) i) as [q|] eqn:E.
  2: { exists p. rewrite S4 by (unfold pcorner; rewrite E; reflexivity). auto using same_refl. }
  destruct q as [s c| | | |];
    try (exists p; rewrite S4 by (unfold pcorner; rewrite E; reflexivity); auto using same_refl; fail).
  destruct (get c) as [v|] eqn:G.
  - exists p. unfold ret. rewrite (S3 p i s c v Hp E G). auto using same_refl.
  - unfold store, andthen. destruct (Hm p Hp) as (p1 & F1 & K1 & C1). rewrite F1.
    assert (Efg : f p i = g p) by (apply E1; unfold pcorner; rewrite E; discriminate).
    destruct (g p) as [v|e] eqn:Ef; [|exists p1; rewrite Efg; auto].
    unfold assign, ret. destruct (same_linear p1 p i s c (same_sym _ _ K1) E) as (c1 & Hc1 & B). rewrite Hc1.
    eexists. split; [rewrite Efg; reflexivity|]. split.
    + apply (same_trans _ p1); [exact K1|]. apply (same_assign p1 i s c1); [exact Hc1|apply S1].
    + apply (coherent_same p1 i s c1); [exact C1|exact Hc1|apply S1|].
      apply (S2 p1 i s c1 v C1 Hc1). rewrite <- (Sf p p1 K1). exact Efg.
Qed.

Lemma reads_direction i : reads (direction i) (fun p => pdirection p i).
Proof.
  unfold direction.
  apply (reads_guard _ i _ pdirection (fun p => b <- stop_point p i ;; a <- start_point p i ;; normalise (vsub b a))).
  - apply reads_here. stable.
  - apply stable_direction.
  - intros p H. unfold pdirection. destruct (pcorner p i) eqn:E; [reflexivity|].
    exfalso. apply H. unfold pcorner in E. destruct (nth_error (parts p) i) as [[]|]; congruence.
  - intros p E. unfold pdirection. rewrite E. reflexivity.
  - apply sets_direction.
Qed.

(** A cached value of a part with a radius. *)
Lemma reads_rounded A i (m : R -> reader A) f (g : R -> path -> result A) set get : (forall r, reads (m r) (g r)) ->
  (forall p j, f p j = bind (pradius p j) (fun r => f p j)) ->
  (forall p, f p i = bind (pradius p i) (fun r => g r p)) -> stable (fun p => f p i) -> sets set get f ->
  reads (andthen (radius_of i) (fun r => andthen (corner_at i) (fun c => match get c with Some v => ret (Ok v) | None => store i set (m r) end)))
    (fun p => f p i).
Proof.
  intros Hm Hr Hg Sf Hs. pose proof Hs as (S1 & S2 & S3 & S4). split; [exact Sf|]. intros p Hp.
  unfold andthen at 1, radius_of, corner_at, andthen at 1. rewrite Hg. unfold pradius, pcorner.
  destruct (nth_error (parts p) i) as [[s c| | | |]|] eqn:E; try (exists p; auto using same_refl; fail).
  cbn [bind bare radius]. unfold ret at 1. destruct (radius c) as [r|] eqn:R; [|exists p; auto using same_refl].
  cbn [bind]. unfold andthen. rewrite E.
  assert (Efg : f p i = g r p). { rewrite Hg. unfold pradius, pcorner. rewrite E. cbn. rewrite R. reflexivity. }
  destruct (get c) as [v|] eqn:G.
  - exists p. unfold ret. rewrite <- Efg, (S3 p i s c v Hp E G). auto using same_refl.
  - unfold store, andthen. destruct (Hm r) as [Sg Hmr]. destruct (Hmr p Hp) as (p1 & F1 & K1 & C1). rewrite F1.
    destruct (g r p) as [v|e] eqn:Ef; [|exists p1; auto].
    unfold assign, ret. destruct (same_linear p1 p i s c (same_sym _ _ K1) E) as (c1 & Hc1 & B). rewrite Hc1.
    eexists. split; [reflexivity|]. split.
    + apply (same_trans _ p1); [exact K1|]. apply (same_assign p1 i s c1); [exact Hc1|apply S1].
    + apply (coherent_same p1 i s c1); [exact C1|exact Hc1|apply S1|].
      apply (S2 p1 i s c1 v C1 Hc1). rewrite <- (Sf p p1 K1). exact Efg.
Qed.

Ltac radius_twice := intros p j; unfold pbissector, pangle, pcenter, pstart, pstop; destruct (pradius p j); reflexivity.

Lemma reads_bissector i : reads (bissector i) (fun p => pbissector p i).
Proof.
  unfold bissector.
  apply (reads_rounded _ i (fun _ => _) pbissector
    (fun _ p => d <- pdirection p i ;; j <- pprev p i ;; e <- pdirection p j ;; normalise (vsub d e))).
  - intros r. apply reads_then; [apply reads_direction|]. intros d.
    apply reads_then; [apply reads_prev|]. intros j. apply reads_then; [apply reads_direction|]. intros e. apply reads_ret.
  - radius_twice.
  - reflexivity.
  - apply stable_bissector.
  - apply sets_bissector.
Qed.
Lemma reads_angle i : reads (bulge_angle_rad i) (fun p => pangle p i).
Proof.
  unfold bulge_angle_rad.
  apply (reads_rounded _ i (fun _ => _) pangle
    (fun _ p => d <- pdirection p i ;; j <- pprev p i ;; e <- pdirection p j ;; angle <- angle_with d e ;;
      Ok (radians (if Rleb 0 angle then 180 - angle else - (180 + angle))))).
  - intros r. apply reads_then; [apply reads_direction|]. intros d.
    apply reads_then; [apply reads_prev|]. intros j. apply reads_then; [apply reads_direction|]. intros e.
    apply reads_then; [apply reads_ret|]. intros a. apply reads_ret.
  - radius_twice.
  - reflexivity.
  - apply stable_angle.
  - apply sets_angle.
Qed.
Lemma reads_half A i (k : R -> reader A) g : (forall a, reads (k a) (g a)) ->
  reads (andthen (half_bulge_angle i) k) (fun p => a <- pangle p i ;; g (a / 2) p).
Proof.
  intros H. apply (reads_ext _ _ (fun p => h <- (a <- pangle p i ;; Ok (a / 2)) ;; g h p)).
  - apply reads_then; [|exact H]. unfold half_bulge_angle. apply reads_then; [apply reads_angle|]. intros a. apply reads_ret.
  - intros p. destruct (pangle p i); reflexivity.
Qed.
Lemma reads_center i : reads (bulge_center i) (fun p => pcenter p i).
Proof.
  unfold bulge_center.
  refine (reads_rounded _ i (fun r => _) pcenter
    (fun r p => b <- pbissector p i ;; a <- pangle p i ;;
      o <- vdiv (vscale b r) (sin (Rabs (a / 2))) ;; s <- start_point p i ;; Ok (vadd s o)) _ _ _ _ _ _ _).
  - intros r. apply reads_then; [apply reads_bissector|]. intros b.
    apply (reads_half _ i _ (fun h p => o <- vdiv (vscale b r) (sin (Rabs h)) ;; s <- start_point p i ;; Ok (vadd s o))).
    intros a. apply reads_here. stable.
  - radius_twice.
  - reflexivity.
  - apply stable_pcenter.
  - apply sets_center.
Qed.
Lemma reads_start i : reads (bulge_start_point i) (fun p => pstart p i).
Proof.
  unfold bulge_start_point.
  refine (reads_rounded _ i (fun r => _) pstart
    (fun r p => a <- pangle p i ;; j <- pprev p i ;; d <- pdirection p j ;;
      o <- vdiv (vscale d r) (tan (a / 2)) ;; s <- start_point p i ;; Ok (vsub s (vscale o (sign (a / 2))))) _ _ _ _ _ _ _).
  - intros r.
    apply (reads_half _ i _ (fun h p => j <- pprev p i ;; d <- pdirection p j ;; o <- vdiv (vscale d r) (tan h) ;;
       s <- start_point p i ;; Ok (vsub s (vscale o (sign h))))).
    intros a. apply reads_then; [apply reads_prev|]. intros j. apply reads_then; [apply reads_direction|]. intros d.
    apply reads_here. stable.
  - radius_twice.
  - reflexivity.
  - apply stable_pstart.
  - apply sets_start.
Qed.
Lemma reads_stop i : reads (bulge_stop_point i) (fun p => pstop p i).
Proof.
  unfold bulge_stop_point.
  refine (reads_rounded _ i (fun r => _) pstop
    (fun r p => a <- pangle p i ;; d <- pdirection p i ;;
      o <- vdiv (vscale d r) (tan (a / 2)) ;; s <- start_point p i ;; Ok (vadd s (vscale o (sign (a / 2))))) _ _ _ _ _ _ _).
  - intros r.
    apply (reads_half _ i _ (fun h p => d <- pdirection p i ;; o <- vdiv (vscale d r) (tan h) ;;
       s <- start_point p i ;; Ok (vadd s (vscale o (sign h))))).
    intros a. apply reads_then; [apply reads_direction|]. intros d. apply reads_here. stable.
  - radius_twice.
  - reflexivity.
  - apply stable_pstop.
  - apply sets_stop.
Qed.
Lemma reads_bulge i : reads (bulge_geometry i) (fun p => pbulge p i).
Proof.
  unfold bulge_geometry, pbulge.
  apply reads_then; [apply reads_center|]. intros o. apply reads_then; [apply reads_radius|]. intros r.
  apply reads_then; [apply reads_start|]. intros s. apply reads_then; [apply reads_ret|]. intros a.
  apply reads_then; [apply reads_stop|]. intros e. apply reads_then; [apply reads_ret|]. intros b.
  apply reads_then; [apply reads_angle|]. intros h. apply reads_ret.
Qed.
Lemma reads_points i : reads (linear_points i) (fun p => ppoints p i).
Proof.
  unfold linear_points, ppoints. apply reads_corner; [reflexivity|]. intros c.
  split.
  { apply stable_bind; [destruct (radius c); [apply stable_pstop|apply stable_start]|]. intros a.
    refine (stable_bind _ _ (fun p => match pradius p (next_index i c) with Ok _ => pstart p (next_index i c) | Raise _ => stop_point p i end) _ _ _).
    - intros p p' H. rewrite (stable_radius _ p p' H), (stable_pstart _ p p' H), (stable_stop _ p p' H). reflexivity.
    - intros b. apply stable_const. }
  intros p Hp. unfold andthen at 1, here.
  set (m := match radius c with Some _ => bulge_stop_point i | None => ret (start_point p i) end).
  assert (Hm : exists p1, m p = (match radius c with Some _ => pstop p i | None => start_point p i end, p1) /\ same p p1 /\ coherent p1).
  { unfold m. destruct (radius c); [apply (reads_stop i), Hp|]. exists p. auto using same_refl. }
  destruct Hm as (p1 & E1 & S1 & C1). unfold andthen at 1. rewrite E1.
  destruct (match radius c with Some _ => pstop p i | None => start_point p i end) as [a|e]; cbn [bind]; [|exists p1; auto].
  set (m2 := match nth_error (parts p) (next_index i c) with
        | Some (Linear _ c') => match radius c' with Some _ => bulge_start_point (next_index i c) | None => ret (stop_point p i) end
        | _ => ret (stop_point p i) end).
  assert (Hm : exists p2, m2 p1 = (match pradius p (next_index i c) with Ok _ => pstart p (next_index i c) | Raise _ => stop_point p i end, p2) /\
    same p1 p2 /\ coherent p2).
  { unfold m2, pradius, pcorner. destruct (nth_error (parts p) (next_index i c)) as [[s c'| | | |]|]; cbn [bind];
      try (exists p1; auto using same_refl; fail).
    cbn [bare radius]. destruct (radius c'); [|exists p1; auto using same_refl].
    rewrite (stable_pstart _ p p1 S1). apply (reads_start (next_index i c)), C1. }
  destruct Hm as (p2 & E2 & S2 & C2). unfold andthen at 1. rewrite E2.
  destruct (match pradius p (next_index i c) with Ok _ => pstart p (next_index i c) | Raise _ => stop_point p i end) as [b|e]; cbn [bind];
    exists p2; split; try reflexivity; split; auto; apply (same_trans _ p1); assumption.
Qed.

(** ** Drawing keeps the caches coherent *)
Lemma geometry_coherent i p : coherent p -> coherent (snd (geometry i p)).
Proof.
  intros H. unfold geometry, andthen at 1, here.
  destruct (nth_error (parts p) i) as [[[] c| | | |]|]; try exact H.
  destruct (reads_points i) as [_ R]. destruct (R p H) as (p' & E & _ & C). unfold andthen. rewrite E.
  destruct (ppoints p i); exact C.
Qed.
Lemma reading_coherent r p : coherent p -> coherent (reading r p).
Proof.
  intros H. destruct r; cbn [reading].
  - destruct (proj2 (reads_direction i) p H) as (p' & E & _ & C). rewrite E. exact C.
  - destruct (proj2 (reads_center i) p H) as (p' & E & _ & C). rewrite E. exact C.
  - destruct (proj2 (reads_start i) p H) as (p' & E & _ & C). rewrite E. exact C.
  - destruct (proj2 (reads_stop i) p H) as (p' & E & _ & C). rewrite E. exact C.
  - destruct (proj2 (reads_bulge i) p H) as (p' & E & _ & C). rewrite E. exact C.
  - destruct (proj2 (reads_points i) p H) as (p' & E & _ & C). rewrite E. exact C.
  - apply geometry_coherent, H.
Qed.
