(** Proofs about the painters. *)
From Coq Require Import Reals List ZArith Bool Lra Lia String Ascii.
From Flocq Require Import Core.
From Verif Require Import Base ModelFormula ModelMeasure ModelXml ModelVector ModelTransformation ModelLine ModelBezier.
From Verif Require ModelScene.
Import ModelScene(position, PVector, PName, PNumber, coordinates, cast_position).
From Verif Require Import ModelPainter SpecPainter.
Import ListNotations.
Local Open Scope R_scope.

Lemma vec_eq (p q : vec) : vx p = vx q -> vy p = vy q -> p = q.
Proof. destruct p, q; cbn. intros -> ->. reflexivity. Qed.

(** ** Images of curves *)

Section Place.
Variables a k b h : R.
Notation f := (placed a k b h).

Lemma segment_image p q y : on_segment (f p) (f q) y <-> exists x, on_segment p q x /\ y = f x.
Proof.
  split.
  - intros (t&T&->). eexists. split; [exists t; split; [exact T | reflexivity]|]. apply vec_eq; cbn; ring.
  - intros (x&(t&T&->)&->). exists t. split; auto. apply vec_eq; cbn; ring.
Qed.
Lemma cubic_image p q r s y : on_cubic (f p) (f q) (f r) (f s) y <-> exists x, on_cubic p q r s x /\ y = f x.
Proof.
  split.
  - intros (t&T&->). eexists. split; [exists t; split; [exact T | reflexivity]|]. apply vec_eq; cbn; ring.
  - intros (x&(t&T&->)&->). exists t. split; auto. apply vec_eq; cbn; ring.
Qed.
Lemma rectangle_image p q y : in_rectangle (f p) (f q) y <-> exists x, in_rectangle p q x /\ y = f x.
Proof.
  split.
  - intros (s&t&S_&T&->). eexists. split; [exists s, t; split; [exact S_ | split; [exact T | reflexivity]]|]. apply vec_eq; cbn; ring.
  - intros (x&(s&t&S_&T&->)&->). exists s, t. repeat split; try apply S_; try apply T. apply vec_eq; cbn; ring.
Qed.
Lemma nth_map_some A B (g : A -> B) l i y : nth_error (map g l) i = Some y <-> exists x, nth_error l i = Some x /\ y = g x.
Proof.
  rewrite nth_error_map. destruct (nth_error l i); simpl; split.
  - intros [= <-]; eauto.
  - intros (x&[= ->]&->); auto.
  - discriminate.
  - intros (x&H&_); discriminate.
Qed.
Lemma chain_image l y : on_chain (map f l) y <-> exists x, on_chain l x /\ y = f x.
Proof.
  split.
  - intros (i&p&q&P&Q&H). apply nth_map_some in P as (p'&P&->). apply nth_map_some in Q as (q'&Q&->).
    apply segment_image in H as (x&H&->). exists x. split; auto. exists i, p', q'. auto.
  - intros (x&(i&p&q&P&Q&H)&->). exists i, (f p), (f q).
    rewrite !nth_map_some. split; [eauto|]. split; [eauto|]. apply segment_image. eauto.
Qed.
Lemma last_map (l : list vec) p : last (map f l) (f p) = f (last l p).
Proof. induction l as [|x l IH]; auto. destruct l; auto. Qed.
Lemma loop_image l y : on_loop (map f l) y <-> exists x, on_loop l x /\ y = f x.
Proof.
  unfold on_loop. rewrite chain_image. split.
  - intros [(x&H&->)|(p&P&H)]; [eauto|]. apply nth_map_some in P as (p'&P&->). rewrite last_map in H.
    apply segment_image in H as (x&H&->). exists x. split; [right; eauto | auto].
  - intros (x&[H|(p&P&H)]&->); [left; eauto|]. right. exists (f p). rewrite nth_map_some. split; [eauto|].
    rewrite last_map. apply segment_image. eauto.
Qed.
End Place.

(** ** One mark *)

Lemma depicts_one ink f cast sh (g : figure) (i : option ink) :
  (forall y, inked g y <-> exists x, covers cast sh x /\ y = f x) ->
  (forall s, (exists p, g = FText p s) <-> exists p, sh = SText p s) ->
  depicts f cast sh [(g, i)].
Proof.
  intros H W. split.
  - intros y. rewrite <- H. split.
    + intros (m&[<-|[]]&I). exact I.
    + intros I. exists (g, i). split; [now left | exact I].
  - intros s. rewrite <- W. split.
    + intros (p&j&[[= -> _]|[]]). eauto.
    + intros [p ->]. exists p, i. now left.
Qed.

Ltac no_text := intros ?; split; intros [? NT]; discriminate NT.

Lemma bind_ok A B (r : result A) (k : A -> result B) y : bind r k = Ok y -> exists x, r = Ok x /\ k x = Ok y.
Proof. destruct r; simpl; [eauto | discriminate]. Qed.

Lemma traverse_cast (cast : position -> result vec) (g : vec -> vec) l m :
  traverse (fun p => bind (cast p) (fun v => Ok (g v))) l = Ok m -> exists m', traverse cast l = Ok m' /\ m = map g m'.
Proof.
  revert m. induction l as [|p l IH]; simpl; intros m.
  - intros [= <-]. exists []. auto.
  - destruct (cast p); simpl; [|discriminate].
    destruct (traverse _ l) as [m1|] eqn:E; simpl; [|discriminate]. intros [= <-].
    destruct (IH m1 eq_refl) as (m'&->&->). exists (a :: m'). auto.
Qed.

Section Figures.
Variable cast : position -> result vec.
Variables a k b h : R.
Notation f := (placed a k b h).
Context {ink : Type}.
Variable i : option ink.

Lemma text_depicted p s v : cast p = Ok v -> depicts f cast (SText p s) [(FText (f v) s, i)].
Proof.
  intros E. apply depicts_one.
  - intros y. simpl. split.
    + intros ->. exists v. auto.
    + intros (x&H&->). congruence.
  - intros s'. split; intros [q H]; injection H as _ ->; eauto.
Qed.
Lemma line_depicted p q v w : cast p = Ok v -> cast q = Ok w -> depicts f cast (SSegment p q) [(FLine (f v) (f w), i)].
Proof.
  intros Ep Eq. apply depicts_one; [|no_text]. intros y. cbn [inked covers]. rewrite segment_image. split.
  - intros (x&H&->). exists x. split; auto. eauto 10.
  - intros (x&(v'&w'&H1&H2&H)&->). rewrite Ep in H1. rewrite Eq in H2. injection H1 as ->. injection H2 as ->. eauto.
Qed.
Lemma cubic_depicted p q r s v w y z : cast p = Ok v -> cast q = Ok w -> cast r = Ok y -> cast s = Ok z ->
  depicts f cast (SCubic p q r s) [(FCubic (f v) (f w) (f y) (f z), i)].
Proof.
  intros Ep Eq Er Es. apply depicts_one; [|no_text]. intros u. cbn [inked covers]. rewrite cubic_image. split.
  - intros (x&H&->). exists x. split; auto. exists v, w, y, z. auto 10.
  - intros (x&(v'&w'&y'&z'&H1&H2&H3&H4&H)&->). rewrite Ep in H1. rewrite Eq in H2. rewrite Er in H3. rewrite Es in H4.
    injection H1 as ->. injection H2 as ->. injection H3 as ->. injection H4 as ->. eauto.
Qed.
Lemma image_depicted p q v w : cast p = Ok v -> cast q = Ok w -> depicts f cast (SImage p q) [(FImage (f v) (f w), i)].
Proof.
  intros Ep Eq. apply depicts_one; [|no_text]. intros y. cbn [inked covers]. rewrite rectangle_image. split.
  - intros (x&H&->). exists x. split; auto. eauto 10.
  - intros (x&(v'&w'&H1&H2&H)&->). rewrite Ep in H1. rewrite Eq in H2. injection H1 as ->. injection H2 as ->. eauto.
Qed.
Lemma polyline_depicted l m : traverse cast l = Ok m -> depicts f cast (SPolyline l) [(FPolyline (map f m), i)].
Proof.
  intros E. apply depicts_one; [|no_text]. intros y. cbn [inked covers]. rewrite chain_image. split.
  - intros (x&H&->). eauto 10.
  - intros (x&(m'&H1&H)&->). rewrite E in H1. injection H1 as ->. eauto.
Qed.
Lemma polygon_depicted l m : traverse cast l = Ok m -> depicts f cast (SPolygon l) [(FPolygon (map f m), i)].
Proof.
  intros E. apply depicts_one; [|no_text]. intros y. cbn [inked covers]. rewrite loop_image. split.
  - intros (x&H&->). eauto 10.
  - intros (x&(m'&H1&H)&->). rewrite E in H1. injection H1 as ->. eauto.
Qed.
End Figures.

(** ** The simple painters *)

Ltac casts := repeat (cbn [bind traverse cast_all] in *; match goal with
  | H : bind ?r _ = Ok _ |- _ => let E := fresh "E" in destruct r eqn:E; [cbn [bind] in H | discriminate H]
  | H : context [match cast_position ?t ?c ?p with _ => _ end] |- _ => let E := fresh "E" in destruct (cast_position t c p) eqn:E
  end).

Section Simple.
Variables style ink : Type.
Variable graphic_style : style -> result ink.
Variable t : transformation.
Variable c : coordinates.

(** A painter whose positions are placed so. *)
Variable place : position -> result vec.
Variables a k b h : R.
Hypothesis place_ok : forall p, place p = bind (cast_position t c p) (fun v => Ok (placed a k b h v)).

Lemma place_inv p v : place p = Ok v -> exists w, cast_position t c p = Ok w /\ v = placed a k b h w.
Proof. rewrite place_ok. destruct (cast_position t c p); simpl; [|discriminate]. intros [= <-]. eauto. Qed.

Lemma place_list l m : traverse place l = Ok m -> exists m', traverse (cast_position t c) l = Ok m' /\ m = map (placed a k b h) m'.
Proof.
  revert m. induction l as [|p l IH]; simpl; intros m.
  - intros [= <-]. exists []. auto.
  - destruct (place p) eqn:E; simpl; [|discriminate]. apply place_inv in E as (w&->&->). cbn [bind].
    destruct (traverse place l) as [m1|] eqn:E1; simpl; [|discriminate]. intros [= <-].
    destruct (IH m1 eq_refl) as (m'&->&->). exists (w :: m'). auto.
Qed.
Lemma place_defined l m' : traverse (cast_position t c) l = Ok m' -> traverse place l = Ok (map (placed a k b h) m').
Proof.
  revert m'. induction l as [|p l IH]; simpl; intros m'.
  - intros [= <-]. auto.
  - rewrite place_ok. destruct (cast_position t c p); simpl; [|discriminate].
    destruct (traverse (cast_position t c) l) as [m1|]; simpl; [|discriminate]. intros [= <-].
    rewrite (IH m1 eq_refl). reflexivity.
Qed.
End Simple.

Lemma drawn_inv style ink (gs : style -> result ink) s g m : drawn style ink gs s g = Ok m -> exists i, m = [(g, Some i)].
Proof. unfold drawn. destruct (gs s); simpl; [|discriminate]. intros [= <-]. eauto. Qed.

Lemma traverse2 A B (g : A -> result B) p q l : traverse g [p; q] = Ok l ->
  exists v w, g p = Ok v /\ g q = Ok w /\ l = [v; w].
Proof. simpl. destruct (g p); simpl; [|discriminate]. destruct (g q); simpl; [|discriminate]. intros [= <-]. eauto 6. Qed.
Lemma traverse3 A B (g : A -> result B) p q r l : traverse g [p; q; r] = Ok l ->
  exists v w x, g p = Ok v /\ g q = Ok w /\ g r = Ok x /\ l = [v; w; x].
Proof.
  simpl. destruct (g p); simpl; [|discriminate]. destruct (g q); simpl; [|discriminate]. destruct (g r); simpl; [|discriminate].
  intros [= <-]. eauto 8.
Qed.
Lemma traverse4 A B (g : A -> result B) p q r s l : traverse g [p; q; r; s] = Ok l ->
  exists v w x y, g p = Ok v /\ g q = Ok w /\ g r = Ok x /\ g s = Ok y /\ l = [v; w; x; y].
Proof.
  simpl. destruct (g p); simpl; [|discriminate]. destruct (g q); simpl; [|discriminate]. destruct (g r); simpl; [|discriminate].
  destruct (g s); simpl; [|discriminate]. intros [= <-]. eauto 10.
Qed.

Lemma dxf_place t c p : dxf_cast t c p = bind (cast_position t c p) (fun v => Ok (placed 0 10 0 10 v)).
Proof. unfold dxf_cast. destruct (cast_position t c p); simpl; auto. f_equal. apply vec_eq; cbn; ring. Qed.
Lemma pdf_place_ok t c bb p : pdf_place t c bb p = bind (cast_position t c p)
  (fun v => Ok (placed (cm * (1 - inf (bx bb))) (0.7 * cm) (cm * (1 - inf (by_ bb))) (0.7 * cm) v)).
Proof.
  unfold pdf_place, pdf_cast. destruct (cast_position t c p); simpl; auto. f_equal. unfold pdf_canvas, placed. apply vec_eq; cbn; ring.
Qed.
Lemma svg_place t c bb p : svg_cast t c bb p = bind (cast_position t c p)
  (fun v => Ok (placed (- inf (bx bb)) 10 (- sup (by_ bb)) (-10) v)).
Proof. unfold svg_cast. destruct (cast_position t c p); simpl; auto. f_equal. apply vec_eq; cbn; ring. Qed.
Lemma mpl_place t c p : cast_position t c p = bind (cast_position t c p) (fun v => Ok (placed 0 1 0 1 v)).
Proof. destruct (cast_position t c p) as [v|]; simpl; auto. f_equal. apply vec_eq; cbn; ring. Qed.

Ltac basic_case P := match goal with
  | H : bind (traverse _ [_; _]) _ = Ok _ |- _ =>
      apply bind_ok in H as (l&H1&H); apply traverse2 in H1 as (?&?&H1&H2&->);
      apply P in H1 as (?&?&->), H2 as (?&?&->)
  | H : bind (traverse _ [_; _; _; _]) _ = Ok _ |- _ =>
      apply bind_ok in H as (l&H1&H); apply traverse4 in H1 as (?&?&?&?&H1&H2&H3&H4&->);
      apply P in H1 as (?&?&->), H2 as (?&?&->), H3 as (?&?&->), H4 as (?&?&->)
  | H : bind _ _ = Ok _ |- _ => apply bind_ok in H as (?&H1&H); apply P in H1 as (?&?&->)
  end.

Section SimplePainters.
Variables style ink : Type.
Variable graphic_style : style -> result ink.
Variable t : transformation.
Variable c : coordinates.

Theorem dxf_depicts s sh m : basic sh -> dxf_item style ink graphic_style t c s sh = Ok m ->
  depicts (placed 0 10 0 10) (cast_position t c) sh m.
Proof.
  pose proof (place_inv t c _ _ _ _ _ (dxf_place t c)) as P. intros B H. destruct sh; try destruct B; unfold dxf_item, cast_all in H; basic_case P.
  - injection H as <-. now apply text_depicted.
  - apply drawn_inv in H as [i ->]. now apply line_depicted.
  - apply drawn_inv in H as [i ->]. now apply cubic_depicted.
Qed.
Theorem mpl_depicts s sh m : basic sh -> mpl_item style ink graphic_style t c s sh = Ok m ->
  depicts (fun v => v) (cast_position t c) sh m.
Proof.
  assert (E : forall v, placed 0 1 0 1 v = v) by (intros v; apply vec_eq; cbn; ring).
  intros B H. cut (depicts (placed 0 1 0 1) (cast_position t c) sh m).
  { intros [D1 D2]. split; auto. intros y. rewrite D1. split; intros (x&H1&->); exists x; rewrite E; auto. }
  pose proof (place_inv t c _ _ _ _ _ (mpl_place t c)) as P. destruct sh; try destruct B; unfold mpl_item, cast_all in H; basic_case P.
  - injection H as <-. now apply text_depicted.
  - apply drawn_inv in H as [i ->]. now apply line_depicted.
  - apply drawn_inv in H as [i ->]. now apply cubic_depicted.
Qed.
Theorem pdf_depicts bb s sh m : basic sh -> pdf_item style ink t c bb s sh = Ok m ->
  depicts (placed (cm * (1 - inf (bx bb))) (0.7 * cm) (cm * (1 - inf (by_ bb))) (0.7 * cm)) (cast_position t c) sh m.
Proof.
  pose proof (place_inv t c _ _ _ _ _ (pdf_place_ok t c bb)) as P. intros B H. destruct sh; try destruct B; unfold pdf_item, cast_all in H; basic_case P;
  injection H as <-.
  - now apply text_depicted.
  - now apply line_depicted.
  - now apply cubic_depicted.
Qed.
Theorem svg_depicts bb s sh m : match sh with SText _ _ | SSegment _ _ => True | _ => False end ->
  svg_item style ink graphic_style t c bb s sh = Ok m ->
  depicts (placed (- inf (bx bb)) 10 (- sup (by_ bb)) (-10)) (cast_position t c) sh m.
Proof.
  pose proof (place_inv t c _ _ _ _ _ (svg_place t c bb)) as P. intros B H. destruct sh; try destruct B; unfold svg_item, cast_all in H; basic_case P.
  - injection H as <-. now apply text_depicted.
  - apply drawn_inv in H as [i ->]. now apply line_depicted.
Qed.
End SimplePainters.
