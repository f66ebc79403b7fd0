(** Property C144: the bounding box of a path. *)
From Coq Require Import Reals List Lra Lia.
From Verif Require Import Base ModelVector ModelTransformation ModelLine ModelBezier ModelConic ModelPath ModelPathBox.
From Verif Require Import SpecVector SpecLine SpecBezier SpecConic SpecPath SpecPathBox GluePath.
From Verif Require Import ProofVector ProofPath3 ProofPathBox ProofPathBox2 ProofPathBox3.
Import ListNotations.
Local Open Scope R_scope.

(** Whatever was drawn and read before, the box holds the lines, the curves and the arcs of upright ellipses.  Not proved, since false: the
    arcs of turned ellipses and the rounded corners, below. *)
Theorem C144_holds_partial : forall a l p b, Forall drawing l -> history (new_path a) l = Ok p -> fst (path_bounding_box p) = Ok (Some b) ->
  forall i g x, (i < length (parts p))%nat -> fst (geometry i p) = Ok g -> ~ turned g -> on_piece g x -> in_box b x.
Proof. intros a l p b D H B. exact (box_holds a l p D H b B). Qed.
Print Assumptions C144_holds_partial.

(** There is a box exactly when there is a part, provided each part has a geometry; otherwise the error is the one of the first part which
    has none. *)
Theorem C144_defined : forall a l p, Forall drawing l -> history (new_path a) l = Ok p ->
  (forall i, (i < length (parts p))%nat -> is_ok (fst (geometry i p))) ->
  (parts p = [] /\ fst (path_bounding_box p) = Ok None) \/ (parts p <> [] /\ exists b, fst (path_bounding_box p) = Ok (Some b)).
Proof. exact box_defined. Qed.
Print Assumptions C144_defined.
Theorem C144_raises : forall a l p e, Forall drawing l -> history (new_path a) l = Ok p ->
  (fst (path_bounding_box p) = Raise e <-> exists i, (i < length (parts p))%nat /\
    (forall j, (j < i)%nat -> is_ok (fst (geometry j p))) /\ fst (geometry i p) = Raise e).
Proof. intros a l p e D H. exact (box_raises a l p D H e). Qed.
Print Assumptions C144_raises.

(** Without arcs, the box is the least one which holds the ends and the control points; for lines, the least one which holds the figure. *)
Theorem C144_least : forall a l p b, Forall drawing l -> history (new_path a) l = Ok p -> fst (path_bounding_box p) = Ok (Some b) ->
  (forall i g, (i < length (parts p))%nat -> fst (geometry i p) = Ok g -> ~ elliptic g) ->
  forall c, (forall i g x, (i < length (parts p))%nat -> fst (geometry i p) = Ok g -> determines g x -> in_box c x) -> covers c b.
Proof. intros a l p b D H B. exact (box_least a l p D H b B). Qed.
Print Assumptions C144_least.
Theorem C144_tight : forall a l p b, Forall drawing l -> history (new_path a) l = Ok p -> fst (path_bounding_box p) = Ok (Some b) ->
  (forall i g, (i < length (parts p))%nat -> fst (geometry i p) = Ok g -> straight g) ->
  forall c, (forall i g x, (i < length (parts p))%nat -> fst (geometry i p) = Ok g -> on_piece g x -> in_box c x) -> covers c b.
Proof.
  intros a l p b D H B S c K. apply (box_least a l p D H b B).
  - intros i g I G E. specialize (S i g I G). destruct g as [| | |[]]; auto.
  - intros i g x I G X. apply (K i g x I G). specialize (S i g I G).
    destruct g as [s|q|q|[s|e]]; try destruct S; cbn in *; destruct X as [-> | ->]; [exists 0|exists 1|exists 0|exists 1]; repeat split; lra.
Qed.
Print Assumptions C144_tight.

(** A path of one curve: the box goes as far as the control point, which the curve does not reach. *)
Theorem C144_curve_refuted : exists l p b, Forall drawing l /\ history (new_path (V 0 0)) l = Ok p /\ fst (path_bounding_box p) = Ok (Some b) /\
  sup (by_ b) = 2 /\ forall i g x, (i < length (parts p))%nat -> fst (geometry i p) = Ok g -> on_piece g x -> vy x <= 1.
Proof.
  exists (map Command [QuadraticTo (V 1 2) (V 2 0) true]). eexists. eexists.
  split; [repeat constructor|]. split; [reflexivity|]. split; [reflexivity|]. split.
  - cbn. unfold Rmax. repeat destruct (Rle_dec _ _); lra.
  - intros i g x I G. cbn in I. destruct i; [|lia]. cbn in G. injection G as <-. cbn. intros (t & T & ->). cbn. pose proof (Rle_0_sqr (2 * t - 1)) as Q. unfold Rsqr in Q. nra.
Qed.
Print Assumptions C144_curve_refuted.

(** A corner at (3, 4) rounded with radius 1: the arc leaves the box of the path. *)
Theorem C144_corner_refuted : exists l p b q c u v m, Forall drawing l /\ history (new_path (V 0 0)) l = Ok p /\ rounded p 1 1 /\
  fst (path_bounding_box p) = Ok (Some b) /\ fst (bulge_geometry 1 p) = Ok (Circ c 1 (Some (Dom u v))) /\
  SpecConic.swept u v m /\ polar c 1 m q /\ ~ in_box b q.
Proof.
  destruct tent_leaves as (b & q & u & v & m & B & G & S & P & N). exists tent, tent_path, b, q, (V 3 (7/3)), u, v, m.
  split; [repeat constructor|]. split; [exact tent_drawn|]. split; [eexists; eexists; split; reflexivity|]. auto.
Qed.
Print Assumptions C144_corner_refuted.

(** An arc of a circle given as an ellipse turned by one degree: its ends are not both in the box. *)
Theorem C144_arc_refuted : exists l p b g, Forall drawing l /\ history (new_path (V 0 0)) l = Ok p /\ fst (path_bounding_box p) = Ok (Some b) /\
  fst (geometry 0 p) = Ok g /\ on_piece g (V 0 0) /\ on_piece g (V 200 0) /\ ~ (in_box b (V 0 0) /\ in_box b (V 200 0)).
Proof.
  destruct bow_leaves as (b & g & H). exists bow, bow_path, b, g. split; [repeat constructor|]. split; [exact bow_drawn|]. exact H.
Qed.
Print Assumptions C144_arc_refuted.

(** A stringed curve has no geometry: no box for the whole path. *)
Theorem C144_stringed_refuted : exists l p, Forall drawing l /\ history (new_path (V 0 0)) l = Ok p /\
  (length (parts p) = 2)%nat /\ is_ok (fst (geometry 0 p)) /\ fst (path_bounding_box p) = Raise AttributeError.
Proof.
  exists (map Command [LineTo (V 1 0) None true; StringedCubicTo (V 1 1) (V 2 1) true]). eexists.
  split; [repeat constructor|]. split; [reflexivity|]. split; [reflexivity|]. split; [eexists; reflexivity|reflexivity].
Qed.
Print Assumptions C144_stringed_refuted.

(** A line, a line and a quadratic curve: the box is that of the four points and the control point. *)
Example C144_case : exists l p b, Forall drawing l /\ history (new_path (V 0 0)) l = Ok p /\ fst (path_bounding_box p) = Ok (Some b) /\
  (length (parts p) = 3)%nat /\ b = Box (Itv 0 5) (Itv (-1) 3) /\
  (forall i g, (i < length (parts p))%nat -> fst (geometry i p) = Ok g -> ~ elliptic g /\ ~ turned g).
Proof.
  exists (map Command [LineTo (V 2 0) None true; LineTo (V 2 3) None true; QuadraticTo (V 5 1) (V 4 (-1)) true]). eexists. eexists.
  split; [repeat constructor|]. split; [reflexivity|]. split; [reflexivity|]. split; [reflexivity|]. split.
  - unfold bunion, iunion; cbn. repeat match goal with
    | |- context [Rmin ?a ?b] => first [rewrite (Rmin_left a b) by lra | rewrite (Rmin_right a b) by lra]
    | |- context [Rmax ?a ?b] => first [rewrite (Rmax_left a b) by lra | rewrite (Rmax_right a b) by lra]
    end. reflexivity.
  - intros i g I G. cbn in I. destruct i as [|[|[|i]]]; [| | |lia]; cbn in G; injection G as <-; split; exact (fun x => x).
Qed.
Example C144_case_none : fst (path_bounding_box (new_path (V 1 1))) = Ok None.
Proof. reflexivity. Qed.
