(** The bounding box of a path. *)
From Coq Require Import Reals List Lra Lia Bool.
From Verif Require Import Base ModelVector ModelTransformation ModelLine ModelBezier ModelConic ModelPath ModelPathBox
  SpecVector SpecLine SpecBezier SpecConic SpecPath SpecPathBox GluePath ProofVector ProofSegment ProofConic ProofArc ProofPath ProofPath2 ProofPath3 ProofPath4.
Import ListNotations.
Local Open Scope R_scope.
Local Open Scope result_scope.

(** ** The geometry does not depend on the caches *)
Definition pgeometry (p : path) (i : nat) : result piece :=
  match nth_error (parts p) i with
  | Some (Linear (PLine _ _) _) => ab <- ppoints p i ;; Ok (GSegment (Seg (fst ab) (snd ab)))
  | Some (Linear _ _) => a <- start_point p i ;; b <- stop_point p i ;; Ok (GSegment (Seg a b))
  | Some (PQuad q1 q2 absolute) =>
      a <- start_point p i ;; b <- to_absolute_point p i absolute q1 ;;
      c <- to_absolute_point p i absolute q2 ;; Ok (GQuad (ModelBezier.Quad a b c))
  | Some (PCubic q1 q2 q3 absolute) =>
      a <- start_point p i ;; b <- to_absolute_point p i absolute q1 ;;
      c <- to_absolute_point p i absolute q2 ;; d <- to_absolute_point p i absolute q3 ;; Ok (GCubic (Cub a b c d))
  | Some (PArc q rx ry angle large sweep absolute) =>
      a <- start_point p i ;; b <- stop_point p i ;; g <- svg_arc a b rx ry angle large sweep ;; Ok (GArc g)
  | Some (PStringed _) => Raise AttributeError
  | None => Raise AttributeError
  end.
Lemma stable_geometry i : stable (fun p => pgeometry p i).
Proof.
  intros p p' S. unfold pgeometry. pose proof (same_nth p p' i S) as N.
  assert (A : forall f a, to_absolute_point p i f a = to_absolute_point p' i f a).
  { intros f a. unfold to_absolute_point. rewrite (same_start p p' i S). reflexivity. }
  pose proof (reads_stable _ _ _ (reads_points i) p p' S) as P. cbn in P.
  destruct (nth_error (parts p) i) as [[[] c| | | |]|], (nth_error (parts p') i) as [[[] c'| | | |]|]; cbn in N; try discriminate N;
    rewrite ?P, ?(same_start p p' i S), ?(same_stop p p' i S); try injection N as; subst; rewrite ?A; try reflexivity.
Qed.
Lemma reads_geometry i : reads (geometry i) (fun p => pgeometry p i).
Proof.
  split; [apply stable_geometry|]. intros p C. unfold geometry, andthen at 1, here, pgeometry.
  destruct (nth_error (parts p) i) as [[[] c| | | |]|]; try (exists p; split; [reflexivity|split; [apply same_refl|exact C]]).
  destruct (reads_points i) as [_ H]. destruct (H p C) as (p' & E & S & C'). exists p'. unfold andthen. rewrite E.
  destruct (ppoints p i); auto.
Qed.

(** ** The loop *)
Definition grow (acc interval : option box) : option box :=
  match acc with
  | None => interval
  | Some b => match interval with Some b' => Some (bunion b b') | None => Some b end
  end.
Fixpoint pboxes (l : list nat) (acc : option box) (p : path) : result (option box) :=
  match l with
  | [] => Ok acc
  | i :: l => g <- pgeometry p i ;; pboxes l (grow acc (piece_box g)) p
  end.
Lemma reads_boxes l : forall acc, reads (boxes_loop l acc) (pboxes l acc).
Proof.
  induction l as [|i l IH]; intros acc; [apply reads_ret|]. cbn [boxes_loop].
  apply (reads_ext _ _ (fun p => bind (bind (pgeometry p i) (fun g => Ok (piece_box g))) (fun v => pboxes l (grow acc v) p))).
  - apply reads_then; [|intros v; apply IH]. unfold part_bounding_box. apply reads_then; [apply reads_geometry|]. intros g. apply reads_ret.
  - intros p. cbn [pboxes]. destruct (pgeometry p i); reflexivity.
Qed.
Lemma reads_path_box p : coherent p -> fst (path_bounding_box p) = pboxes (seq 0 (length (parts p))) None p.
Proof.
  intros C. unfold path_bounding_box, andthen, here. destruct (reads_boxes (seq 0 (length (parts p))) None) as [_ H].
  destruct (H p C) as (p' & E & _). rewrite E. reflexivity.
Qed.
Lemma fst_geometry p i : coherent p -> fst (geometry i p) = pgeometry p i.
Proof. intros C. destruct (reads_geometry i) as [_ H]. destruct (H p C) as (p' & E & _). rewrite E. reflexivity. Qed.

Lemma history_coherent a l p : Forall drawing l -> history (new_path a) l = Ok p -> coherent p.
Proof. intros F H. apply (drawing_coherent l (new_path a) p F (new_sane a) (new_anchored a) (new_coherent a) H). Qed.
