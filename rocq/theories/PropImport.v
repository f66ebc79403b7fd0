(** C128: the import of DXF files *)
From Coq Require Import Reals List Bool Arith Lra Lia String.
From Verif Require Import Base ModelVector ModelLine ModelConic ModelSpline ModelDxf ModelImport SpecVector SpecConic SpecSpline SpecDxf
  SpecImport GlueDxf GlueImport ProofVector ProofSpline ProofImport.
Import ListNotations.
Local Open Scope R_scope.

(** One item for each supported entity, in order, which shows the points of the entity. *)
Theorem C128_items_partial : forall l items, Forall other_type l -> dxf_import l = Ok items ->
  Forall2 (fun e i => readable e -> forall X, visible i X <-> traced e X) (filter supported l) items.
Proof. exact import_ok. Qed.
Print Assumptions C128_items_partial.

Theorem C128_defined : forall l, Forall other_type l -> (is_ok (dxf_import l) <-> Forall legible l).
Proof. exact import_defined. Qed.
Print Assumptions C128_defined.

(** The item of a polyline is a list, not a primitive. *)
Theorem C128_list_refuted : forall closed points items, dxf_import [DPolyline closed points] = Ok items ->
  exists g, items = [OneList g].
Proof.
  intros c l items E. unfold dxf_import in E. cbn [read_entities] in E.
  change (read_entity (DPolyline c l)) with (bind (on_polyline (DPolyline c l)) (fun x => Ok (Some x))) in E.
  unfold on_polyline in E. destruct (geometry _) as [g|]; [|discriminate E]. cbn [bind app] in E. injection E as <-. exists g. reflexivity.
Qed.
Print Assumptions C128_list_refuted.

(** The knots and the weights of a spline are ignored, *)
Theorem C128_ignored_refuted : forall p closed P knots weights knots' weights',
  dxf_import [DSpline p closed P knots weights] = dxf_import [DSpline p closed P knots' weights'].
Proof. reflexivity. Qed.
Print Assumptions C128_ignored_refuted.

(** so that points which are not of the curve are shown. *)
Definition parabola : entity := DSpline 2 false [P3 0 0 0; P3 2 0 0; P3 4 0 0] [0; 1; 2; 3; 4; 5] [1; 1; 1].
Ltac decide_all := repeat match goal with
  | |- context [Rle_dec ?a ?b] => destruct (Rle_dec a b); [try lra|try lra]
  | |- context [Rlt_dec ?a ?b] => destruct (Rlt_dec a b); [try lra|try lra]
  | |- context [Req_EM_T ?a ?b] => destruct (Req_EM_T a b); [try lra|try lra]
  end.
Theorem C128_knots_refuted : exists i X, dxf_import [parabola] = Ok [i] /\ visible i X /\ ~ traced parabola X.
Proof.
  destruct (dxf_import [parabola]) as [items|] eqn:E; [|discriminate E].
  unfold dxf_import in E. cbn [read_entities] in E.
  change (read_entity parabola) with (bind (on_spline parabola) (fun x => Ok (Some x))) in E.
  unfold on_spline, parabola in E. cbn [map] in E.
  set (P := [to_vector (P3 0 0 0); to_vector (P3 2 0 0); to_vector (P3 4 0 0)]) in E.
  destruct (new_bspline P 2 false None) as [s|] eqn:G; [|discriminate E]. cbn [bind app] in E. injection E as <-.
  exists (OneSpline s), (V 0 0). split; [reflexivity|]. split.
  - destruct (uniform_ends P 2 false s G) as [U _]. exists 0. split; [split; [lra|apply pos_INR]|exact U].
  - intros [(t & T & Q)|Q].
    + cbn [List.length map knot nth] in T. assert (T' : 2 <= t < 3) by (split; apply T). clear T.
      apply (f_equal vx) in Q. unfold spline_point in Q. cbn [vx vy List.length map xy px py sumn nth] in Q.
      assert (N1 : basis (knot [0; 1; 2; 3; 4; 5]) 2 1 t = (1 + 2 * (t - 2) - 2 * (t - 2) ^ 2) / 2).
      { unfold basis, quot, knot. cbn [nth Nat.add]. decide_all. }
      assert (N2 : basis (knot [0; 1; 2; 3; 4; 5]) 2 2 t = (t - 2) ^ 2 / 2).
      { unfold basis, quot, knot. cbn [nth Nat.add]. decide_all. }
      rewrite N1, N2 in Q. nra.
    + cbn in Q. injection Q. lra.
Qed.
Print Assumptions C128_knots_refuted.

Definition space : list entity :=
  [DLine (P3 0 0 0) (P3 1 0 0); DOther "TEXT"; DArc (P3 0 0 0) 2 270 90;
   DSpline 3 false [P3 0 0 0; P3 1 0 0; P3 1 1 0; P3 2 1 0; P3 3 1 0] [0; 0; 0; 0; 1 / 2; 1; 1; 1; 1] [];
   DPolyline true [(0, 0, 0, 0, 0); (1, 0, 0, 0, 1)]].
Example C128_case : Forall other_type space /\ Forall readable space /\ Forall legible space.
Proof.
  split; [|split]; unfold space; repeat (apply Forall_cons || apply Forall_nil); cbn; try lra; try lia; try exact I;
    try (intros H; decompose [or] H; discriminate || contradiction).
  - exists (1 / 2), 0. split; [lra|]. split; [reflexivity|]. intros i Hi.
    do 9 (destruct i as [|i]; [unfold knot; cbn; lra|]). lia.
  - split; [discriminate|]. repeat (apply Forall_cons || apply Forall_nil); cbn;
      intros N H; try (injection H; lra); apply N; reflexivity.
Qed.
