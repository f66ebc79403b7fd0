From Coq Require Import Reals List Lra Lia String.
From Verif Require Import Base ModelVector ModelSpline ModelDrawing ProofSpline ProofDrawing2.
Import ListNotations.

Lemma other_splines pts p c k s : new_bspline pts p c k = Ok s -> p <> 3%nat \/ c = true \/ k <> None ->
  exists e, add_geometry (Spline s) = ([], Some e) /\
    (k <> None -> e = ValueError) /\ (k = None -> (p < 2)%nat -> e = UnboundLocalError) /\ (k = None -> (2 <= p)%nat -> e = TypeError).
Proof.
  intros E H. destruct k as [k|].
  - exists ValueError. cbn [add_geometry]. unfold add_spline. rewrite to_bezier_nonuniform.
    + split; [reflexivity|]. split; [reflexivity|]. split; discriminate.
    + cbn in E. destruct (negb (non_decreasing k)); [discriminate|]. injection E as <-. reflexivity.
  - destruct (to_bezier_refused pts p c s E) as (A & B & C). cbn [add_geometry]. unfold add_spline.
    destruct (Nat.lt_ge_cases p 2) as [L|L].
    + rewrite (A L). exists UnboundLocalError. split; [reflexivity|]. split; [congruence|]. split; [reflexivity|]. intros; lia.
    + exists TypeError. split; [|split; [congruence|split; [intros; lia|reflexivity]]].
      assert (D : p = 2%nat \/ p = 3%nat \/ (3 < p)%nat) by lia. destruct c; [rewrite (C L eq_refl); reflexivity|].
      destruct D as [-> | [-> | D]].
      * exact (quadratic_spline pts s E).
      * exfalso. destruct H as [H|[H|H]]; congruence.
      * rewrite (B D). reflexivity.
Qed.
