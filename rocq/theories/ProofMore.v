(** Lemmas on the length of an interpolated curve and on a new document. *)
From Coq Require Import Reals List Lra Lia.
From Verif Require Import Base ModelVector ModelBezier SpecVector ProofVector ProofBezier.
Import ListNotations.
Local Open Scope R_scope.

(** The length of the broken line by the points of parameters [t] and [l]. *)
Fixpoint broken (f : R -> vec) (t : R) (l : list R) : R :=
  match l with [] => 0 | t' :: l => dist (f t) (f t') + broken f t' l end.
(** From [t] by increasing values, at most [dt] apart, to 1. *)
Fixpoint steps (dt t : R) (l : list R) : Prop :=
  match l with [] => t = 1 | t' :: l => t < t' <= t + dt /\ steps dt t' l end.

Lemma interpolated_steps f dt : 0 < dt -> forall n t l, t <= 1 -> 1 - t <= INR n * dt ->
  exists ts, steps dt t ts /\ forall m, (S n <= m)%nat -> interpolated_length_loop m f dt l t = Ok (l + broken f t ts).
Proof.
  intros D. induction n as [|n IH]; intros t l T B.
  - cbn in B. assert (t = 1) by lra. subst. exists []. split; [reflexivity|]. intros m M. destruct m; [lia|].
    cbn [interpolated_length_loop broken]. rewrite Rltb_false by lra. f_equal. lra.
  - destruct (Rlt_le_dec t 1) as [L|L].
    + set (t' := Rmin (t + dt) 1).
      assert (R1 : t < t' <= t + dt) by (unfold t', Rmin; destruct (Rle_dec (t + dt) 1); lra).
      assert (R2 : t' <= 1) by apply Rmin_r.
      assert (R3 : 1 - t' <= INR n * dt).
      { rewrite S_INR in B. unfold t', Rmin. destruct (Rle_dec (t + dt) 1); [lra|]. assert (0 <= INR n) by apply pos_INR. nra. }
      destruct (IH t' (l + magnitude (vsub (f t') (f t))) R2 R3) as (ts & S & E). exists (t' :: ts). split; [split; assumption|].
      intros m M. destruct m; [lia|]. cbn [interpolated_length_loop broken]. rewrite Rltb_true by exact L. cbv zeta. fold t'.
      rewrite E by lia. f_equal. rewrite magnitude_len, len_dist0. rewrite (dist_sym (f t) (f t')). ring.
    + assert (t = 1) by lra. subst. exists []. split; [reflexivity|]. intros m M. destruct m; [lia|].
      cbn [interpolated_length_loop broken]. rewrite Rltb_false by lra. f_equal. lra.
Qed.
Lemma interpolated_broken f dt : 0 < dt -> exists ts n, steps dt 0 ts /\ forall m, (n <= m)%nat -> interpolated_length m f dt = Ok (broken f 0 ts).
Proof.
  intros D. destruct (INR_unbounded (1 / dt)) as [n Hn].
  destruct (interpolated_steps f dt D n 0 0) as (ts & S & E); [lra| |].
  - apply Rlt_le. apply Rmult_lt_reg_r with (/ dt); [apply Rinv_0_lt_compat; auto|].
    replace (INR n * dt * / dt) with (INR n) by (field; lra). lra.
  - exists ts, (Datatypes.S n). split; [exact S|]. intros m M. unfold interpolated_length. rewrite E by exact M. f_equal. ring.
Qed.
