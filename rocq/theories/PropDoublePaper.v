(** C168: the sheets of paper and their size in a PDF file in double precision. *)
From Coq Require Import String Ascii List Bool Reals Lra Lia ZArith.
From Flocq Require Import Core BinarySingleNaN.
From Verif Require Import Base ModelFormula ModelMeasure ModelXml ModelVector ModelUnits ModelColor ModelDouble ModelDoublePaper ProofVector ProofXml ProofUnits ProofDouble PropDouble ProofAccuracy PropAccuracy ProofDoublePaper.
Import ListNotations.
Local Open Scope R_scope.

(** ** What is expected *)
(** A number within one part in 10^14 of a length. *)
Definition agrees (x : float) (r : R) : Prop := number x /\ 0 < r /\ Rabs (B2R x - r) <= r / 10 ^ 14.
(** What the documentation of the C library says of pow: the result is wrong by at most one unit in
    the last place. *)
Definition good_power (power : float -> nat -> float) : Prop := forall n, (n <= 10)%nat ->
  let x := root_two in number (power x n) /\ Rabs (B2R (power x n) - B2R x ^ n) <= B2R x ^ n / 2 ^ 52.

(** ** Lemmas *)
Lemma sf_val (x : float) m e : B2SF x = SpecFloat.S754_finite false m e -> finite x /\ val x = IZR (Zpos m) * bpow radix2 e.
Proof. destruct x as [s|s| |s m' e' H]; cbn; try discriminate. intros E. injection E as -> -> ->. split; reflexivity. Qed.
Ltac value := match goal with |- finite ?x /\ _ =>
  let s := eval vm_compute in (B2SF x) in match s with SpecFloat.S754_finite false ?m ?e =>
    destruct (sf_val x m e ltac:(vm_compute; reflexivity)) as [? E]; split; [assumption|rewrite E; cbn; unfold Z.pow_pos; cbn; lra] end end.
Lemma v72 : finite (of_int 72) /\ val (of_int 72) = 72. Proof. value. Qed.
Lemma v1189 : finite (of_int 1189) /\ val (of_int 1189) = 1189. Proof. value. Qed.
Lemma v1414 : finite (of_int 1414) /\ val (of_int 1414) = 1414. Proof. value. Qed.
Lemma v1297 : finite (of_int 1297) /\ val (of_int 1297) = 1297. Proof. value. Qed.
Lemma v2 : finite two /\ val two = 2. Proof. value. Qed.
Lemma vinch : finite inch /\ val inch = 3574732204225331 / 2 ^ 47.
Proof. value. Qed.
Lemma close_inch : finite inch /\ close 1 (val inch) 25.4.
Proof. destruct vinch as (F & V). split; [exact F|]. rewrite V. unfold close, u. split; [lra|]. split; lra. Qed.
Lemma close_root : finite root_two /\ close 1 (val root_two) (sqrt 2).
Proof.
  destruct v2 as (F & V). assert (B : band (-1000) 1002 (val two)).
  { right. rewrite V, Rabs_pos_eq by lra. split; [|change 2 with (bpow radix2 1); apply bpow_le; lia]. change 2 with (bpow radix2 1). apply bpow_le. lia. }
  destruct (root_near two F ltac:(lra) B) as (F' & d & D & E). rewrite V in E. split; [exact F'|]. unfold root_two. rewrite E.
  apply Rabs_le_inv in D. pose proof sqrt2_pos. unfold close. split; [assumption|]. split; apply Rmult_le_compat_l; lra.
Qed.
Lemma close_agrees k x r : finite x -> 0 <= k <= 80 -> close k (val x) r -> agrees x r.
Proof.
  intros F K (P & A & B). split; [exact F|]. split; [exact P|]. assert (k * u <= / 10 ^ 14) by (unfold u; lra).
  apply Rabs_le. unfold val in *. unfold Rdiv. split; nra.
Qed.
Lemma close_scale power n : good_power power -> (n <= 10)%nat -> finite (power root_two n) /\ close 23 (val (power root_two n)) (sqrt 2 ^ n).
Proof.
  intros G N. destruct (G n N) as (F & E). cbv zeta in *. split; [exact F|]. destruct close_root as (_ & C).
  pose proof (close_pow 1 _ _ n ltac:(lra) C ltac:(lia)) as P. assert (B : INR n <= 10) by (replace 10 with (INR 10) by (cbn; lra); apply le_INR; lia). pose proof (pos_INR n).
  set (y := val root_two ^ n) in *. assert (Y : 0 < y) by (destruct (close_pos _ _ _ ltac:(instantiate (1 := 2 * INR n); lra) P); assumption).
  assert (C2 : close 2 (val (power root_two n)) y).
  { split; [exact Y|]. apply Rabs_le_inv in E. fold (val (power root_two n)) (val root_two) y in E. unfold u. lra. }
  replace (sqrt 2 ^ n) with (1 * sqrt 2 ^ n) by ring. replace (val (power root_two n)) with (val (power root_two n) / y * y) by (field; lra).
  apply (close_le (2 + 2 * INR n + 1)); [lra|]. apply close_mul; try lra; [|exact P].
  destruct C2 as (_ & C3 & C4). split; [lra|]. split; apply Rmult_le_reg_r with y; try exact Y; unfold Rdiv; rewrite (Rmult_assoc (val (power root_two n))), Rinv_l, Rmult_1_r; lra.
Qed.
Lemma root_powers n : (n <= 11)%nat -> 1 <= sqrt 2 ^ n <= 64.
Proof.
  intros N. pose proof sqrt2_bounds as B. split; [apply pow_R1_Rle; lra|].
  apply Rle_trans with (sqrt 2 ^ 11); [apply Rle_pow; [lra|exact N]|]. apply Rle_trans with (1.42 ^ 11); [apply pow_incr; lra|lra].
Qed.
Lemma dimension_close c z : d_dimension c = Some z -> exists r, dimension c = Some r /\ finite (of_int z) /\ val (of_int z) = r /\ 1000 <= r <= 1500.
Proof.
  unfold d_dimension, dimension. destruct (Ascii.eqb c "A"), (Ascii.eqb c "B"), (Ascii.eqb c "C"); intros E; try discriminate; injection E as <-; eexists; (split; [reflexivity|]);
    first [destruct v1189 as (? & ->) | destruct v1414 as (? & ->) | destruct v1297 as (? & ->)]; split; try assumption; split; lra.
Qed.
Lemma dimension_none c : d_dimension c = None -> dimension c = None.
Proof. unfold d_dimension, dimension. destruct (Ascii.eqb c "A"), (Ascii.eqb c "B"), (Ascii.eqb c "C"); intros E; try discriminate; reflexivity. Qed.
Lemma sides_close power z r n : good_power power -> (n <= 10)%nat -> finite (of_int z) -> val (of_int z) = r -> 1000 <= r <= 1500 ->
  let h := fdiv (of_int z) (power root_two n) in let w := fdiv h root_two in
  (finite h /\ close 27 (val h) (r / sqrt 2 ^ n)) /\ finite w /\ close 32 (val w) (r / sqrt 2 ^ n / sqrt 2) /\ 10 <= r / sqrt 2 ^ n <= 1500 /\ 10 <= r / sqrt 2 ^ n / sqrt 2 <= 1500.
Proof.
  intros G N F V I h w. destruct (close_scale power n G N) as (FS & CS). destruct close_root as (FR & CR). pose proof (root_powers n ltac:(lia)) as P. pose proof sqrt2_bounds as S.
  assert (J : 15 <= r / sqrt 2 ^ n <= 1500).
  { split; apply Rmult_le_reg_r with (sqrt 2 ^ n); try lra; unfold Rdiv; rewrite Rmult_assoc, Rinv_l by lra; nra. }
  assert (L : 10 <= r / sqrt 2 ^ n / sqrt 2 <= 1500).
  { set (q := r / sqrt 2 ^ n) in *. split; apply Rmult_le_reg_r with (sqrt 2); try lra; unfold Rdiv; rewrite Rmult_assoc, Rinv_l by lra; nra. }
  destruct (close_fdiv 0 23 (of_int z) r (power root_two n) (sqrt 2 ^ n) F ltac:(lra) ltac:(lra) ltac:(rewrite V; apply close_refl; lra) CS ltac:(lra)) as (FH & CH).
  replace (0 + 23 + 4) with 27 in CH by lra. fold h in FH, CH.
  destruct (close_fdiv 27 1 h (r / sqrt 2 ^ n) root_two (sqrt 2) FH ltac:(lra) ltac:(lra) CH CR ltac:(lra)) as (FW & CW).
  replace (27 + 1 + 4) with 32 in CW by lra. fold w in FW, CW. repeat split; try assumption; try lra; apply CH || apply CW.
Qed.

(** ** Sheets *)
(** A sheet is made in double precision when it is over the real numbers, with the same error
    otherwise, and its sides are right to one part in 10^14: less than the size of an atom. *)
Theorem C168_sheets : forall power name o m m', good_power power ->
  match new_paper name o m, d_new_paper power name o m' with
  | Ok p, Ok q => dp_name q = p_name p /\ dp_orientation q = p_orientation p /\ dp_margin q = m' /\ agrees (dp_height q) (p_height p) /\ agrees (dp_width q) (p_width p)
  | Raise e, Raise e' => e = e'
  | _, _ => False
  end.
Proof.
  intros power name o m m' G. unfold new_paper, d_new_paper. destruct (upper name) as [|c level]; [reflexivity|].
  destruct (int_parse level) as [z|e]; [|reflexivity]. cbn [bind].
  destruct (d_dimension c) as [d|] eqn:D; [|rewrite (dimension_none c D); reflexivity].
  destruct (dimension_close c d D) as (r & -> & F & V & I). destruct ((z <? 0) || (10 <? z))%Z%bool eqn:Q; [reflexivity|].
  apply orb_false_elim in Q. destruct Q as (Q1 & Q2). apply Z.ltb_ge in Q1, Q2.
  destruct (sides_close power d r (Z.to_nat z) G ltac:(lia) F V I) as ((FH & CH) & FW & CW & _).
  pose proof (close_agrees 27 _ _ FH ltac:(lra) CH) as AH. pose proof (close_agrees 32 _ _ FW ltac:(lra) CW) as AW.
  destruct (text_eqb o (lit "portrait")); [repeat split; apply AH || apply AW|].
  destruct (text_eqb o (lit "landscape")); [repeat split; apply AH || apply AW|reflexivity].
Qed.
Print Assumptions C168_sheets.
(** So are they in inches, and in points for a PDF file. *)
Theorem C168_page : forall power name o m m' p q, good_power power -> new_paper name o m = Ok p -> d_new_paper power name o m' = Ok q ->
  agrees (d_height_in q) (p_height p / 25.4) /\ agrees (d_width_in q) (p_width p / 25.4) /\
  exists w h, d_page_size q = [w; h] /\ agrees w (p_width p * 72 / 25.4) /\ agrees h (p_height p * 72 / 25.4).
Proof.
  intros power name o m m' p q G. unfold new_paper, d_new_paper. destruct (upper name) as [|c level]; [discriminate|].
  destruct (int_parse level) as [z|e]; [|discriminate]. cbn [bind].
  destruct (d_dimension c) as [d|] eqn:D; [|discriminate].
  destruct (dimension_close c d D) as (r & -> & F & V & I). destruct ((z <? 0) || (10 <? z))%Z%bool eqn:Q; [discriminate|].
  apply orb_false_elim in Q. destruct Q as (Q1 & Q2). apply Z.ltb_ge in Q1, Q2.
  destruct (sides_close power d r (Z.to_nat z) G ltac:(lia) F V I) as ((FH & CH) & FW & CW & BH & BW).
  set (h := fdiv (of_int d) (power root_two (Z.to_nat z))) in *. set (w := fdiv h root_two) in *.
  set (rh := r / sqrt 2 ^ Z.to_nat z) in *. set (rw := rh / sqrt 2) in *.
  destruct close_inch as (FI & CI). destruct v72 as (F72 & V72).
  assert (T : forall x y, finite x -> close 32 (val x) y -> 10 <= y <= 1500 -> agrees (fdiv x inch) (y / 25.4) /\ agrees (d_mm_to_pt x) (y * 72 / 25.4)).
  { intros x y FX CX B. split.
    - destruct (close_fdiv 32 1 x y inch 25.4 FX ltac:(lra) ltac:(lra) CX CI ltac:(lra)) as (FR & CR). apply (close_agrees (32 + 1 + 4)); try assumption. lra.
    - destruct (close_fmul 32 0 x y (of_int 72) 72 FX F72 ltac:(lra) ltac:(lra) CX ltac:(rewrite V72; apply close_refl; lra) ltac:(lra) ltac:(lra)) as (FM & CM).
      assert (FD : finite (d_mm_to_pt x) /\ close 50 (val (d_mm_to_pt x)) (y * 72 / 25.4)).
      { unfold d_mm_to_pt. destruct (div_near (-20) 20 (fmul x (of_int 72)) inch FM) as (FQ & e & E & EQ).
        - destruct vinch as (_ & ->). lra.
        - apply medium_band. destruct (close_pos (32 + 0 + 3) _ _ ltac:(lra) CM) as (_ & M). destruct (close_pos 1 _ _ ltac:(lra) CI) as (_ & N).
          destruct (close_pos (32 + 0 + 3 + 1 + 2) _ _ ltac:(lra) (close_div (32 + 0 + 3) 1 _ _ _ _ ltac:(lra) ltac:(lra) CM CI)) as (_ & K). split; lra.
        - lia.
        - lia.
        - split; [exact FQ|]. rewrite EQ. apply (close_le (32 + 0 + 3 + 1 + 2 + 2)); [lra|]. apply close_round; [lra|exact E|]. apply close_div; try lra; assumption. }
      apply (close_agrees 50); try apply FD. lra. }
  apply (close_le 27 32) in CH; [|lra]. pose proof (T h rh FH CH BH) as (H1 & H2). pose proof (T w rw FW CW BW) as (W1 & W2).
  destruct (text_eqb o (lit "portrait")); [|destruct (text_eqb o (lit "landscape")); [|discriminate]]; intros E1 E2; injection E1 as <-; injection E2 as <-;
    cbn [p_height p_width]; (split; [assumption|]); (split; [assumption|]); eexists; eexists; (split; [reflexivity|]); split; assumption.
Qed.
Print Assumptions C168_page.
(** A longer length in millimetres is never a shorter one in points. *)
Theorem C168_monotone : forall x y, number x -> number y -> number (d_mm_to_pt x) -> number (d_mm_to_pt y) -> B2R x <= B2R y -> B2R (d_mm_to_pt x) <= B2R (d_mm_to_pt y).
Proof.
  intros x y FX FY GX GY L. destruct vinch as (_ & VI). destruct v72 as (_ & V72). assert (NI : val inch <> 0) by (rewrite VI; lra).
  assert (K : forall z, number (d_mm_to_pt z) -> B2R (d_mm_to_pt z) = rnd (rnd (val z * 72) / val inch)).
  { intros z Gz. unfold d_mm_to_pt, number in *. pose proof (@Bdiv_correct 53 1024 prec_ok emax_ok mode_NE (fmul z (of_int 72)) inch NI) as C.
    destruct (Rlt_bool _ _).
    - destruct C as (C1 & C2 & _). fold (fdiv (fmul z (of_int 72)) inch) in C1, C2. rewrite C1. rewrite Gz in C2. symmetry in C2.
      destruct (mul_finite z (of_int 72) C2) as (M & _). unfold val in M. rewrite M, <- V72. reflexivity.
    - rewrite overflow_inf in C. apply finite_sf in C. fold (fdiv (fmul z (of_int 72)) inch) in C. congruence. }
  rewrite (K x GX), (K y GY). apply round_le; auto with typeclass_instances. apply Rmult_le_compat_r; [left; apply Rinv_0_lt_compat; rewrite VI; lra|].
  apply round_le; auto with typeclass_instances. unfold val. lra.
Qed.
Print Assumptions C168_monotone.

(** ** What is lost *)
(** The powers of the square root of two as a correct pow gives them. *)
Definition powers : list (Z * Z) := [(1, 0); (6369051672525773, 52); (4503599627370497, 51); (3184525836262887, 50); (4503599627370497, 50); (6369051672525775, 50);
  (2251799813685249, 48); (398065729532861, 45); (2251799813685249, 47); (398065729532861, 44); (4503599627370499, 47)]%Z.
Definition right_power (x : float) (n : nat) : float := let '(m, k) := nth n powers (1, 0)%Z in fdiv (of_int m) (of_int (2 ^ k)).
Lemma vroot : finite root_two /\ val root_two = 6369051672525773 / 2 ^ 52.
Proof. value. Qed.
Ltac good := match goal with |- number ?x /\ _ =>
  let s := eval vm_compute in (B2SF x) in match s with SpecFloat.S754_finite false ?m ?e =>
    destruct (sf_val x m e ltac:(vm_compute; reflexivity)) as [? E]; split; [assumption|unfold val in E; rewrite E; cbn; unfold Z.pow_pos; cbn; apply Rabs_le; split; lra] end end.
Lemma right_power_good : good_power right_power.
Proof.
  intros n N. cbv zeta. destruct vroot as (_ & V). unfold val in V. rewrite V.
  do 11 (destruct n as [|n]; [good|]). lia.
Qed.
Lemma made_ok power c n (o : orientation) z m : d_dimension c = Some z -> (n <= 10)%nat ->
  d_new_paper power (sheet c n) (match o with Portrait => lit "portrait" | Landscape => lit "landscape" end) m =
  Ok (match o with Portrait => DPaper (sheet c n) Portrait m (fdiv (of_int z) (power root_two n)) (fdiv (fdiv (of_int z) (power root_two n)) root_two)
      | Landscape => DPaper (sheet c n) Landscape m (fdiv (fdiv (of_int z) (power root_two n)) root_two) (fdiv (of_int z) (power root_two n)) end).
Proof.
  intros D N. assert (Lc : letter c).
  { unfold d_dimension in D. unfold letter. destruct (Ascii.eqb_spec c "A"%char); [auto|]. destruct (Ascii.eqb_spec c "B"%char); [auto|]. destruct (Ascii.eqb_spec c "C"%char); [auto|discriminate]. }
  unfold d_new_paper, sheet. rewrite (letter_upper c Lc), (upper_int n N). rewrite (int_back (Z.of_nat n)). cbn [bind]. rewrite D.
  assert (Q : ((Z.of_nat n <? 0) || (10 <? Z.of_nat n))%Z%bool = false).
  { apply orb_false_intro; [apply Z.ltb_ge; lia|apply Z.ltb_ge; lia]. }
  rewrite Q, Nat2Z.id. destruct o; reflexivity.
Qed.
(** The sides of the sheets of a series do not fit: half a sheet is not the next sheet.  With a
    correct pow, the width of A2 is not the height of A3, though they are the same side. *)
Theorem C168_fit_refuted : good_power right_power /\ exists p q,
  d_new_paper right_power (lit "A2") (lit "portrait") zero = Ok p /\ d_new_paper right_power (lit "A3") (lit "portrait") zero = Ok q /\ dbl_eq (dp_width p) (dp_height q) = false.
Proof.
  split; [exact right_power_good|]. eexists. eexists. split; [apply (made_ok right_power "A" 2 Portrait); [reflexivity|lia]|]. split; [apply (made_ok right_power "A" 3 Portrait); [reflexivity|lia]|].
  cbn [dp_width dp_height]. vm_compute. reflexivity.
Qed.
Print Assumptions C168_fit_refuted.
(** Seven inches in millimetres are not the number of points of seven inches. *)
Theorem C168_inches_refuted : exists x, x = fmul (of_int 7) inch /\ dbl_eq (d_mm_to_pt x) (of_int (7 * 72)) = false /\ agrees (d_mm_to_pt x) (7 * 72).
Proof.
  eexists. split; [reflexivity|]. split; [vm_compute; reflexivity|]. assert (H : finite (d_mm_to_pt (fmul (of_int 7) inch)) /\ val (d_mm_to_pt (fmul (of_int 7) inch)) = 8866461766385663 / 2 ^ 44) by value.
  destruct H as (F & V). split; [exact F|]. unfold val in V. rewrite V. split; [lra|]. apply Rabs_le. lra.
Qed.
Print Assumptions C168_inches_refuted.
Example C168_example : good_power right_power /\ (exists p, new_paper (lit "B5") (lit "landscape") 10 = Ok p) /\ exists q, d_new_paper right_power (lit "B5") (lit "landscape") one = Ok q.
Proof.
  split; [exact right_power_good|]. split; eexists; [apply (sheet_ok "B" 5); [right; left; reflexivity|lia]|].
  apply (made_ok right_power "B" 5 Landscape); [reflexivity|lia].
Qed.
Example C168_refused : d_new_paper right_power (lit "A11") (lit "portrait") zero = Raise ValueError /\ d_new_paper right_power (lit "D4") (lit "portrait") zero = Raise ValueError.
Proof. split; vm_compute; reflexivity. Qed.
