(** C176: the drift of paths of relative moves in double precision. *)
From Coq Require Import Reals Lra Lia List Bool ZArith.
From Flocq Require Import Core Relative BinarySingleNaN.
From Verif Require Import Base ModelColor ModelDouble ModelDecide ModelDoubleRotation ModelDoublePath ProofDouble PropDouble ProofAccuracy PropAccuracy ProofCurveAccuracy PropCurveAccuracy ProofArea PropArea ProofRotation PropRotation ProofDirection ProofIntersection PropTurns.
Import ListNotations.
Local Open Scope R_scope.

(** ** What is expected *)
(** The exact stop point of a part which starts from (x, y). *)
Definition next_x (x y : R) (a : d_part) : R :=
  match a with DRelative v => x + X v | DAbsolute p => X p | DHorizontal h => B2R h | DVertical _ => x | DDirection l angle => x + B2R l * cos (degrees_of angle) end.
Definition next_y (x y : R) (a : d_part) : R :=
  match a with DRelative v => y + Y v | DAbsolute p => Y p | DHorizontal _ => y | DVertical h => B2R h | DDirection l angle => y + B2R l * sin (degrees_of angle) end.
Fixpoint end_x (x y : R) (l : list d_part) : R := match l with [] => x | a :: l => end_x (next_x x y a) (next_y x y a) l end.
Fixpoint end_y (x y : R) (l : list d_part) : R := match l with [] => y | a :: l => end_y (next_x x y a) (next_y x y a) l end.
(** The parts are numbers bounded by s. *)
Definition part_in (s : R) (a : d_part) : Prop :=
  match a with DRelative v => in_drawing s v | DAbsolute p => in_drawing s p | DHorizontal h => radius_of s h | DVertical h => radius_of s h | DDirection l angle => radius_of s l /\ turn_angle angle end.
(** The exact path stays in a drawing of size s. *)
Fixpoint stays (s x y : R) (l : list d_part) : Prop :=
  match l with [] => True | a :: l => Rabs (next_x x y a) <= s /\ Rabs (next_y x y a) <= s /\ stays s (next_x x y a) (next_y x y a) l end.
(** What each part may add to the error. *)
Definition cost (a : d_part) : R := match a with DRelative _ => 1.1 | DDirection _ _ => 19 | _ => 0 end.
Fixpoint costs (l : list d_part) : R := match l with [] => 0 | a :: l => cost a + costs l end.

(** ** Lemmas *)
Lemma costs_pos l : 0 <= costs l <= 19 * INR (length l).
Proof. induction l as [|a l IH]; [cbn; lra|]. cbn [costs length]. rewrite S_INR. destruct a; cbn [cost]; lra. Qed.
(** One sum: c is the error of the first term, e the one of the second. *)
Lemma sum_near s (x y : float) r t c e : size s -> 0 <= c <= 2 ^ 45 -> 0 <= e <= 17 -> number x -> number y -> Rabs (B2R x - r) <= c * u * s -> Rabs (B2R y - t) <= e * u * s -> Rabs (r + t) <= s ->
  number (dbl_add x y) /\ Rabs (B2R (dbl_add x y) - (r + t)) <= (c + e + 1.1) * u * s.
Proof.
  intros SS C E FX FY HX HY B. pose proof u_tiny as U. assert (P : 0 < s) by apply (scale_pos s SS). pose proof (tiny_scale s SS) as T.
  assert (US : 0 < u * s) by (apply Rmult_lt_0_compat; lra). assert (CU : c * (u * s) <= / 256 * s). { rewrite <- Rmult_assoc. apply Rmult_le_compat_r; [lra|]. apply Rle_trans with (2 ^ 45 * u); [apply Rmult_le_compat_r; lra|unfold u; lra]. }
  assert (EU : e * (u * s) <= / 256 * s). { rewrite <- Rmult_assoc. apply Rmult_le_compat_r; [lra|]. apply Rle_trans with (17 * u); [apply Rmult_le_compat_r; lra|unfold u; lra]. }
  replace (c * u * s) with (c * (u * s)) in HX by ring. replace (e * u * s) with (e * (u * s)) in HY by ring. replace ((c + e + 1.1) * u * s) with (c * (u * s) + e * (u * s) + 1.1 * (u * s)) by ring.
  assert (SB : Rabs (val x + val y) <= 1.01 * s).
  { replace (val x + val y) with ((r + t) + ((B2R x - r) + (B2R y - t))) by (unfold val; ring). apply Rle_trans with (1 := Rabs_triang _ _). pose proof (Rabs_triang (B2R x - r) (B2R y - t)). lra. }
  destruct (add_error x y FX FY) as (F & R1).
  { apply Rle_trans with (1 := SB). destruct SS as (_ & SH). apply Rle_trans with (2 * bpow radix2 900); [lra|]. change 2 with (bpow radix2 1). rewrite <- bpow_plus. apply bpow_le. lia. }
  split; [exact F|]. replace (B2R (dbl_add x y) - (r + t)) with ((val (dbl_add x y) - (val x + val y)) + ((B2R x - r) + (B2R y - t))) by (unfold val; ring).
  apply Rle_trans with (1 := Rabs_triang _ _). pose proof (Rabs_triang (B2R x - r) (B2R y - t)). assert (u * Rabs (val x + val y) <= u * (1.01 * s)) by (apply Rmult_le_compat_l; lra). lra.
Qed.
Lemma unit_u k s : k / 2 ^ 53 * s = k * u * s. Proof. reflexivity. Qed.
Lemma path_near dcos dsin s : library dcos dsin -> size s -> forall l w x y c, Forall (part_in s) l -> stays s x y l -> 0 <= c -> c + 19 * INR (length l) <= 2 ^ 45 -> near_point c s w x y ->
  near_point (c + costs l) s (d_path_stop dcos dsin w l) (end_x x y l) (end_y x y l).
Proof.
  intros LB SS l. assert (P : 0 < s) by apply (scale_pos s SS). pose proof u_tiny as U. assert (US : 0 < u * s) by (apply Rmult_lt_0_compat; lra).
  induction l as [|a l IH]; intros w x y c FA ST C0 CN N; [cbn [costs d_path_stop fold_left end_x end_y]; rewrite Rplus_0_r; exact N|].
  inversion FA as [|? ? PA FL]; subst. cbn [stays] in ST. destruct ST as (BX & BY & ST). cbn [length] in CN. rewrite S_INR in CN. pose proof (pos_INR (length l)) as LP.
  unfold d_path_stop. cbn [fold_left costs end_x end_y]. fold (d_path_stop dcos dsin (d_stop dcos dsin w a) l). rewrite <- Rplus_assoc.
  apply IH; [exact FL|exact ST|destruct a; cbn [cost]; lra|destruct a; cbn [cost]; lra|].
  destruct N as ((NX & NY) & EX & EY). rewrite unit_u in EX, EY. unfold near_point. rewrite unit_u.
  assert (Z : forall r, Rabs (r - r) <= (c + 0) * u * s). { intros r. rewrite Rminus_diag_eq, Rabs_R0 by reflexivity. apply Rmult_le_pos; [apply Rmult_le_pos; lra|lra]. }
  destruct a as [v|p|h|h|len angle]; cbn [d_stop next_x next_y cost part_in] in *.
  - destruct PA as ((VX & VY) & _). assert (Z0 : forall r, Rabs (r - r) <= 0 * u * s) by (intros r; rewrite Rminus_diag_eq, Rabs_R0 by reflexivity; lra).
    assert (BX' : Rabs (X v + x) <= s) by (rewrite Rplus_comm; exact BX). assert (BY' : Rabs (Y v + y) <= s) by (rewrite Rplus_comm; exact BY).
    assert (G : forall (a b : float) r, number a -> number b -> Rabs (B2R b - r) <= c * u * s -> Rabs (B2R a + r) <= s -> number (dbl_add a b) /\ Rabs (B2R (dbl_add a b) - (r + B2R a)) <= (c + 1.1) * u * s).
    { intros a b r FA' FB EB B. pose proof (sum_near s b a r (B2R a) c 0 SS ltac:(lra) ltac:(lra) FB FA' EB (Z0 _)) as Q. rewrite Rplus_comm in B. specialize (Q B). replace (c + 0 + 1.1) with (c + 1.1) in Q by ring.
      assert (CM : dbl_add a b = dbl_add b a \/ (number (dbl_add a b) /\ B2R (dbl_add a b) = B2R (dbl_add b a))).
      { right. destruct Q as (Q1 & _). pose proof (@Bplus_correct 53 1024 prec_ok emax_ok mode_NE b a FB FA') as C1. pose proof (@Bplus_correct 53 1024 prec_ok emax_ok mode_NE a b FA' FB) as C2. rewrite (Rplus_comm (B2R a)) in C2.
        destruct (Rlt_bool _ _); [destruct C1 as (V1 & _), C2 as (V2 & W2 & _); split; [exact W2|unfold dbl_add; rewrite V1, V2; reflexivity]|].
        destruct C1 as (V1 & _). rewrite overflow_inf in V1. apply finite_sf in V1. unfold number, dbl_add in Q1. congruence. }
      destruct CM as [->|(W & V)]; [exact Q|]. split; [exact W|]. rewrite V. apply Q. }
    destruct (G _ _ x VX NX EX BX') as (G1 & G2). destruct (G _ _ y VY NY EY BY') as (G3 & G4). split; [split; assumption|]. split; assumption.
  - destruct PA as ((VX & VY) & _). split; [split; assumption|]. split; apply Z.
  - destruct PA as (FH & _). split; [split; assumption|]. cbn [d_x d_y]. split; [apply Z|]. rewrite Rplus_0_r. exact EY.
  - destruct PA as (FH & _). split; [split; assumption|]. cbn [d_x d_y]. split; [|apply Z]. rewrite Rplus_0_r. exact EX.
  - destruct PA as (RL & TA). destruct (C171_from_angle dcos dsin s len len angle LB SS RL RL TA) as (_ & ((PX & PY) & QX & QY) & _). rewrite unit_u in QX, QY.
    destruct (sum_near s _ _ x _ c 17 SS ltac:(lra) ltac:(lra) NX PX EX QX BX) as (G1 & G2). destruct (sum_near s _ _ y _ c 17 SS ltac:(lra) ltac:(lra) NY PY EY QY BY) as (G3 & G4).
    assert (LE : (c + 17 + 1.1) * u * s <= (c + 19) * u * s) by (rewrite !Rmult_assoc; apply Rmult_le_compat_r; lra).
    split; [split; assumption|]. split; [exact (Rle_trans _ _ _ G2 LE)|exact (Rle_trans _ _ _ G4 LE)].
Qed.

(** ** The theorems *)
(** The last point of a path is right to 1.1 units of rounding of the size for each relative segment and 19
    for each directional one. *)
Theorem C176_path : forall dcos dsin s p0 l, library dcos dsin -> size s -> in_drawing s p0 -> Forall (part_in s) l -> (Z.of_nat (length l) <= 2 ^ 40)%Z -> stays s (X p0) (Y p0) l ->
  near_point (costs l) s (d_path_stop dcos dsin p0 l) (end_x (X p0) (Y p0) l) (end_y (X p0) (Y p0) l).
Proof.
  intros dcos dsin s p0 l LB SS (NP & _) FA LEN ST. rewrite <- (Rplus_0_l (costs l)). apply path_near; auto; [lra| |].
  - rewrite INR_IZR_INZ. apply IZR_le in LEN. change (IZR (2 ^ 40)) with 1099511627776 in LEN. lra.
  - split; [exact NP|]. rewrite !Rminus_diag_eq, Rabs_R0 by reflexivity. lra.
Qed.
Print Assumptions C176_path.
(** An absolute point ends the drift. *)
Theorem C176_absolute : forall dcos dsin p0 l p, d_path_stop dcos dsin p0 (l ++ [DAbsolute p]) = p.
Proof. intros. unfold d_path_stop. rewrite fold_left_app. reflexivity. Qed.
Print Assumptions C176_absolute.
(** ** What is lost *)
(** A path of relative moves whose sum is null does not come back: 0.1, 0.2, -0.1 and -0.2. *)
Definition there_and_back : list d_part := map (fun x => DRelative (D x zero)) [tenths 1; tenths 2; dbl_neg (tenths 1); dbl_neg (tenths 2)].
Theorem C176_closed_refuted : end_x 0 0 there_and_back = 0 /\ end_y 0 0 there_and_back = 0 /\ forall dcos dsin, dbl_eq (d_x (d_path_stop dcos dsin (D zero zero) there_and_back)) zero = false.
Proof.
  assert (NG : forall x : float, B2R (dbl_neg x) = - B2R x) by (intros x; apply B2R_Bopp).
  split; [|split].
  - unfold there_and_back. cbn [map end_x next_x next_y d_x d_y]. rewrite !NG. ring.
  - unfold there_and_back. cbn [map end_x end_y next_x next_y d_x d_y]. change (B2R zero) with 0. ring.
  - intros. unfold there_and_back, d_path_stop. cbn [map fold_left d_stop d_add d_x d_y]. vm_compute. reflexivity.
Qed.
Print Assumptions C176_closed_refuted.
(** The angles of the compass are in the reach of the theorem. *)
Example C176_compass : Forall turn_angle d_compass.
Proof.
  assert (G : forall z, (0 < z <= 180)%Z \/ z = 0%Z \/ (-180 <= z < 0)%Z -> is_finite (of_int z) = true -> B2R (of_int z) = IZR z -> turn_angle (of_int z)).
  { intros z H F V. split; [exact F|]. rewrite V. assert (-180 <= z <= 180)%Z as (A & B) by lia. apply IZR_le in A, B. apply Rabs_le. lra. }
  assert (V90 : number (of_int 90) /\ B2R (of_int 90) = 90) by number_value. assert (V45 : number (of_int 45) /\ B2R (of_int 45) = 45) by number_value. assert (V135 : number (of_int 135) /\ B2R (of_int 135) = 135) by number_value. assert (V180 : number (of_int 180) /\ B2R (of_int 180) = 180) by number_value.
  assert (OPP : forall z, of_int (- z) = dbl_neg (of_int z) -> number (of_int z) /\ B2R (of_int z) = IZR z -> number (of_int (- z)) /\ B2R (of_int (- z)) = IZR (- z)).
  { intros z E (F & V). rewrite E. split; [unfold number, dbl_neg; rewrite is_finite_Bopp; exact F|]. unfold dbl_neg. rewrite B2R_Bopp, V, opp_IZR. reflexivity. }
  destruct (OPP 90%Z ltac:(apply B2SF_inj; vm_compute; reflexivity) V90) as (F1 & W1). destruct (OPP 45%Z ltac:(apply B2SF_inj; vm_compute; reflexivity) V45) as (F2 & W2). destruct (OPP 135%Z ltac:(apply B2SF_inj; vm_compute; reflexivity) V135) as (F3 & W3).
  unfold d_compass. cbn [map]. repeat (apply Forall_cons; [apply G; [lia| |]; first [apply V90|apply V45|apply V135|apply V180|exact F1|exact W1|exact F2|exact W2|exact F3|exact W3|reflexivity]|]). apply Forall_nil.
Qed.
Example C176_example : size 1 /\ in_drawing 1 (D zero zero) /\ Forall (part_in 1) there_and_back /\ stays 1 0 0 there_and_back /\ costs there_and_back = 4.4.
Proof.
  assert (V1 : number (tenths 1) /\ B2R (tenths 1) = 3602879701896397 / 2 ^ 55) by number_value. assert (V2 : number (tenths 2) /\ B2R (tenths 2) = 3602879701896397 / 2 ^ 54) by number_value. destruct V1 as (F1 & V1), V2 as (F2 & V2).
  assert (NG : forall x : float, B2R (dbl_neg x) = - B2R x) by (intros x; apply B2R_Bopp). assert (NF : forall x : float, number x -> number (dbl_neg x)) by (intros x F; unfold number, dbl_neg; rewrite is_finite_Bopp; exact F).
  assert (I : forall x, number x -> -1 <= B2R x <= 1 -> in_drawing 1 (D x zero)). { intros x F B. split; [split; [exact F|reflexivity]|]. cbn [d_x d_y]. change (B2R zero) with 0. rewrite Rabs_R0. split; [apply Rabs_le; lra|lra]. }
  split; [split; [change 1 with (bpow radix2 0); apply bpow_le; lia|change 1 with (bpow radix2 0); apply bpow_le; lia]|].
  split; [apply I; [reflexivity|change (B2R zero) with 0; lra]|].
  split; [unfold there_and_back; cbn [map]; repeat apply Forall_cons; try apply Forall_nil; cbn [part_in]; apply I; auto; rewrite ?NG, ?V1, ?V2; lra|].
  split; [unfold there_and_back; cbn [map stays next_x next_y d_x d_y]; change (B2R zero) with 0; rewrite !NG, V1, V2; repeat split; try (apply Rabs_le; lra)|].
  unfold there_and_back. cbn [map costs cost]. lra.
Qed.
