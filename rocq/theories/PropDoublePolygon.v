(** C167: the mean of the points and the area of a polygon in double precision. *)
From Coq Require Import Reals Lra Lia List Bool ZArith Permutation.
From Flocq Require Import Core BinarySingleNaN.
From Verif Require Import Base ModelColor ModelDouble ModelDoublePolygon ProofDouble PropDouble ProofGrid PropGrid.
Import ListNotations.
Local Open Scope R_scope.

(** ** What is expected *)
Definition total (l : list R) : R := fold_right Rplus 0 l.
(** Twice the signed area: the sum over the edges, the last one goes back to the first point. *)
Definition shoelace (p q : R * R) : R := fst p * snd q - fst q * snd p.
Fixpoint twice_area_to (first : R * R) (l : list (R * R)) : R :=
  match l with
  | [] => 0
  | p :: l => match l with [] => shoelace p first | q :: _ => shoelace p q + twice_area_to first l end
  end.
Definition twice_area (l : list (R * R)) : R := match l with [] => 0 | first :: _ => twice_area_to first l end.
Definition coordinates (l : list dvec) : list (R * R) := map (fun p => (X p, Y p)) l.

(** ** Lemmas *)
Ltac sizes := unfold in_range; split; nia.
Lemma exact_int z : (0 <= z < 2 ^ 53)%Z -> exactly (of_int z) (IZR z) 0 z.
Proof.
  intros Z. pose proof (binary_normalize_correct 53 1024 prec_ok emax_ok mode_NE z 0 false) as C.
  cbv zeta in C. change (F2R (Float radix2 z 0)) with (IZR z * bpow radix2 0) in C.
  change (round radix2 _ (round_mode mode_NE) (IZR z * bpow radix2 0)) with (rnd (IZR z * bpow radix2 0)) in C.
  destruct (representable z 0 z) as (R1 & R2); [split; lia|lia|]. rewrite R1, Rlt_bool_true in C by exact R2. destruct C as (C1 & C2 & _).
  split; [exact C2|]. split; [unfold val, of_int; rewrite C1; cbn; ring|]. exists z. split; [cbn; ring|lia].
Qed.
Lemma total_app l m : total (l ++ m) = total l + total m.
Proof. unfold total. induction l as [|x l IH]; cbn; [ring|]. rewrite IH. ring. Qed.
Lemma total_perm l m : Permutation l m -> total l = total m.
Proof. intros P. unfold total. induction P; cbn; lra. Qed.
Lemma fold_exact e m l : (-400 <= e <= 400)%Z -> (0 <= m)%Z -> forall x r k, exactly x r e k -> (0 <= k)%Z -> Forall (fun y => exactly y (val y) e m) l ->
  (k + m * Z.of_nat (length l) < 2 ^ 53)%Z -> exactly (fold_left dbl_add l x) (r + total (map val l)) e (k + m * Z.of_nat (length l)).
Proof.
  intros U M. induction l as [|y l IH]; intros x r k EX K F B; cbn [fold_left map total fold_right length].
  - eapply exact_as; [| | |exact EX]; [unfold total; cbn; ring|reflexivity|lia].
  - inversion F as [|? ? EY F']; subst. rewrite Nat2Z.inj_succ in *. cbn [length] in B. rewrite Nat2Z.inj_succ in B.
    assert (S : exactly (dbl_add x y) (r + val y) e (k + m)) by (apply exact_add; auto; sizes).
    eapply exact_as; [| | |exact (IH _ _ _ S ltac:(lia) F' ltac:(nia))]; [unfold total; cbn; ring|reflexivity|nia].
Qed.
Lemma sum_exact e m l x : (-400 <= e <= 400)%Z -> (0 <= m)%Z -> np_sum l x -> Forall (fun y => exactly y (val y) e m) l -> (m * Z.of_nat (length l) < 2 ^ 53)%Z ->
  exactly x (total (map val l)) e (m * Z.of_nat (length l)).
Proof.
  intros U M S. induction S as [| |x|l k x y S1 IH1 S2 IH2|l k x P S IH]; intros F B.
  - split; [reflexivity|]. split; [reflexivity|]. exists 0%Z. split; [cbn; ring|cbn; lia].
  - split; [reflexivity|]. split; [reflexivity|]. exists 0%Z. split; [cbn; ring|cbn; lia].
  - inversion F as [|? ? EX _]; subst. eapply exact_as; [| | |exact EX]; [unfold total; cbn; ring|reflexivity|cbn; lia].
  - apply Forall_app in F. destruct F as [F1 F2]. rewrite app_length, Nat2Z.inj_add in *. rewrite map_app, total_app.
    specialize (IH1 F1 ltac:(nia)). specialize (IH2 F2 ltac:(nia)).
    eapply exact_as; [| | |exact (exact_add _ _ _ _ _ _ _ IH1 IH2 ltac:(sizes))]; [reflexivity|reflexivity|nia].
  - rewrite <- (Permutation_length P) in *. rewrite <- (total_perm _ _ (Permutation_map val P)). apply IH; auto.
    eapply Permutation_Forall; [symmetry; exact P|exact F].
Qed.
Lemma fold_points l : forall p, d_x (fold_left d_add l p) = fold_left dbl_add (map d_x l) (d_x p) /\ d_y (fold_left d_add l p) = fold_left dbl_add (map d_y l) (d_y p).
Proof. induction l as [|q l IH]; intros p; cbn; [auto|]. destruct (IH (d_add p q)) as [A B]. rewrite A, B. auto. Qed.
Lemma nearest_between lo hi r : number lo -> number hi -> B2R lo <= r <= B2R hi -> B2R lo <= nearest r <= B2R hi.
Proof.
  intros L H [A B]. change (nearest r) with (rnd r). split.
  - apply round_ge_generic; auto with typeclass_instances. apply generic_format_B2R.
  - apply round_le_generic; auto with typeclass_instances. apply generic_format_B2R.
Qed.
Lemma mean_number e (x : float) (l : list float) : usual e -> Forall (grid_number e (2 ^ 30)) (x :: l) -> (Z.of_nat (length (x :: l)) <= 2 ^ 20)%Z ->
  let f := fdiv (fold_left dbl_add l x) (of_int (Z.of_nat (length (x :: l)))) in
  number f /\ B2R f = nearest (total (map B2R (x :: l)) / INR (length (x :: l))).
Proof.
  intros U F B f. inversion F as [|? ? GX GL]; subst. apply grid_exact in GX. unfold usual in U. cbn [length] in *. rewrite Nat2Z.inj_succ in B.
  assert (GL' : Forall (fun y => exactly y (val y) e (2 ^ 30)) l) by (eapply Forall_impl; [|exact GL]; intros y; apply grid_exact).
  pose proof (fold_exact e (2 ^ 30) l U ltac:(lia) x _ (2 ^ 30) GX ltac:(lia) GL' ltac:(nia)) as SE. set (s := fold_left dbl_add l x) in *.
  destruct (exact_int (Z.of_nat (S (length l))) ltac:(lia)) as (FN & VN & _). destruct SE as (FS & VS & z & EZ & BZ).
  set (n := of_int (Z.of_nat (S (length l)))) in *.
  assert (NV : val n = INR (S (length l))) by (rewrite VN, INR_IZR_INZ; reflexivity). assert (NP : 1 <= INR (S (length l))) by (rewrite S_INR; pose proof (pos_INR (length l)); lra).
  pose proof (@Bdiv_correct 53 1024 prec_ok emax_ok mode_NE s n) as C. unfold val in NV, VS. rewrite NV, VS in C. specialize (C ltac:(lra)).
  set (r := B2R x + total (map val l)) in *.
  assert (SM : Rabs (rnd (r / INR (S (length l)))) < bpow radix2 1024).
  { apply Rle_lt_trans with (bpow radix2 900); [|apply bpow_lt; lia]. apply abs_round_le_generic; auto with typeclass_instances.
    - apply (generic_format_FLT radix2 (-1074) 53). exists (Float radix2 1 900); [unfold F2R; cbn; ring|cbn; lia|cbn; lia].
    - unfold Rdiv. rewrite Rabs_mult, Rabs_inv, (Rabs_pos_eq (INR _)) by apply pos_INR.
      apply Rle_trans with (Rabs r); [|].
      + apply Rmult_le_reg_r with (INR (S (length l))); [lra|]. rewrite Rmult_assoc, Rinv_l, Rmult_1_r by lra. pose proof (Rabs_pos r). nra.
      + rewrite EZ, Rabs_mult, (Rabs_pos_eq (bpow _ _)), <- abs_IZR by apply bpow_ge_0. apply Rle_trans with (bpow radix2 53 * bpow radix2 e).
        * apply Rmult_le_compat_r; [apply bpow_ge_0|]. change (bpow radix2 53) with (IZR (2 ^ 53)). apply IZR_le. nia.
        * rewrite <- bpow_plus. apply bpow_le. lia. }
  change (round radix2 fexp (round_mode mode_NE) (r / INR (S (length l)))) with (rnd (r / INR (S (length l)))) in C. rewrite Rlt_bool_true in C by exact SM.
  destruct C as (C1 & C2 & _). split; [unfold f, number, fdiv; rewrite C2; exact FS|]. unfold f, fdiv. rewrite C1. reflexivity.
Qed.

(** ** The mean *)
(** On a grid, the mean of the points of a polygon is the exact one rounded once. *)
Theorem C167_mean : forall e points, usual e -> points <> [] -> Forall (grid_point e (2 ^ 30)) points -> (Z.of_nat (length points) <= 2 ^ 20)%Z ->
  exists c, d_point_barycenter points = Ok c /\
  is_at c (nearest (total (map (fun p => X p) points) / INR (length points))) (nearest (total (map (fun p => Y p) points) / INR (length points))).
Proof.
  intros e [|p l] U N F B; [contradiction|]. cbn [d_point_barycenter]. eexists. split; [reflexivity|].
  assert (FX : Forall (grid_number e (2 ^ 30)) (d_x p :: map d_x l)).
  { apply (Forall_map d_x (grid_number e (2 ^ 30)) (p :: l)). eapply Forall_impl; [|exact F]. intros q [Q _]. exact Q. }
  assert (FY : Forall (grid_number e (2 ^ 30)) (d_y p :: map d_y l)).
  { apply (Forall_map d_y (grid_number e (2 ^ 30)) (p :: l)). eapply Forall_impl; [|exact F]. intros q [_ Q]. exact Q. }
  assert (LX : length (d_x p :: map d_x l) = length (p :: l)) by (cbn; now rewrite map_length).
  assert (LY : length (d_y p :: map d_y l) = length (p :: l)) by (cbn; now rewrite map_length).
  pose proof (mean_number e _ _ U FX) as MX. pose proof (mean_number e _ _ U FY) as MY. cbv zeta in MX, MY. rewrite LX in MX. rewrite LY in MY.
  destruct (MX B) as [NX EX], (MY B) as [NY EY]. destruct (fold_points l p) as [PX PY]. unfold d_divide, is_at, numbers. cbn [d_x d_y]. rewrite PX, PY.
  rewrite EX, EY. cbn [map]. rewrite !map_map. repeat split; assumption.
Qed.
Print Assumptions C167_mean.
(** It lies in every box which contains the points. *)
Theorem C167_mean_inside : forall e points lo hi, usual e -> points <> [] -> Forall (grid_point e (2 ^ 30)) points -> (Z.of_nat (length points) <= 2 ^ 20)%Z ->
  numbers lo -> numbers hi -> Forall (fun p => X lo <= X p <= X hi /\ Y lo <= Y p <= Y hi) points ->
  exists c, d_point_barycenter points = Ok c /\ X lo <= X c <= X hi /\ Y lo <= Y c <= Y hi.
Proof.
  intros e points lo hi U N F B [L1 L2] [H1 H2] I. destruct (C167_mean e points U N F B) as (c & E & _ & EX & EY). exists c. split; [exact E|]. rewrite EX, EY.
  assert (M : forall (f : dvec -> R) a b, Forall (fun p => a <= f p <= b) points -> a <= total (map f points) / INR (length points) <= b).
  { intros f a b Q. assert (P : 1 <= INR (length points)) by (destruct points; [contradiction|cbn [length]; rewrite S_INR; pose proof (pos_INR (length points)); lra]).
    assert (T : INR (length points) * a <= total (map f points) <= INR (length points) * b).
    { clear - Q. unfold total. induction Q as [|p l Hp _ IH]; [cbn; lra|]. cbn [length map fold_right]. rewrite S_INR. lra. }
    split; [apply Rmult_le_reg_r with (INR (length points))|apply Rmult_le_reg_r with (INR (length points))]; try lra; unfold Rdiv;
      rewrite Rmult_assoc, Rinv_l, Rmult_1_r by lra; lra. }
  split; apply nearest_between; auto; apply M; eapply Forall_impl; try exact I; cbn; tauto.
Qed.
Print Assumptions C167_mean_inside.
(** Off the grid the mean of three times the point 0.1 is another point, outside of the box of the points. *)
Theorem C167_mean_refuted : exists p c, numbers p /\ d_point_barycenter [p; p; p] = Ok c /\ Bltb (d_x p) (d_x c) = true.
Proof.
  exists (D (tenths 1) zero). eexists. split; [unfold numbers, number; split; vm_compute; reflexivity|]. split; [reflexivity|]. vm_compute. reflexivity.
Qed.
Print Assumptions C167_mean_refuted.

(** ** The area *)
Lemma cross_exact e p q : (-200 <= e <= 200)%Z -> grid_point e (2 ^ 20) p -> grid_point e (2 ^ 20) q ->
  let f := dbl_sub (fmul (d_x p) (d_y q)) (fmul (d_x q) (d_y p)) in exactly f (val f) (e + e) (2 ^ 41) /\ val f = shoelace (X p, Y p) (X q, Y q).
Proof.
  intros U [P1 P2] [Q1 Q2] f. apply grid_exact in P1, P2, Q1, Q2.
  pose proof (exact_sub _ _ _ _ _ _ _ (exact_mul _ _ _ _ _ _ _ _ P1 Q2 ltac:(sizes)) (exact_mul _ _ _ _ _ _ _ _ Q1 P2 ltac:(sizes)) ltac:(sizes)) as (F & V & Z).
  fold f in F, V. split; [split; [exact F|split; [reflexivity|rewrite V; exact Z]]|exact V].
Qed.
Lemma crosses_exact e first l : (-200 <= e <= 200)%Z -> grid_point e (2 ^ 20) first -> Forall (grid_point e (2 ^ 20)) l ->
  Forall (fun y => exactly y (val y) (e + e) (2 ^ 41)) (d_crosses_to first l) /\ length (d_crosses_to first l) = length l /\
  total (map val (d_crosses_to first l)) = twice_area_to (X first, Y first) (coordinates l).
Proof.
  intros U F L. induction L as [|p l Hp L IH]; [cbn; auto|]. destruct l as [|q l].
  - cbn [d_crosses_to coordinates map twice_area_to length]. destruct (cross_exact e p first U Hp F) as [E V]. cbv zeta in E, V. split; [constructor; [exact E|constructor]|].
    split; [reflexivity|]. unfold total. cbn [fold_right]. rewrite V. ring.
  - destruct IH as (IH1 & IH2 & IH3). inversion L as [|? ? Hq _]; subst. destruct (cross_exact e p q U Hp Hq) as [E V]. cbv zeta in E, V.
    change (d_crosses_to first (p :: q :: l)) with (dbl_sub (fmul (d_x p) (d_y q)) (fmul (d_x q) (d_y p)) :: d_crosses_to first (q :: l)).
    split; [constructor; assumption|]. split; [cbn [length] in *; lia|].
    change (twice_area_to (X first, Y first) (coordinates (p :: q :: l))) with (shoelace (X p, Y p) (X q, Y q) + twice_area_to (X first, Y first) (coordinates (q :: l))).
    unfold total in *. cbn [map fold_right]. rewrite V, <- IH3. reflexivity.
Qed.
(** On a grid, the area is exact, however numpy orders the sum. *)
Theorem C167_area : forall e points sum, (-200 <= e <= 200)%Z -> Forall (grid_point e (2 ^ 20)) points -> (Z.of_nat (length points) <= 2 ^ 11)%Z ->
  np_sum (d_crosses points) sum -> number (d_signed_area sum) /\ B2R (d_signed_area sum) = twice_area (coordinates points) / 2.
Proof.
  intros e points sum U F B S.
  assert (G : Forall (fun y => exactly y (val y) (e + e) (2 ^ 41)) (d_crosses points) /\ length (d_crosses points) = length points /\
    total (map val (d_crosses points)) = twice_area (coordinates points)).
  { destruct points as [|p l]; [cbn; auto|]. inversion F; subst. unfold d_crosses, twice_area. cbn [coordinates map]. apply crosses_exact; auto. }
  destruct G as (G1 & G2 & G3). pose proof (sum_exact (e + e) (2 ^ 41) _ _ ltac:(lia) ltac:(lia) S G1 ltac:(rewrite G2; nia)) as T.
  rewrite G3, G2 in T. unfold d_signed_area. pose proof (exact_mul _ _ _ _ _ _ _ _ exact_half T ltac:(sizes)) as H. apply exact_at in H.
  destruct H as [H1 H2]. split; [exact H1|]. rewrite H2. lra.
Qed.
Print Assumptions C167_area.
(** Off the grid the area depends on the order of the sum: the products 0.1, 0.2, 0.3. *)
Theorem C167_area_refuted : exists l x y, Forall number l /\ np_sum l x /\ np_sum l y /\ dbl_eq (d_signed_area x) (d_signed_area y) = false.
Proof.
  exists [tenths 1; tenths 2; tenths 3], (dbl_add (dbl_add (tenths 1) (tenths 2)) (tenths 3)), (dbl_add (tenths 1) (dbl_add (tenths 2) (tenths 3))).
  split; [repeat constructor; unfold number; vm_compute; reflexivity|]. split; [|split].
  - apply (sum_two [tenths 1; tenths 2] [tenths 3]); [apply (sum_two [tenths 1] [tenths 2])|]; constructor.
  - apply (sum_two [tenths 1] [tenths 2; tenths 3]); [|apply (sum_two [tenths 2] [tenths 3])]; constructor.
  - vm_compute. reflexivity.
Qed.
Print Assumptions C167_area_refuted.

Example C167_case : twice_area [(0, 0); (4, 0); (4, 2); (0, 2)] = 16 /\
  exists c, d_point_barycenter [D zero zero; D two zero; D two two; D zero two] = Ok c /\ d_eq c (D one one) = true.
Proof. split; [cbn; unfold shoelace; cbn; lra|]. eexists. split; [reflexivity|]. vm_compute. reflexivity. Qed.
