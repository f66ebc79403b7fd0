From Coq Require Import String Ascii List Bool Reals ZArith Lia Lra.
From Verif Require Import Base ModelFormula ModelMeasure ModelXml ModelVector ModelUnits SpecUnits ProofVector ProofMeasure ProofXml.
Import ListNotations.
Local Open Scope R_scope.

(** ** Sheets *)
Definition letter (c : ascii) : Prop := c = "A"%char \/ c = "B"%char \/ c = "C"%char.
Definition sheet (c : ascii) (n : nat) : text := c :: int_str (Z.of_nat n).
Lemma sqrt2_pos : 0 < sqrt 2.
Proof. apply sqrt_lt_R0. lra. Qed.
Lemma sqrt2_sq : sqrt 2 * sqrt 2 = 2.
Proof. apply sqrt_sqrt. lra. Qed.
Definition side (d : R) (n : nat) : R := d / sqrt 2 ^ n.
Lemma side_next d n : side d (S n) = side d n / sqrt 2.
Proof. unfold side. cbn [pow]. pose proof sqrt2_pos. pose proof (pow_lt (sqrt 2) n H). field. split; lra. Qed.
Definition longest (c : ascii) : R := match dimension c with Some d => d | None => 0 end.
Lemma upper_int n : (n <= 10)%nat -> upper (int_str (Z.of_nat n)) = int_str (Z.of_nat n).
Proof. intro N. do 11 (destruct n as [|n]; [vm_compute; reflexivity|]). lia. Qed.
Lemma letter_upper c : letter c -> forall s, upper (c :: s) = c :: upper s.
Proof. intros [-> |[-> | ->]] s; reflexivity. Qed.
Lemma sheet_ok c n m : letter c -> (n <= 10)%nat ->
  new_paper (sheet c n) (lit "portrait") m = Ok (Paper (sheet c n) Portrait m (side (longest c) n) (side (longest c) (S n))) /\
  new_paper (sheet c n) (lit "landscape") m = Ok (Paper (sheet c n) Landscape m (side (longest c) (S n)) (side (longest c) n)).
Proof.
  intros Lc N. unfold new_paper, sheet. rewrite (letter_upper c Lc), (upper_int n N). rewrite (int_back (Z.of_nat n)). cbn [bind].
  assert (D : dimension c = Some (longest c)) by (destruct Lc as [-> |[-> | ->]]; reflexivity). rewrite D.
  assert (Q : ((Z.of_nat n <? 0) || (10 <? Z.of_nat n))%Z%bool = false).
  { apply orb_false_intro; [apply Z.ltb_ge; lia|apply Z.ltb_ge; lia]. }
  rewrite Q, Nat2Z.id. change (text_eqb (lit "portrait") (lit "portrait")) with true. change (text_eqb (lit "landscape") (lit "portrait")) with false.
  change (text_eqb (lit "landscape") (lit "landscape")) with true. cbn match. rewrite (side_next (longest c) n). unfold side. split; reflexivity.
Qed.
Lemma longest_pos c : letter c -> 0 < longest c.
Proof. intros [-> |[-> | ->]]; unfold longest; cbn; lra. Qed.
Lemma side_pos d n : 0 < d -> 0 < side d n.
Proof. intro D. unfold side. apply Rdiv_lt_0_compat; [exact D|]. apply pow_lt, sqrt2_pos. Qed.
Lemma ratio_ok c n m p : letter c -> (n <= 10)%nat -> new_paper (sheet c n) (lit "portrait") m = Ok p -> 0 < p_width p /\ p_height p = sqrt 2 * p_width p.
Proof.
  intros Lc N H. rewrite (proj1 (sheet_ok c n m Lc N)) in H. injection H as <-. cbn [p_width p_height]. split; [apply side_pos, longest_pos, Lc|].
  rewrite side_next. pose proof sqrt2_pos. field. lra.
Qed.
Lemma level_ok c n m p q : letter c -> (S n <= 10)%nat -> new_paper (sheet c n) (lit "portrait") m = Ok p -> new_paper (sheet c (S n)) (lit "portrait") m = Ok q ->
  p_height q = p_width p /\ 2 * (p_height q * p_width q) = p_height p * p_width p.
Proof.
  intros Lc N H K. rewrite (proj1 (sheet_ok c n m Lc ltac:(lia))) in H. rewrite (proj1 (sheet_ok c (S n) m Lc N)) in K. injection H as <-. injection K as <-.
  cbn [p_width p_height]. split; [reflexivity|]. rewrite (side_next _ (S n)), (side_next _ n). pose proof sqrt2_pos. pose proof sqrt2_sq as S2.
  unfold Rdiv. set (x := side (longest c) n). assert (I : / sqrt 2 * / sqrt 2 = / 2) by (rewrite <- Rinv_mult, S2; reflexivity).
  replace (2 * (x * / sqrt 2 * (x * / sqrt 2 * / sqrt 2))) with (2 * x * x * / sqrt 2 * (/ sqrt 2 * / sqrt 2)) by ring. rewrite I. field. lra.
Qed.
Lemma landscape_ok c n m p q : letter c -> (n <= 10)%nat -> new_paper (sheet c n) (lit "portrait") m = Ok p -> new_paper (sheet c n) (lit "landscape") m = Ok q ->
  p_height q = p_width p /\ p_width q = p_height p /\ p_margin q = p_margin p /\ p_name q = p_name p.
Proof.
  intros Lc N H K. destruct (sheet_ok c n m Lc N) as (A & B). rewrite A in H. rewrite B in K. injection H as <-. injection K as <-. repeat split.
Qed.
(** Nothing else is accepted. *)
Lemma accepted_ok name o m p : new_paper name o m = Ok p -> exists c level n, upper name = c :: level /\ letter c /\ int_parse level = Ok (Z.of_nat n) /\ (n <= 10)%nat /\
  (o = lit "portrait" \/ o = lit "landscape") /\ p_name p = upper name /\ p_margin p = m /\
  (if text_eqb o (lit "portrait") then p_height p = side (longest c) n /\ p_width p = side (longest c) (S n) else p_width p = side (longest c) n /\ p_height p = side (longest c) (S n)).
Proof.
  unfold new_paper. destruct (upper name) as [|c level]; [discriminate|]. destruct (int_parse level) as [z|] eqn:E; [|discriminate]. cbn [bind].
  destruct (dimension c) as [d|] eqn:D; [|discriminate]. destruct ((z <? 0) || (10 <? z))%Z%bool eqn:Q; [discriminate|].
  apply orb_false_elim in Q. destruct Q as (Q1 & Q2). apply Z.ltb_ge in Q1, Q2. intro H.
  exists c, level, (Z.to_nat z). split; [reflexivity|]. split.
  { unfold dimension in D. unfold letter. destruct (Ascii.eqb_spec c "A"%char); [auto|]. destruct (Ascii.eqb_spec c "B"%char); [auto|]. destruct (Ascii.eqb_spec c "C"%char); [auto|discriminate]. }
  rewrite Z2Nat.id by exact Q1. split; [exact E|]. split; [lia|]. rewrite side_next. unfold side, longest. rewrite D.
  destruct (text_eqb_spec o (lit "portrait")) as [->|].
  - injection H as <-. cbn. repeat split; auto.
  - destruct (text_eqb_spec o (lit "landscape")) as [->|]; [|discriminate]. injection H as <-. cbn. repeat split; auto.
Qed.
(** ISO tables *)
Lemma side_even d n : side d (2 * n) = d / 2 ^ n.
Proof. unfold side. rewrite pow_mult. cbn [pow]. rewrite Rmult_1_r, sqrt2_sq. reflexivity. Qed.
Lemma side_odd d n : side d (2 * n + 1) = d / 2 ^ n / sqrt 2.
Proof. rewrite Nat.add_1_r, side_next, side_even. reflexivity. Qed.
Lemma sqrt2_bounds : 1.41421356 < sqrt 2 < 1.41421357.
Proof.
  split.
  - rewrite <- (sqrt_Rsqr 1.41421356) by lra. apply sqrt_lt_1_alt. unfold Rsqr. lra.
  - rewrite <- (sqrt_Rsqr 1.41421357) by lra. apply sqrt_lt_1_alt. unfold Rsqr. lra.
Qed.
Lemma inv_bounds : 0.70710678 < / sqrt 2 < 0.70710679.
Proof.
  pose proof sqrt2_bounds as (A & B). pose proof sqrt2_sq as Q. assert (E : / sqrt 2 = sqrt 2 / 2).
  { apply Rmult_eq_reg_l with (sqrt 2); [|lra]. rewrite Rinv_r by lra. lra. }
  rewrite E. lra.
Qed.
Lemma side_values d : side d 0 = d /\ side d 1 = d * / sqrt 2 /\ side d 2 = d / 2 /\ side d 3 = d / 2 * / sqrt 2 /\ side d 4 = d / 4 /\ side d 5 = d / 4 * / sqrt 2 /\
  side d 6 = d / 8 /\ side d 7 = d / 8 * / sqrt 2 /\ side d 8 = d / 16 /\ side d 9 = d / 16 * / sqrt 2 /\ side d 10 = d / 32 /\ side d 11 = d / 32 * / sqrt 2.
Proof.
  pose proof (side_even d) as E. pose proof (side_odd d) as O.
  pose proof (E 0%nat) as E0. pose proof (E 1%nat) as E1. pose proof (E 2%nat) as E2. pose proof (E 3%nat) as E3. pose proof (E 4%nat) as E4. pose proof (E 5%nat) as E5.
  pose proof (O 0%nat) as O0. pose proof (O 1%nat) as O1. pose proof (O 2%nat) as O2. pose proof (O 3%nat) as O3. pose proof (O 4%nat) as O4. pose proof (O 5%nat) as O5.
  clear E O. cbn [Nat.mul Nat.add pow] in *. rewrite E0, E1, E2, E3, E4, E5, O0, O1, O2, O3, O4, O5. unfold Rdiv.
  repeat split; try (f_equal; lra); lra.
Qed.
Lemma iso_ok c n m p : letter c -> (n <= 10)%nat -> new_paper (sheet c n) (lit "portrait") m = Ok p ->
  Rabs (p_height p - nth n (iso c) 0) < 1 /\ Rabs (p_width p - nth (S n) (iso c) 0) < 1.
Proof.
  intros Lc N H. rewrite (proj1 (sheet_ok c n m Lc N)) in H. injection H as <-. cbn [p_height p_width].
  assert (K : forall k, (k <= 11)%nat -> Rabs (side (longest c) k - nth k (iso c) 0) < 1).
  { intros k Hk. destruct (side_values (longest c)) as (S0 & S1 & S2 & S3 & S4 & S5 & S6 & S7 & S8 & S9 & S10 & S11). pose proof inv_bounds as (I1 & I2).
    do 12 (destruct k as [|k]; [apply Rabs_def1;
      rewrite ?S0, ?S1, ?S2, ?S3, ?S4, ?S5, ?S6, ?S7, ?S8, ?S9, ?S10, ?S11; destruct Lc as [-> |[-> | ->]]; unfold longest, iso; cbn; lra|]). lia. }
  split; apply K; lia.
Qed.

(** ** Units *)
Lemma right_ok x : millimetres (to_mm (Inch x)) = millimetres (Inch x) /\ millimetres (to_mm (Point x)) = millimetres (Point x) /\ millimetres (to_point (Mm x)) = millimetres (Mm x).
Proof. unfold to_mm, to_point, millimetres, MM_2_POINT, POINT_2_MM, INCH_2_MM, POINT_2_INCH. repeat split; field; lra. Qed.
Lemma round_trips_ok x : to_mm (to_point (Mm x)) = Mm x /\ to_point (to_mm (Point x)) = Point x /\ to_inch (to_point (Inch x)) = Inch x /\ to_point (to_inch (Point x)) = Point x.
Proof.
  unfold to_mm, to_point, to_inch, MM_2_POINT, POINT_2_MM, INCH_2_POINT, INCH_2_MM, POINT_2_INCH. repeat split; f_equal; field; lra.
Qed.
Lemma wrong_ok x : x <> 0 ->
  millimetres (to_inch (Mm x)) = 72 * x /\ millimetres (to_inch (Mm x)) <> millimetres (Mm x) /\
  millimetres (to_point (Inch x)) = millimetres (Inch x) / 5184 /\ millimetres (to_point (Inch x)) <> millimetres (Inch x) /\
  millimetres (to_inch (Point x)) = millimetres (Point x) * 5184 /\ millimetres (to_inch (Point x)) <> millimetres (Point x).
Proof.
  intro X.
  assert (A : millimetres (to_inch (Mm x)) = 72 * x) by (unfold to_inch, millimetres, MM_2_POINT, POINT_2_MM, INCH_2_MM, POINT_2_INCH; field; lra).
  assert (B : millimetres (to_point (Inch x)) = millimetres (Inch x) / 5184) by (unfold to_point, millimetres, INCH_2_POINT, POINT_2_INCH; field; lra).
  assert (C : millimetres (to_inch (Point x)) = millimetres (Point x) * 5184) by (unfold to_inch, millimetres, POINT_2_INCH; field; lra).
  repeat split; try assumption.
  - rewrite A. unfold millimetres. lra.
  - rewrite B. unfold millimetres. lra.
  - rewrite C. unfold millimetres. lra.
Qed.
Lemma mm_inch_refuted x : x <> 0 -> to_mm (to_inch (Mm x)) = Mm (72 * x) /\ to_mm (to_inch (Mm x)) <> Mm x.
Proof.
  intro X. assert (A : to_mm (to_inch (Mm x)) = Mm (72 * x)) by (unfold to_mm, to_inch, MM_2_POINT, POINT_2_MM, INCH_2_MM, POINT_2_INCH; f_equal; field; lra).
  split; [exact A|]. rewrite A. intro H. injection H as H. lra.
Qed.

(** ** Yarns *)
Lemma den_ok x : tex2den x = weight x 9000.
Proof. unfold tex2den, weight. field; lra. Qed.
Lemma den_back x : den2tex (tex2den x) = 10 * x.
Proof. unfold den2tex, tex2den. field; lra. Qed.
Lemma den_refuted x : x <> 0 -> den2tex (tex2den x) <> x.
Proof. intros X. rewrite den_back. lra. Qed.
Lemma nm_ok x : x <> 0 -> exists n, tex2nm x = Ok n /\ weight x n = 1.
Proof. intro X. exists (1000 / x). unfold tex2nm, fdiv. destruct (Reqb_spec x 0); [contradiction|]. split; [reflexivity|]. unfold weight. field. exact X. Qed.
Lemma nm_back x : x <> 0 -> exists n, tex2nm x = Ok n /\ nm2tex n = 1000000 / x.
Proof. intro X. exists (1000 / x). unfold tex2nm, fdiv. destruct (Reqb_spec x 0); [contradiction|]. split; [reflexivity|]. unfold nm2tex. field. exact X. Qed.
Lemma nm_refuted x n : 0 < x -> tex2nm x = Ok n -> (nm2tex n = x <-> x = 1000).
Proof.
  intros X H. destruct (nm_back x ltac:(lra)) as (k & K1 & K2). rewrite H in K1. injection K1 as <-. rewrite K2. split; intro E.
  - assert (Q : x * x = 1000 * 1000) by (rewrite <- E at 1; field_simplify; lra). nra.
  - rewrite E. field; lra.
Qed.
Lemma yarn_ok tex t y : new_yarn tex t = Ok y -> y_tex y = tex /\ denier y = weight tex 9000 /\ (tex <> 0 -> exists n, nm y = Ok n /\ weight tex n = 1).
Proof.
  unfold new_yarn. destruct (twist_type t); [|discriminate]. cbn. intro H. injection H as <-. split; [reflexivity|]. split; [apply den_ok|apply nm_ok].
Qed.
Lemma yarn_none tex : new_yarn tex TNone = Raise ValueError.
Proof. reflexivity. Qed.
Lemma yarn_twist tex t y : new_yarn tex t = Ok y <-> y_tex y = tex /\ (t = TMember (y_twist y) \/ t = TInt (match y_twist y with TwistS => 1 | TwistZ => 2 end)%Z).
Proof.
  unfold new_yarn, twist_type. split.
  - destruct t as [t|z|]; cbn [bind]; [intro H; injection H as <-; auto| |discriminate].
    destruct (Z.eqb_spec z 1) as [->|N1]; [intro H; injection H as <-; auto|].
    destruct (Z.eqb_spec z 2) as [->|N2]; [intro H; injection H as <-; auto|discriminate].
  - destruct y as [x [|]]; cbn; intros (-> & [->| ->]); reflexivity.
Qed.
