(** Sheets, lengths and yarns. *)
From Coq Require Import String Ascii List Bool Reals ZArith Lia Lra.
From Verif Require Import Base ModelFormula ModelMeasure ModelXml ModelVector ModelUnits SpecUnits ProofUnits.
Import ListNotations.
Local Open Scope R_scope.

(** C51 *)
Theorem C51_ratio (c : ascii) (n : nat) (m : R) (p : paper) :
  letter c -> (n <= 10)%nat -> new_paper (c :: int_str (Z.of_nat n)) (lit "portrait") m = Ok p -> 0 < p_width p /\ p_height p = sqrt 2 * p_width p.
Proof. exact (ratio_ok c n m p). Qed.
Print Assumptions C51_ratio.
Theorem C51_levels (c : ascii) (n : nat) (m : R) (p q : paper) :
  letter c -> (S n <= 10)%nat ->
  new_paper (c :: int_str (Z.of_nat n)) (lit "portrait") m = Ok p -> new_paper (c :: int_str (Z.of_nat (S n))) (lit "portrait") m = Ok q ->
  p_height q = p_width p /\ 2 * (p_height q * p_width q) = p_height p * p_width p.
Proof. exact (level_ok c n m p q). Qed.
Print Assumptions C51_levels.
Theorem C51_landscape (c : ascii) (n : nat) (m : R) (p q : paper) :
  letter c -> (n <= 10)%nat ->
  new_paper (c :: int_str (Z.of_nat n)) (lit "portrait") m = Ok p -> new_paper (c :: int_str (Z.of_nat n)) (lit "landscape") m = Ok q ->
  p_height q = p_width p /\ p_width q = p_height p /\ p_margin q = p_margin p /\ p_name q = p_name p.
Proof. exact (landscape_ok c n m p q). Qed.
Print Assumptions C51_landscape.
(** Every level of every series is made, in both orientations *)
Theorem C51_made (c : ascii) (n : nat) (m : R) : letter c -> (n <= 10)%nat ->
  is_ok (new_paper (c :: int_str (Z.of_nat n)) (lit "portrait") m) /\ is_ok (new_paper (c :: int_str (Z.of_nat n)) (lit "landscape") m).
Proof. exact (fun L N => conj (ex_intro _ _ (proj1 (sheet_ok c n m L N))) (ex_intro _ _ (proj2 (sheet_ok c n m L N)))). Qed.
Print Assumptions C51_made.
(** and nothing else: whatever is accepted has a letter, a level and the sides of that level *)
Theorem C51_accepted (name o : text) (m : R) (p : paper) : new_paper name o m = Ok p -> exists c level n,
  upper name = c :: level /\ letter c /\ int_parse level = Ok (Z.of_nat n) /\ (n <= 10)%nat /\ (o = lit "portrait" \/ o = lit "landscape") /\ p_name p = upper name /\ p_margin p = m /\
  (if text_eqb o (lit "portrait") then p_height p = longest c / sqrt 2 ^ n /\ p_width p = longest c / sqrt 2 ^ S n
   else p_width p = longest c / sqrt 2 ^ n /\ p_height p = longest c / sqrt 2 ^ S n).
Proof. exact (accepted_ok name o m p). Qed.
Print Assumptions C51_accepted.
(** The sides are those of the standards, to the millimetre *)
Theorem C51_standard (c : ascii) (n : nat) (m : R) (p : paper) :
  letter c -> (n <= 10)%nat -> new_paper (c :: int_str (Z.of_nat n)) (lit "portrait") m = Ok p ->
  Rabs (p_height p - nth n (iso c) 0) < 1 /\ Rabs (p_width p - nth (S n) (iso c) 0) < 1.
Proof. exact (iso_ok c n m p). Qed.
Print Assumptions C51_standard.
Example C51_example : exists p, new_paper (lit "a4") (lit "portrait") 10 = Ok p /\ p_name p = lit "A4" /\ p_height p = 1189 / 4.
Proof.
  destruct (sheet_ok "A" 4 10 (or_introl eq_refl) ltac:(lia)) as (A & _). eexists. split; [exact A|]. split; [reflexivity|].
  cbn [p_height]. destruct (side_values 1189) as (_ & _ & _ & _ & H & _). exact H.
Qed.
Example C51_refused : new_paper (lit "A11") (lit "portrait") 0 = Raise ValueError /\ new_paper (lit "D4") (lit "portrait") 0 = Raise ValueError /\ new_paper (lit "A4") (lit "paysage") 0 = Raise ValueError.
Proof.
  repeat split; vm_compute; reflexivity.
Qed.

(** C52 *)
Theorem C52_kept_partial (x : R) :
  millimetres (to_mm (Inch x)) = millimetres (Inch x) /\ millimetres (to_mm (Point x)) = millimetres (Point x) /\ millimetres (to_point (Mm x)) = millimetres (Mm x).
Proof. exact (right_ok x). Qed.
Print Assumptions C52_kept_partial.
Theorem C52_round_trips_partial (x : R) :
  to_mm (to_point (Mm x)) = Mm x /\ to_point (to_mm (Point x)) = Point x /\ to_inch (to_point (Inch x)) = Inch x /\ to_point (to_inch (Point x)) = Point x.
Proof. exact (round_trips_ok x). Qed.
Print Assumptions C52_round_trips_partial.
(** Three conversions out of six change the length, of every length but zero *)
Theorem C52_kept_refuted (x : R) : x <> 0 ->
  millimetres (to_inch (Mm x)) = 72 * x /\ millimetres (to_inch (Mm x)) <> millimetres (Mm x) /\
  millimetres (to_point (Inch x)) = millimetres (Inch x) / 5184 /\ millimetres (to_point (Inch x)) <> millimetres (Inch x) /\
  millimetres (to_inch (Point x)) = millimetres (Point x) * 5184 /\ millimetres (to_inch (Point x)) <> millimetres (Point x).
Proof. exact (wrong_ok x). Qed.
Print Assumptions C52_kept_refuted.
Theorem C52_round_trip_refuted (x : R) : x <> 0 -> to_mm (to_inch (Mm x)) = Mm (72 * x) /\ to_mm (to_inch (Mm x)) <> Mm x.
Proof. exact (mm_inch_refuted x). Qed.
Print Assumptions C52_round_trip_refuted.
Example C52_example : millimetres (to_inch (Mm 25.4)) = 72 * 25.4 /\ 25.4 <> 0.
Proof. split; [apply wrong_ok|]; lra. Qed.

(** C53 *)
Theorem C53_denier_partial (x : R) : tex2den x = weight x 9000.
Proof. exact (den_ok x). Qed.
Print Assumptions C53_denier_partial.
Theorem C53_metric_partial (x : R) : x <> 0 -> exists n, tex2nm x = Ok n /\ weight x n = 1.
Proof. exact (nm_ok x). Qed.
Print Assumptions C53_metric_partial.
Theorem C53_denier_refuted (x : R) : den2tex (tex2den x) = 10 * x /\ (x <> 0 -> den2tex (tex2den x) <> x).
Proof. exact (conj (den_back x) (den_refuted x)). Qed.
Print Assumptions C53_denier_refuted.
(** and back from the metric number: right only for the one count of 1000 tex *)
Theorem C53_metric_refuted (x n : R) : 0 < x -> tex2nm x = Ok n -> (nm2tex n = x <-> x = 1000).
Proof. exact (nm_refuted x n). Qed.
Print Assumptions C53_metric_refuted.
Example C53_example : exists n, tex2nm 20 = Ok n /\ nm2tex n = 50000.
Proof. destruct (nm_back 20 ltac:(lra)) as (n & A & B). exists n. split; [exact A|]. rewrite B. lra. Qed.

(** C86 *)
Theorem C86_counts_partial (tex : R) (t : twist_value) (y : yarn) :
  new_yarn tex t = Ok y -> y_tex y = tex /\ denier y = weight tex 9000 /\ (tex <> 0 -> exists n, nm y = Ok n /\ weight tex n = 1).
Proof. exact (yarn_ok tex t y). Qed.
Print Assumptions C86_counts_partial.
(** the twist is the member given, or the one of that number *)
Theorem C86_twist_partial (tex : R) (t : twist_value) (y : yarn) :
  new_yarn tex t = Ok y <-> y_tex y = tex /\ (t = TMember (y_twist y) \/ t = TInt (match y_twist y with TwistS => 1 | TwistZ => 2 end)%Z).
Proof. exact (yarn_twist tex t y). Qed.
Print Assumptions C86_twist_partial.
Theorem C86_default_refuted (tex : R) : new_yarn tex TNone = Raise ValueError.
Proof. exact (yarn_none tex). Qed.
Print Assumptions C86_default_refuted.
Example C86_example : new_yarn 20 (TMember TwistZ) = Ok (Yarn 20 TwistZ).
Proof. reflexivity. Qed.
