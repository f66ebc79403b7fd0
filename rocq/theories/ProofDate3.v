From Coq Require Import String Ascii List Bool Arith ZArith Lia.
From Verif Require Import Base ModelFormula ModelMeasure ModelDate SpecDate ProofMeasure ProofDate ProofDate2.
From Verif Require ModelXml ProofXml.
Import ListNotations.
Local Open Scope result_scope.

(** ** The texts written *)
Lemma padded_ok w : forall z, (0 <= z < 10 ^ Z.of_nat w)%Z -> length (padded w z) = w /\ Forall decimal (padded w z) /\ valued (padded w z) = z.
Proof.
  induction w as [|w IH]; intros z B; [cbn in *; split; [reflexivity|]; split; [constructor|unfold valued; cbn; lia]|].
  rewrite Nat2Z.inj_succ, Z.pow_succ_r in B by lia. assert (M := Z.mod_pos_bound z 10 ltac:(lia)). assert (D := Z.div_mod z 10 ltac:(lia)).
  assert (B' : (0 <= z / 10 < 10 ^ Z.of_nat w)%Z) by (split; [apply Z.div_pos; lia|apply Z.div_lt_upper_bound; lia]). destruct (IH _ B') as (L & F & V).
  assert (C : nat_of_ascii (ascii_of_nat (48 + Z.to_nat (z mod 10))) = 48 + Z.to_nat (z mod 10)) by (apply digit_code; lia).
  cbn [padded]. rewrite app_length, L, valued_snoc, V. cbn [length]. unfold decimal_value. rewrite C. split; [lia|]. split; [|lia].
  apply Forall_app. split; [exact F|]. constructor; [|constructor]. unfold decimal. rewrite C. lia.
Qed.
Lemma padded_numeral w z : w <> 0 -> (0 <= z < 10 ^ Z.of_nat w)%Z -> numeral (padded w z) z /\ length (padded w z) = w.
Proof.
  intros W B. destruct (padded_ok w z B) as (L & F & V). split; [|exact L]. apply numeral_iff. split; [|auto]. intros E. rewrite E in L. cbn in L. lia.
Qed.
Lemma days_31 y m : (days y m <= 31)%Z.
Proof. unfold days. destruct (m =? 2)%Z; [destruct (leap y); lia|]. destruct (existsb _ _); lia. Qed.
Lemma date_written d : calendar d -> writes_date (date_str d) d.
Proof.
  intros C. apply calendar_iff in C. destruct C as (Y & M & D). assert (E := days_31 (d_year d) (d_month d)).
  destruct (padded_numeral 4 (d_year d)) as [Ny Ly]; [lia|cbn; lia|]. destruct (padded_numeral 2 (d_month d)) as [Nm Lm]; [lia|cbn; lia|].
  destruct (padded_numeral 2 (d_day d)) as [Nd Ld]; [lia|cbn; lia|].
  exists (padded 4 (d_year d)), (padded 2 (d_month d)), (padded 2 (d_day d)). split; [reflexivity|]. split; [exact Ny|]. split; [exact Ly|].
  split; [split; [exact Nm|rewrite Lm; lia]|]. left. split; [exact Nd|rewrite Ld; lia].
Qed.

(** ** What is not a date *)
Lemma date_fifth t d : writes_date t d -> nth_error t 4 = Some "-"%char.
Proof. intros (ty & tm & td & -> & _ & L & _). do 4 (destruct ty as [|? ty]; [discriminate L|]). destruct ty; [reflexivity|discriminate L]. Qed.
Lemma date_first t d : writes_date t d -> exists c t', t = c :: t' /\ decimal c.
Proof.
  intros (ty & tm & td & -> & N & L & _). apply numeral_iff in N. destruct N as (_ & F & _). destruct ty as [|c ty]; [discriminate L|].
  eexists. eexists. split; [reflexivity|exact (Forall_inv F)].
Qed.
Lemma datetime_date t d : writes_datetime t d -> exists day rest, t = day ++ rest /\ writes_date day (t_date d).
Proof. intros (day & sep & th & tm & ts & tf & z & f & -> & W & _). exists day. eexists. split; [reflexivity|exact W]. Qed.
Lemma dec_of_digit c : ProofXml.is_digit c -> decimal c.
Proof. exact (ProofXml.digit_range c). Qed.
Lemma int_not_date z d : ~ writes_date (ModelXml.int_str z) d.
Proof.
  intros W. assert (A := date_fifth _ _ W). destruct (date_first _ _ W) as (c & t' & E & C). destruct z as [|p|p]; cbn [ModelXml.int_str] in *.
  - discriminate A.
  - destruct (ProofXml.nat_str_ok (Npos p)) as (_ & F & _). apply nth_error_In in A. rewrite Forall_forall in F. apply F in A. apply dec_of_digit in A. unfold decimal in A. cbn in A. lia.
  - cbn [lit String.list_ascii_of_string app] in E. injection E as <- _. unfold decimal in C. cbn in C. lia.
Qed.
Lemma int_not_datetime z d : ~ writes_datetime (ModelXml.int_str z) d.
Proof.
  intros W. destruct (datetime_date _ _ W) as (day & rest & E & Wd). assert (A := date_fifth _ _ Wd). destruct (date_first _ _ Wd) as (c & t' & -> & C).
  assert (A' : nth_error (ModelXml.int_str z) 4 = Some "-"%char). { rewrite E. rewrite nth_error_app1; [exact A|]. apply nth_error_Some. rewrite A. discriminate. }
  clear A. destruct z as [|p|p]; cbn [ModelXml.int_str] in *.
  - discriminate A'.
  - destruct (ProofXml.nat_str_ok (Npos p)) as (_ & F & _). apply nth_error_In in A'. rewrite Forall_forall in F. apply F in A'. apply dec_of_digit in A'. unfold decimal in A'. cbn in A'. lia.
  - cbn [lit String.list_ascii_of_string app] in E. injection E as <- _. unfold decimal in C. cbn in C. lia.
Qed.
Lemma date_not_datetime d x : ~ writes_datetime (date_str x) d.
Proof.
  intros (day & sep & th & tm & ts & tf & z & f & E & _ & _ & _ & _ & _ & _ & _ & _ & Z).
  assert (I : In z (date_str x)) by (rewrite E; do 2 (apply in_or_app; right); do 7 (apply in_or_app; right); now left).
  assert (P : forall w v c, In c (padded w v) -> decimal c).
  { induction w as [|w IH]; intros v c H; [destruct H|]. cbn [padded] in H. apply in_app_or in H. destruct H as [H|[<-|[]]]; [exact (IH _ _ H)|].
    assert (M := Z.mod_pos_bound v 10 ltac:(lia)). unfold decimal. rewrite digit_code by lia. lia. }
  assert (K : forall w v, In z (padded w v) -> False) by (intros w v H; apply P in H; unfold decimal in H; destruct Z as [->| ->]; cbn in H; lia).
  assert (K' : In z (lit "-") -> False) by (intros [<-|[]]; destruct Z as [Z|Z]; discriminate Z).
  unfold date_str in I. do 4 (apply in_app_or in I; destruct I as [I|I]; [now first [apply K in I | apply K' in I]|]). exact (K _ _ I).
Qed.

(** ** The setters *)
Lemma birth_iff v w : set_birth_date v = Ok w <-> a_date v w.
Proof.
  assert (S : forall v0, (forall d, ~ writes_date (str v0) d) -> (d <- strptime_date (str v0) ;; Ok (GDate d)) = Ok w -> False).
  { intros v0 N H. destruct (strptime_date (str v0)) as [d|] eqn:E; [|discriminate H]. apply date_iff in E. exact (N d (proj1 E)). }
  destruct v as [|t|z|d|d|g]; cbn [set_birth_date a_date ensure_date].
  - split; [intros H; now injection H|intros ->; reflexivity].
  - cbn [str]. split.
    + destruct (strptime_date t) as [d|] eqn:E; [|discriminate]. intros H. injection H as <-. apply date_iff in E. exists d. tauto.
    + intros (d & W & C & ->). assert (E : strptime_date t = Ok d) by (apply date_iff; auto). rewrite E. reflexivity.
  - split; [|tauto]. intros H. exact (S (GInt z) (int_not_date z) H).
  - split; [intros H; now injection H|intros ->; reflexivity].
  - split; [intros H; now injection H|intros ->; reflexivity].
  - split; [|tauto]. intros H. apply (S (GGender g)); [|exact H]. intros d W. destruct (date_first _ _ W) as (c & t' & E & C).
    destruct g; cbn in E; injection E as <- _; unfold decimal in C; cbn in C; lia.
Qed.
Lemma measured_iff v w : set_measurement_date v = Ok w <-> a_datetime v w.
Proof.
  assert (S : forall v0, (forall d, ~ writes_datetime (str v0) d) -> (d <- strptime_datetime (str v0) ;; Ok (GDatetime d)) = Ok w -> False).
  { intros v0 N H. destruct (strptime_datetime (str v0)) as [d|] eqn:E; [|discriminate H]. apply datetime_iff in E. exact (N d (proj1 E)). }
  destruct v as [|t|z|d|d|g]; cbn [set_measurement_date a_datetime ensure_datetime].
  - split; [intros H; now injection H|intros ->; reflexivity].
  - cbn [str]. split.
    + destruct (strptime_datetime t) as [d|] eqn:E; [|discriminate]. intros H. injection H as <-. apply datetime_iff in E. exists d. tauto.
    + intros (d & W & C & ->). assert (E : strptime_datetime t = Ok d) by (apply datetime_iff; auto). rewrite E. reflexivity.
  - split; [|tauto]. intros H. exact (S (GInt z) (int_not_datetime z) H).
  - split; [|tauto]. intros H. exact (S (GDate d) (fun x => date_not_datetime x d) H).
  - split; [intros H; now injection H|intros ->; reflexivity].
  - split; [|tauto]. intros H. apply (S (GGender g)); [|exact H]. intros d W. destruct (datetime_date _ _ W) as (day & rest & E' & Wd). destruct (date_first _ _ Wd) as (c & t' & -> & C).
    destruct g; cbn in E'; injection E' as <- _; unfold decimal in C; cbn in C; lia.
Qed.
Lemma ensure_or v : (is_ok (ensure_date v) \/ ensure_date v = Raise ValueError) /\ (is_ok (ensure_datetime v) \/ ensure_datetime v = Raise ValueError).
Proof.
  split; destruct v; cbn [ensure_date ensure_datetime]; try (left; eexists; reflexivity);
    match goal with |- context [strptime_date ?t] => destruct (date_or t) as [[x ->]| ->] | |- context [strptime_datetime ?t] => destruct (datetime_or t) as [[x ->]| ->] end;
    cbn [bind]; try (left; eexists; reflexivity); now right.
Qed.

(** ** The gender *)
Lemma upper_same a b : same_letter a b -> upper_char a = upper_char b.
Proof.
  intros [->|(n & N & [[-> ->]|[-> ->]])]; [reflexivity|..]; unfold upper_char; rewrite !nat_ascii_embedding by lia;
    do 2 (destruct (Nat.leb_spec 97 (65 + n)); [lia|]); cbn [andb];
    (destruct (Nat.leb_spec 97 (97 + n)); [|lia]); (destruct (Nat.leb_spec (97 + n) 122); [|lia]); cbn [andb]; f_equal; lia.
Qed.
Lemma upper_letter c x : 65 <= nat_of_ascii x <= 90 -> upper_char c = x -> same_letter c (ascii_of_nat (nat_of_ascii x + 32)).
Proof.
  intros X H. unfold upper_char in H. destruct (Nat.leb_spec 97 (nat_of_ascii c)) as [A|A]; cbn [andb] in H.
  - destruct (Nat.leb_spec (nat_of_ascii c) 122) as [B|B].
    + subst x. rewrite nat_ascii_embedding in X |- * by lia. left. rewrite <- (ascii_nat_embedding c) at 1. f_equal. lia.
    + subst x. lia.
  - subst x. right. exists (nat_of_ascii c - 65). split; [lia|]. left. split; [rewrite <- (ascii_nat_embedding c) at 1|]; f_equal; lia.
Qed.
Lemma upper_word t u : Forall (fun x => 65 <= nat_of_ascii x <= 90) u -> upper t = u <-> Forall2 same_letter t (map (fun x => ascii_of_nat (nat_of_ascii x + 32)) u).
Proof.
  intros U. split.
  - revert u U. induction t as [|c t IH]; intros [|x u] U H; try discriminate H; [constructor|]. injection H as H1 H2. inversion U as [|? ? X U']; subst. constructor.
    + apply upper_letter; auto.
    + apply IH; auto.
  - intros H. revert t H. induction u as [|x u IH]; intros t H; inversion H as [|c ? t' ? C F E1 E2]; subst; [reflexivity|]. inversion U as [|? ? X U']; subst. cbn. f_equal; [|exact (IH U' _ F)].
    rewrite (upper_same _ _ C). unfold upper_char. rewrite nat_ascii_embedding by lia.
    destruct (Nat.leb_spec 97 (nat_of_ascii x + 32)); [|lia]. destruct (Nat.leb_spec (nat_of_ascii x + 32) 122); [|lia]. cbn [andb].
    rewrite <- (ascii_nat_embedding x) at 2. f_equal. lia.
Qed.
Lemma gender_word t u : (exists g, In (u, g) gender_names) -> upper t = u <-> Forall2 same_letter t (map (fun x => ascii_of_nat (nat_of_ascii x + 32)) u).
Proof. intros (g & I). apply upper_word. cbn in I. repeat (destruct I as [E|I]; [injection E as <- _; repeat constructor; cbn; lia|]). destruct I. Qed.
Lemma gender_iff t g : lookup gender_names (upper t) = Some g <-> names_gender t g.
Proof.
  split.
  - intros H. unfold gender_names, lookup in H. unfold names_gender.
    repeat match type of H with (if text_eqb ?a ?b then _ else _) = _ => destruct (text_eqb_spec a b) as [E|_]; [symmetry in E; apply gender_word in E; [|eexists; cbn; tauto]; injection H as <-|] end.
    + exists "unknown"%string. split; [cbn; tauto|exact E].
    + exists "female"%string. split; [cbn; tauto|exact E].
    + exists "male"%string. split; [cbn; tauto|exact E].
    + exists "particular"%string. split; [cbn; tauto|exact E].
    + discriminate H.
  - intros (s & I & F). cbn [In] in I. repeat (destruct I as [E|I]; [injection E as <- <-;
      match type of F with Forall2 _ _ (lit ?s) => let u := eval vm_compute in (upper (lit s)) in replace (upper t) with u; [reflexivity|]; symmetry; apply (proj2 (upper_word t u ltac:(repeat constructor; cbn; lia))); exact F end|]).
    destruct I.
Qed.
Lemma set_gender_iff v g : set_gender v = Ok g <-> a_gender v g.
Proof.
  destruct v as [|t|z|d|d|g']; cbn [set_gender a_gender]; try (split; [discriminate|tauto]).
  - rewrite <- gender_iff. destruct (lookup gender_names (upper t)) as [x|]; split; congruence.
  - cbn [In]. split.
    + intros H. destruct z as [|p|p]; try discriminate H. do 3 (destruct p as [p|p|]; try discriminate H; try (injection H as <-; tauto)).
    + intros I. repeat (destruct I as [E|I]; [injection E as <- <-; reflexivity|]). destruct I.
  - split; congruence.
Qed.

(** ** The object *)
Lemma get_keyword kwargs key default v : NoDup (map fst kwargs) -> get kwargs key default = v <-> keyword kwargs key default v.
Proof.
  unfold get, keyword. generalize (lit key). intros k N. induction kwargs as [|[n x] l IH]; cbn in *.
  - split; [intros <-; right; auto|intros [[]|[-> _]]; reflexivity].
  - inversion N as [|? ? N1 N2]; subst. specialize (IH N2). destruct (text_eqb_spec n k) as [->|D].
    + split; [intros ->; left; now left|]. intros [[E|I]|[_ C]]; [now injection E|exfalso; apply N1; apply in_map_iff; now exists (k, v)|exfalso; apply C; now left].
    + rewrite IH. split; [intros [I|[-> C]]; [left; now right|right; split; [reflexivity|intros [E|I]; contradiction]]|].
      intros [[E|I]|[-> C]]; [injection E as E _; contradiction|now left|right; split; [reflexivity|tauto]].
Qed.
Lemma personal_iff kwargs p : new_personal kwargs = Ok p <->
  a_date (get kwargs "birth_date" GNone) (birth_date p) /\ a_datetime (get kwargs "measurement_date" GNone) (measurement_date p) /\
  a_gender (get kwargs "gender" (GGender UNKNOWN)) (p_gender p) /\
  first_name p = str (get kwargs "first_name" (GText [])) /\ last_name p = str (get kwargs "last_name" (GText [])) /\
  email p = str (get kwargs "email" (GText [])) /\ comment p = str (get kwargs "comment" (GText [])).
Proof.
  rewrite <- birth_iff, <- measured_iff, <- set_gender_iff. unfold new_personal. split.
  - destruct (set_birth_date _) as [b|]; [|discriminate]. cbn [bind]. destruct (set_measurement_date _) as [m|]; [|discriminate]. cbn [bind].
    destruct (set_gender _) as [g|]; [|discriminate]. cbn [bind]. intros H. injection H as <-. cbn. repeat split.
  - intros (-> & -> & -> & <- & <- & <- & <-). destruct p. reflexivity.
Qed.
