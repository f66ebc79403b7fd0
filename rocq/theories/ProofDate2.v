From Coq Require Import String Ascii List Bool Arith ZArith Lia.
From Verif Require Import Base ModelFormula ModelMeasure ModelDate SpecDate ProofMeasure ProofDate.
From Verif Require ModelXml ProofXml.
Import ListNotations.

(** ** The calendar *)
Lemma leap_spec y : leap y = true <-> leap_year y.
Proof.
  unfold leap, leap_year. rewrite orb_true_iff, andb_true_iff, negb_true_iff, Z.eqb_neq, !Z.eqb_eq.
  rewrite <- !Z.mod_divide by lia.
  assert (y mod 400 = 0 -> y mod 4 = 0)%Z by (intros H; apply Z.mod_divide in H; [|lia]; destruct H as [k ->]; apply Z.mod_divide; [lia|]; exists (k * 100)%Z; lia).
  tauto.
Qed.
Lemma lasts_days y m : (1 <= m <= 12)%Z -> forall d, lasts y m d <-> d = days y m.
Proof.
  intros M d. unfold lasts, days. assert (L := leap_spec y).
  destruct (Z.eqb_spec m 2) as [->|N].
  - destruct (leap y); [assert (leap_year y) by (now apply L)|assert (~ leap_year y) by (intros H; apply L in H; discriminate H)]; intuition lia.
  - destruct (existsb (Z.eqb m) [4; 6; 9; 11]%Z) eqn:E; cbn in E.
    + assert (m = 4 \/ m = 6 \/ m = 9 \/ m = 11)%Z by (rewrite !orb_true_iff, !Z.eqb_eq in E; intuition discriminate). intuition lia.
    + assert (m <> 4 /\ m <> 6 /\ m <> 9 /\ m <> 11)%Z by (rewrite !orb_false_iff, !Z.eqb_neq in E; intuition). intuition lia.
Qed.
Lemma lasts_month y m d : lasts y m d -> (1 <= m <= 12)%Z /\ (d <= 31)%Z.
Proof. unfold lasts. lia. Qed.
Lemma calendar_iff x : calendar x <-> (1 <= d_year x <= 9999 /\ 1 <= d_month x <= 12 /\ 1 <= d_day x <= days (d_year x) (d_month x))%Z.
Proof.
  unfold calendar. split.
  - intros (Y & last & L & D). destruct (lasts_month _ _ _ L) as [M _]. apply (lasts_days _ _ M) in L. subst last. auto.
  - intros (Y & M & D). split; [exact Y|]. eexists. split; [apply (lasts_days _ _ M); reflexivity|exact D].
Qed.
Lemma calendar_day x : calendar x -> (1 <= d_day x <= 31)%Z.
Proof. intros (_ & last & L & D). apply lasts_month in L. lia. Qed.
Lemma new_date_iff y m d x : new_date y m d = Ok x <-> x = Date y m d /\ calendar x.
Proof.
  unfold new_date. split.
  - destruct (_ && _) eqn:E; [|discriminate]. intros H. injection H as <-. split; [reflexivity|]. apply calendar_iff. cbn.
    rewrite !andb_true_iff, !Z.leb_le in E. lia.
  - intros [-> C]. apply calendar_iff in C. cbn in C.
    replace (_ && _) with true; [reflexivity|]. symmetry. rewrite !andb_true_iff, !Z.leb_le. lia.
Qed.
Lemma new_date_value y m d : is_ok (new_date y m d) \/ new_date y m d = Raise ValueError.
Proof. unfold new_date. destruct (_ && _); [left; eexists; reflexivity|now right]. Qed.

(** ** Splitting a text at its marks *)
Lemma split_unique a : forall b x y s s', Forall inner a -> Forall inner b -> ~ inner x -> ~ inner y -> a ++ x :: s = b ++ y :: s' -> a = b /\ x = y /\ s = s'.
Proof.
  induction a as [|c a IH]; intros [|d b] x y s s' A B X Y E; cbn in E.
  - injection E as -> ->. auto.
  - injection E as -> _. apply Forall_inv in B. contradiction.
  - injection E as <- _. apply Forall_inv in A. contradiction.
  - injection E as -> E. destruct (IH b x y s s' (Forall_inv_tail A) (Forall_inv_tail B) X Y E) as (-> & -> & ->). auto.
Qed.
Lemma search_last l p : forall s ms m r, length ms = length l -> search (l ++ [p]) s = Some (ms ++ [m], r) -> search [p] (m ++ r) = Some ([m], r).
Proof.
  induction l as [|q l IH]; intros s ms m r L H.
  - destruct ms; [|discriminate L]. cbn [app] in H. destruct (search_sound _ _ _ _ H) as [E _]. cbn in E. rewrite app_nil_r in E. rewrite <- E. exact H.
  - destruct ms as [|m0 ms]; [discriminate L|]. injection L as L. cbn [app search] in H. revert H. generalize q at 1.
    induction q0 as [|a q0 IHq]; intros H; [discriminate H|]. destruct (prefix a s) as [[m' r']|].
    + destruct (search (l ++ [p]) r') as [[ms' r'']|] eqn:E'; [|exact (IHq H)]. injection H as -> -> ->. exact (IH _ _ _ _ L E').
    + exact (IHq H).
Qed.
Ltac refine_char c := repeat match goal with H : context [nat_of_ascii c] |- _ => revert H end.
Ltac tests := repeat match goal with
  | |- context [range (String ?x "") (String ?y "") ?c] =>
      let E := fresh "E" in destruct (range (String x "") (String y "") c) eqn:E;
      [apply range_spec in E|apply not_true_iff_false in E; rewrite (range_spec x y c) in E]; codes; cbn [andb]; try lia
  end.
Lemma day_whole m : matches day m -> search [day] m = Some ([m], []).
Proof.
  intros M. apply day_spec in M. destruct M as [(N & L & F & V)|(c & -> & N & L & F & V)].
  - destruct (two_chars m N L) as (c & [->|(d & ->)]); unfold valued in V; cbn [fold_left] in V; inv_forall; unfold decimal, decimal_value in *;
      unfold search, day, prefix, one, any_digit; tests; reflexivity.
  - unfold valued in V; cbn [fold_left] in V; inv_forall; unfold decimal, decimal_value in *; unfold search, day, prefix, one, any_digit; tests; reflexivity.
Qed.

Lemma decimal_inner m : Forall decimal m -> Forall inner m.
Proof. apply Forall_impl. now left. Qed.
Lemma day_inner m : matches day m -> Forall inner m.
Proof. intros M. apply day_spec in M. destruct M as [(_ & _ & F & _)|(c & -> & _ & _ & F & _)]; [now apply decimal_inner|]. constructor; [now right|now apply decimal_inner]. Qed.
Lemma day_number m : matches day m -> exists d, number m = d /\ (short m d \/ exists m', m = lit " " ++ m' /\ length m' = 1 /\ numeral m' d).
Proof.
  intros M. apply day_spec in M. destruct M as [(N & L & F & V)|(c & -> & N & L & F & V)]; eexists; (split; [reflexivity|]).
  - left. split; [apply numeral_iff; rewrite (number_valued _ F); auto|exact L].
  - right. exists [c]. split; [reflexivity|]. split; [reflexivity|]. apply numeral_iff. split; [discriminate|]. split; [exact F|].
    rewrite <- (number_valued _ F). reflexivity.
Qed.
Lemma day_written m d : (1 <= d <= 31)%Z -> short m d \/ (exists m', m = lit " " ++ m' /\ length m' = 1 /\ numeral m' d) -> matches day m /\ number m = d.
Proof.
  intros D [[N L]|(m' & -> & L & N)].
  - apply numeral_iff in N. destruct N as (N & F & ->). split; [|now apply number_valued]. apply day_spec. left. repeat split; auto; lia.
  - apply numeral_iff in N. destruct N as (N & F & ->). destruct m' as [|c [|]]; try discriminate L. split.
    + apply day_spec. right. exists c. split; [reflexivity|]. repeat split; auto; lia.
    + rewrite <- (number_valued _ F). reflexivity.
Qed.
Lemma mark_inner x y m : ~ inner x -> ~ inner y -> matches (mark (String x "") (String y "")) m -> exists c, m = [c] /\ ~ inner c /\ (c = x \/ c = y).
Proof. intros X Y M. apply mark_spec in M. destruct M as [->| ->]; eexists; split; eauto. Qed.
Lemma not_inner (c : ascii) : (58 <=? nat_of_ascii c) || ((33 <=? nat_of_ascii c) && (nat_of_ascii c <=? 47)) = true -> ~ inner c.
Proof. rewrite orb_true_iff, andb_true_iff, !Nat.leb_le. unfold inner, decimal. lia. Qed.

Ltac marks := repeat match goal with
  | M : matches (mark (String ?x "") (String ?y "")) ?m |- _ =>
      let c := fresh "c" in let I := fresh "I" in let E := fresh "E" in
      destruct (mark_inner x y m (not_inner x eq_refl) (not_inner y eq_refl) M) as (c & -> & I & E); clear M
  end.
Ltac fields := repeat match goal with H : Forall2 matches (_ :: _) _ |- _ => inversion H; subst; clear H | H : Forall2 matches [] _ |- _ => inversion H; subst; clear H end.
Lemma same_mark (c x : ascii) : c = x \/ c = x -> c = x.
Proof. tauto. Qed.

Lemma date_iff t d : strptime_date t = Ok d <-> writes_date t d /\ calendar d.
Proof.
  split.
  - unfold strptime_date. destruct (search date_format t) as [[ms r]|] eqn:E; [|discriminate]. destruct (search_sound _ _ _ _ E) as [-> F]. clear E.
    unfold date_format in F. fields. destruct r; [|discriminate]. intros H. apply new_date_iff in H. destruct H as [-> C]. split; [|exact C].
    marks. repeat match goal with H : _ = _ \/ _ = _ |- _ => apply same_mark in H end. subst.
    match goal with H : matches year ?m |- _ => exists m; apply year_spec in H; destruct H as [Ly Fy] end.
    match goal with H : matches month ?m |- _ => exists m; apply month_spec in H; destruct H as (Nm & Lm & Fm & Vm) end.
    match goal with H : matches day ?m |- _ => exists m; apply day_number in H; destruct H as (dd & Nd & Hd) end.
    cbn [concat d_year d_month d_day]. rewrite !app_nil_r. rewrite Nd.
    split; [reflexivity|]. split; [apply numeral_iff; rewrite (number_valued _ Fy); repeat split; auto; intros ->; discriminate Ly|].
    split; [exact Ly|]. split; [split; [apply numeral_iff; rewrite (number_valued _ Fm); auto|exact Lm]|exact Hd].
  - intros [(ty & tm & td & -> & Ny & Ly & [Nm Lm] & Hd) C]. apply numeral_iff in Ny, Nm. destruct Ny as (Ey & Fy & Vy), Nm as (Em & Fm & Vm).
    destruct (day_written _ _ (calendar_day _ C) Hd) as [Md Nd].
    assert (My : matches year ty) by (apply year_spec; auto).
    assert (Mm : matches month tm) by (apply month_spec; repeat split; auto; rewrite <- Vm; apply calendar_iff in C; lia).
    assert (Mh : matches (mark "-" "-") (lit "-")) by (apply mark_spec; now left).
    assert (G : search date_format (ty ++ lit "-" ++ tm ++ lit "-" ++ td) = Some ([ty; lit "-"; tm; lit "-"; td], [])).
    { destruct (search_complete date_format [ty; lit "-"; tm; lit "-"; td] []) as [[ms r] O]; [repeat constructor; assumption|].
      cbn [concat] in O. rewrite !app_nil_r in O. rewrite O. destruct (search_sound _ _ _ _ O) as [E F].
      unfold date_format in F. fields.
      match type of O with _ = Some ([?a; ?b; ?c; ?d; ?e], _) => assert (O' := search_last [year; mark "-" "-"; month; mark "-" "-"] day _ [a; b; c; d] e r eq_refl O) end.
      marks. repeat match goal with H : _ = _ \/ _ = _ |- _ => apply same_mark in H end. subst.
      cbn [concat] in E. rewrite app_nil_r, <- !app_assoc in E. cbn [lit app String.list_ascii_of_string] in E.
      repeat match goal with H : matches year _ |- _ => apply year_spec in H | H : matches month _ |- _ => apply month_spec in H end.
      apply split_unique in E; try (apply decimal_inner; tauto); try assumption. destruct E as (-> & _ & E).
      apply split_unique in E; try (apply decimal_inner; tauto); try assumption. destruct E as (-> & _ & E).
      rewrite <- E in O'. rewrite (day_whole _ Md) in O'. injection O' as <- <-. reflexivity. }
    unfold strptime_date. rewrite G. apply new_date_iff. split; [|exact C]. rewrite Nd, (number_valued _ Fy), (number_valued _ Fm), <- Vy, <- Vm. destruct d; reflexivity.
Qed.
Lemma date_or t : is_ok (strptime_date t) \/ strptime_date t = Raise ValueError.
Proof. unfold strptime_date. destruct (search date_format t) as [[ms r]|]; [|now right]. do 6 (destruct ms as [|? ms]; try (now right)). destruct r; [apply new_date_value|now right]. Qed.

(** ** Times *)
Lemma ok_inj {A} (a b : A) : Ok a = Ok b -> a = b.
Proof. congruence. Qed.
Lemma valued_app a b : Forall decimal b -> valued (a ++ b) = (valued a * 10 ^ Z.of_nat (length b) + valued b)%Z.
Proof.
  induction b as [|c b IH] using rev_ind; intros F; [rewrite app_nil_r; cbn; lia|]. apply Forall_app in F. destruct F as [F _].
  rewrite app_assoc, !valued_snoc, (IH F), app_length. cbn [length]. rewrite Nat2Z.inj_add, Z.pow_add_r by lia. change (10 ^ Z.of_nat 1)%Z with 10%Z. ring.
Qed.
Lemma zeros n : Forall decimal (repeat "0"%char n) /\ valued (repeat "0"%char n) = 0%Z.
Proof.
  induction n as [|n [F V]]; [split; [constructor|reflexivity]|]. split; [constructor; [unfold decimal; codes; lia|exact F]|].
  change (repeat "0"%char (S n)) with (["0"%char] ++ repeat "0"%char n). rewrite valued_app by exact F. rewrite V. reflexivity.
Qed.
Lemma fraction_value f : Forall decimal f -> length f <= 6 -> number (f ++ repeat "0"%char (6 - length f)) = (valued f * 10 ^ (6 - Z.of_nat (length f)))%Z.
Proof.
  intros F L. destruct (zeros (6 - length f)) as [Z V]. rewrite number_valued by (apply Forall_app; auto). rewrite valued_app by exact Z.
  rewrite V, repeat_length, Nat2Z.inj_sub by exact L. rewrite Z.add_0_r. reflexivity.
Qed.

Lemma datetime_iff t d : strptime_datetime t = Ok d <-> writes_datetime t d /\ clock d.
Proof.
  split.
  - unfold strptime_datetime. destruct (search datetime_format t) as [[ms r]|] eqn:E; [|discriminate]. destruct (search_sound _ _ _ _ E) as [-> F]. clear E.
    unfold datetime_format in F. fields. destruct r; [|discriminate]. cbn [bind].
    match goal with |- context [new_date ?a ?b ?c] => destruct (new_date a b c) as [x|] eqn:N; [|discriminate] end. cbn [bind].
    apply new_date_iff in N. destruct N as [-> C].
    destruct (Z.ltb_spec (number y9) 60) as [S60|]; [|discriminate]. intros H. apply ok_inj in H. subst d.
    marks. repeat match goal with H : ?a = ?x \/ ?a = ?x |- _ => apply same_mark in H end. subst.
    match goal with H : matches year ?m |- _ => rename m into ty; apply year_spec in H; destruct H as [Ly Fy] end.
    match goal with H : matches month ?m |- _ => rename m into tm; apply month_spec in H; destruct H as (Nm & Lm & Fm & Vm) end.
    match goal with H : matches day ?m |- _ => rename m into td; apply day_number in H; destruct H as (dd & Nd & Hd) end.
    match goal with H : matches hour ?m |- _ => rename m into th; apply hour_spec in H; destruct H as (Nh & Lh & Fh & Vh) end.
    match goal with H : matches minute ?m |- _ => rename m into ti; apply minute_spec in H; destruct H as (Ni & Li & Fi & Vi) end.
    match goal with H : matches second ?m |- _ => rename m into ts; apply second_spec in H; destruct H as (Ns & Ls & Fs & Vs) end.
    match goal with H : matches fraction ?m |- _ => rename m into tf; apply fraction_spec in H; destruct H as (Nf & Lf & Ff) end.
    rewrite (number_valued _ Fs) in S60. rewrite (number_valued _ Fy), (number_valued _ Fm), Nd in C |- *. rewrite (fraction_value _ Ff Lf), (number_valued _ Fh), (number_valued _ Fi), (number_valued _ Fs).
    split.
    + match goal with E : ?c = "T"%char \/ _ |- _ => exists (ty ++ lit "-" ++ tm ++ lit "-" ++ td), c, th, ti, ts, tf end.
      match goal with E : ?c = "Z"%char \/ _ |- _ => exists c, (valued tf) end.
      split; [cbn [concat]; rewrite !app_nil_r, <- !app_assoc; reflexivity|]. cbn [t_date t_hour t_minute t_second t_micro].
      split; [exists ty, tm, td; cbn [d_year d_month d_day]; split; [reflexivity|]; split; [apply numeral_iff; repeat split; auto; intros ->; discriminate Ly|]; split; [exact Ly|]; split; [split; [apply numeral_iff; auto|exact Lm]|exact Hd]|].
      repeat (split; [first [assumption | apply numeral_iff; auto; fail | split; [apply numeral_iff; auto|assumption] | reflexivity]|]). assumption.
    + split; [exact C|]. cbn [t_hour t_minute t_second t_micro]. assert (B := valued_bound _ Ff).
      assert (P : (10 ^ Z.of_nat (length tf) * 10 ^ (6 - Z.of_nat (length tf)) = 1000000)%Z) by (rewrite <- Z.pow_add_r by lia; replace (Z.of_nat (length tf) + (6 - Z.of_nat (length tf)))%Z with 6%Z by lia; reflexivity).
      assert (Q : (0 < 10 ^ (6 - Z.of_nat (length tf)))%Z) by (apply Z.pow_pos_nonneg; lia). repeat split; try lia; nia.
  - intros [(dt & sep & th & ti & ts & tf & z & f & -> & (ty & tm & td & -> & Ny & Ly & [Nm Lm] & Hd) & Es & [Nh Lh] & [Ni Li] & [Ns Ls] & Nf & Lf & Vf & Ez) (C & Hh & Hi & Hs & _)].
    apply numeral_iff in Ny, Nm, Nh, Ni, Ns, Nf.
    destruct Ny as (Ey & Fy & Vy), Nm as (Em & Fm & Vm), Nh as (Eh & Fh & Vh), Ni as (Ei & Fi & Vi), Ns as (Es' & Fs & Vs), Nf as (Ef & Ff & Vff).
    destruct (day_written _ _ (calendar_day _ C) Hd) as [Md Nd].
    assert (My : matches year ty) by (apply year_spec; auto).
    assert (Mm : matches month tm) by (apply month_spec; repeat split; auto; rewrite <- Vm; apply calendar_iff in C; lia).
    assert (Mho : matches hour th) by (apply hour_spec; repeat split; auto; lia).
    assert (Mmi : matches minute ti) by (apply minute_spec; repeat split; auto; lia).
    assert (Mse : matches second ts) by (apply second_spec; repeat split; auto; lia).
    assert (Mfr : matches fraction tf) by (apply fraction_spec; auto).
    assert (Mh : matches (mark "-" "-") (lit "-")) by (apply mark_spec; now left).
    assert (Mc : matches (mark ":" ":") (lit ":")) by (apply mark_spec; now left).
    assert (Mp : matches (mark "." ".") (lit ".")) by (apply mark_spec; now left).
    assert (Mt : matches (mark "T" "t") [sep]) by (apply mark_spec; destruct Es as [->| ->]; auto).
    assert (Mz : matches (mark "Z" "z") [z]) by (apply mark_spec; destruct Ez as [->| ->]; auto).
    set (ms := [ty; lit "-"; tm; lit "-"; td; [sep]; th; lit ":"; ti; lit ":"; ts; lit "."; tf; [z]]).
    assert (T : concat ms = (ty ++ lit "-" ++ tm ++ lit "-" ++ td) ++ [sep] ++ th ++ lit ":" ++ ti ++ lit ":" ++ ts ++ lit "." ++ tf ++ [z]) by (unfold ms; cbn [concat]; rewrite app_nil_r, <- !app_assoc; reflexivity).
    rewrite <- T.
    assert (G : search datetime_format (concat ms) = Some (ms, [])).
    { destruct (search_complete datetime_format ms []) as [[ms' r] O]; [repeat constructor; assumption|].
      rewrite app_nil_r in O. rewrite O. destruct (search_sound _ _ _ _ O) as [E F]. clear O.
      unfold datetime_format in F. fields. rewrite T in E. clear T Mt Mz Mh Mc Mp. unfold ms. clear ms.
      repeat match goal with H : matches day _ |- _ => apply day_inner in H end.
      marks. repeat match goal with H : ?a = ?x \/ ?a = ?x |- _ => apply same_mark in H end. subst.
      cbn [concat] in E. rewrite app_nil_r, <- !app_assoc in E. cbn [lit app String.list_ascii_of_string] in E.
      repeat match goal with H : matches year _ |- _ => apply year_spec in H | H : matches month _ |- _ => apply month_spec in H | H : matches hour _ |- _ => apply hour_spec in H
        | H : matches minute _ |- _ => apply minute_spec in H | H : matches second _ |- _ => apply second_spec in H | H : matches fraction _ |- _ => apply fraction_spec in H end.
      assert (Is : ~ inner sep) by (destruct Es as [->| ->]; apply not_inner; reflexivity). assert (Iz : ~ inner z) by (destruct Ez as [->| ->]; apply not_inner; reflexivity).
      do 7 (apply split_unique in E; try (apply decimal_inner; tauto); try assumption; let E1 := fresh in let E2 := fresh in destruct E as (E1 & E2 & E); rewrite E1; clear E1; try rewrite E2; clear E2).
      try rewrite <- E. reflexivity. }
    unfold strptime_datetime. rewrite G. unfold ms.
    replace (new_date (number ty) (number tm) (number td)) with (Ok (t_date d)); [|symmetry; apply new_date_iff; split; [|exact C]; rewrite Nd, (number_valued _ Fy), (number_valued _ Fm), <- Vy, <- Vm; destruct (t_date d); reflexivity].
    cbn [bind]. rewrite (fraction_value _ Ff Lf), (number_valued _ Fs), (number_valued _ Fh), (number_valued _ Fi), <- Vff, <- Vf, <- Vs, <- Vh, <- Vi.
    destruct (Z.ltb_spec (t_second d) 60); [destruct d; reflexivity|lia].
Qed.
Lemma datetime_or t : is_ok (strptime_datetime t) \/ strptime_datetime t = Raise ValueError.
Proof.
  unfold strptime_datetime. destruct (search datetime_format t) as [[ms r]|]; [|now right]. do 15 (destruct ms as [|? ms]; try (now right)). destruct r; [|now right].
  match goal with |- context [new_date ?a ?b ?c] => destruct (new_date_value a b c) as [[x ->]| ->] end; [|now right]. cbn [bind].
  destruct (_ <? _)%Z; [left; eexists; reflexivity|now right].
Qed.
