From Coq Require Import String Ascii List Bool Arith Lia.
From Verif Require Import Base ModelSketch ModelPython SpecPython.
From Verif Require ModelFormula ModelMeasure ProofMeasure.
Import ModelFormula(text, lit).
Import ModelMeasure(text_eqb).
Import ListNotations.

(** ** Unambiguous *)
Lemma split_once (P : ascii -> Prop) : forall (a b : text) c d r s, Forall (fun x => ~ P x) a -> Forall (fun x => ~ P x) b -> P c -> P d ->
  a ++ c :: r = b ++ d :: s -> a = b /\ c = d /\ r = s.
Proof.
  induction a as [|x a IH]; intros [|y b] c d r s A B C D E; cbn in E; injection E as E1 E2.
  - auto.
  - subst y. inversion B; contradiction.
  - subst x. inversion A; contradiction.
  - subst y. inversion A as [|? ? A1 A2]; inversion B as [|? ? B1 B2]; subst. destruct (IH b c d r s A2 B2 C D E2) as (-> & H). auto.
Qed.
(** The characters of the numbers *)
Definition number_char (c : ascii) : Prop := is_digit c \/ In c [" "; "+"; "-"; "."; "e"; "E"; "_"]%char.
Lemma digit_part_chars t : digit_part t -> Forall number_char t.
Proof.
  assert (U : number_char "_") by (unfold number_char; cbn; auto 10).
  induction 1; repeat (constructor; auto); unfold number_char; auto.
Qed.
Lemma exponent_chars t : exponent_part t -> Forall number_char t.
Proof.
  intros [|e s u E S D]; [constructor|]. constructor; [destruct E as [->| ->]; unfold number_char; cbn; auto 10|].
  apply Forall_app. split; [destruct S as [->|[->| ->]]; [constructor|constructor; [right; cbn; auto 10|constructor]|constructor; [right; cbn; auto 10|constructor]]|apply digit_part_chars, D].
Qed.
Lemma unsigned_chars t : unsigned t -> Forall number_char t /\ t <> [].
Proof.
  assert (P : number_char ".") by (unfold number_char; cbn; auto 10).
  intros [u D _|a b e A B E|b e B E|a e A E N].
  - split; [apply digit_part_chars, D|destruct D; discriminate].
  - split; [|intro Q; apply app_eq_nil in Q as (_ & Q); discriminate Q]. apply Forall_app. split; [apply digit_part_chars, A|]. constructor; [exact P|]. apply Forall_app. split; [|apply exponent_chars, E].
    destruct B as [->|B]; [constructor|apply digit_part_chars, B].
  - split; [|discriminate]. constructor; [exact P|]. apply Forall_app. split; [apply digit_part_chars, B|apply exponent_chars, E].
  - split; [|intro Q; apply app_eq_nil in Q as (_ & Q); contradiction]. apply Forall_app. split; [apply digit_part_chars, A|apply exponent_chars, E].
Qed.
Lemma number_chars t : number t -> Forall number_char t /\ t <> [].
Proof.
  intros (a & s & u & b & -> & A & S & U & B). destruct (unsigned_chars u U) as (C & N).
  assert (SP : forall l, Forall (eq " "%char) l -> Forall number_char l) by (intros l; apply Forall_impl; intros c <-; unfold number_char; cbn; auto 10).
  split; [|intro Q; apply app_eq_nil in Q as (_ & Q); apply app_eq_nil in Q as (_ & Q); apply app_eq_nil in Q as (Q & _); contradiction].
  apply Forall_app. split; [apply SP, A|]. apply Forall_app. split; [destruct S as [->|[->| ->]]; [constructor|constructor; [right; cbn; auto 10|constructor]|constructor; [right; cbn; auto 10|constructor]]|].
  apply Forall_app. split; [exact C|apply SP, B].
Qed.
(** What ends a value *)
Definition stop (c : ascii) : Prop := c = ","%char \/ c = ")"%char.
Lemma number_char_not c : number_char c -> ~ stop c /\ c <> "'"%char /\ c <> "N"%char /\ c <> "V"%char.
Proof.
  intro H. assert (G : forall d, (nat_of_ascii d < 48 \/ 57 < nat_of_ascii d)%nat -> ~ In d [" "; "+"; "-"; "."; "e"; "E"; "_"]%char -> c <> d).
  { intros d L N ->. destruct H as [(H1 & H2)|H]; [lia|contradiction]. }
  split; [intros [E|E]; revert E; apply G|split; [apply G|split; apply G]]; cbn; try lia; intuition discriminate.
Qed.
Lemma literal_unique v x w y c d r s : literal_text v x -> literal_text w y -> stop c -> stop d -> v ++ c :: r = w ++ d :: s -> v = w /\ x = y /\ c :: r = d :: s.
Proof.
  intros A B C D E.
  assert (NS : forall t, number t -> Forall (fun c => ~ stop c) t) by (intros t N; eapply Forall_impl; [|apply number_chars, N]; intros a Ha; apply number_char_not, Ha).
  assert (NH : forall t, number t -> exists a u, t = a :: u /\ a <> "'"%char /\ a <> "N"%char /\ a <> "V"%char).
  { intros t N. destruct (number_chars t N) as (F & NE). destruct t as [|a u]; [contradiction|]. inversion F; subst. exists a, u. split; [reflexivity|]. apply number_char_not. assumption. }
  destruct A as [|t N|t P|a b N1 N2], B as [|t' N'|t' P'|a' b' N1' N2'].
  - injection E as E1 E2. subst. auto.
  - destruct (NH t' N') as (a & u & -> & Q1 & Q2 & Q3). injection E as E _. congruence.
  - discriminate E.
  - discriminate E.
  - destruct (NH t N) as (a & u & -> & Q1 & Q2 & Q3). injection E as E _. congruence.
  - destruct (split_once stop t t' c d r s (NS t N) (NS t' N') C D E) as (-> & -> & ->). auto.
  - destruct (NH t N) as (a & u & -> & Q1 & Q2 & Q3). injection E as E _. congruence.
  - destruct (NH t N) as (a & u & -> & Q1 & Q2 & Q3). injection E as E _. congruence.
  - discriminate E.
  - destruct (NH t' N') as (a & u & -> & Q1 & Q2 & Q3). injection E as E _. congruence.
  - change ("'"%char :: (t ++ lit "'") ++ c :: r = "'"%char :: (t' ++ lit "'") ++ d :: s) in E. injection E as E. rewrite <- !app_assoc in E. cbn [app lit list_ascii_of_string] in E.
    destruct (split_once (eq "'"%char) t t' "'" "'" (c :: r) (d :: s)) as (-> & _ & F); [| |reflexivity|reflexivity|exact E|auto].
    + eapply Forall_impl; [|exact P]. intros x (X & _) Q. congruence.
    + eapply Forall_impl; [|exact P']. intros x (X & _) Q. congruence.
  - discriminate E.
  - discriminate E.
  - destruct (NH t' N') as (u & u' & -> & Q1 & Q2 & Q3). injection E as E _. congruence.
  - discriminate E.
  - rewrite <- !app_assoc in E. apply app_inv_head in E. cbn [app lit list_ascii_of_string] in E.
    destruct (split_once stop a a' "," "," _ _ (NS _ N1) (NS _ N1') (or_introl eq_refl) (or_introl eq_refl) E) as (-> & _ & F). injection F as F.
    destruct (split_once stop b b' ")" ")" _ _ (NS _ N2) (NS _ N2') (or_intror eq_refl) (or_intror eq_refl) F) as (-> & _ & G). auto.
Qed.
Lemma keywords_unique t l : keywords t l -> forall t' l', keywords t' l' -> t ++ lit ")" = t' ++ lit ")" -> l = l'.
Proof.
  induction 1 as [|n v x t l I L K IH]; intros t' l' [|n' v' x' u l2 I' L' K'] E.
  - reflexivity.
  - discriminate E.
  - discriminate E.
  - rewrite <- !app_assoc in E. apply app_inv_head in E. cbn [app lit list_ascii_of_string] in E.
    assert (NI : forall m, identifier m -> Forall (fun c => ~ ("="%char = c)) m).
    { intros m (_ & F & _). eapply Forall_impl; [|exact F]. intros c Hc <-. unfold letter in Hc. cbn in Hc. lia. }
    destruct (split_once (eq "="%char) n n' "=" "=" _ _ (NI _ I) (NI _ I') eq_refl eq_refl E) as (-> & _ & F). rewrite <- ?app_assoc in F. cbn [app] in F.
    assert (ST : forall m q, keywords m q -> exists c r, m ++ lit ")" = c :: r /\ stop c).
    { intros m q [|? ? ? ? ? ? ? ?]; [exists ")"%char, []; split; [reflexivity|right; reflexivity]|eexists ","%char, _; split; [reflexivity|left; reflexivity]]. }
    destruct (ST _ _ K) as (c & r & R & C). destruct (ST _ _ K') as (d & s & S & D). cbn [lit list_ascii_of_string] in R, S. rewrite R, S in F.
    destruct (literal_unique _ _ _ _ _ _ _ _ L L' C D F) as (_ & -> & G). rewrite <- R, <- S in G. f_equal. exact (IH _ _ K' G).
Qed.
Lemma call_unique t c l c' l' : call t c l -> call t c' l' -> c = c' /\ l = l'.
Proof.
  intros (I & u & K & ->) (I' & u' & K' & E). cbn [lit list_ascii_of_string app] in E.
  assert (NI : forall m, identifier m -> Forall (fun c => ~ ("("%char = c)) m).
  { intros m (_ & F & _). eapply Forall_impl; [|exact F]. intros x Hc <-. unfold letter in Hc. cbn in Hc. lia. }
  destruct (split_once (eq "("%char) c c' "(" "(" _ _ (NI _ I) (NI _ I') eq_refl eq_refl E) as (-> & _ & F).
  injection F as F. split; [reflexivity|]. exact (keywords_unique _ _ K _ _ K' F).
Qed.

(** ** float *)
Lemma digit_ok c : digit c = true <-> is_digit c.
Proof. unfold digit, is_digit. rewrite andb_true_iff, !Nat.leb_le. tauto. Qed.
Definition ended (r : text) : Prop := match r with c :: r => ~ is_digit c /\ (c = "_"%char -> match r with d :: _ => ~ is_digit d | [] => True end) | [] => True end.
Lemma digits_from_ok : forall n t, (List.length t <= n)%nat -> exists p, t = p ++ digits_from t /\ (p = [] \/ digit_part p \/ exists q, p = "_"%char :: q /\ digit_part q) /\ ended (digits_from t).
Proof.
  assert (U : is_digit "_" -> False) by (unfold is_digit; cbn; lia).
  induction n as [|n IH]; intros [|c t] L; cbn [List.length] in L; try lia; try (exists []; cbn; auto; fail).
  cbn [digits_from]. destruct (digit c) eqn:D.
  - apply digit_ok in D. destruct (IH t) as (p & E & Q & R); [lia|]. exists (c :: p). split; [cbn; rewrite <- E; reflexivity|]. split; [|exact R]. right. left.
    destruct Q as [->|[Q|(q & -> & Q)]]; [apply digit_one|apply digit_more|apply digit_underscore]; assumption.
  - assert (N : ~ is_digit c) by (rewrite <- digit_ok; congruence). destruct (Ascii.eqb_spec c "_") as [->|X].
    + destruct t as [|d t]; [exists []; cbn; auto|]. destruct (digit d) eqn:F.
      * apply digit_ok in F. cbn [List.length] in L. destruct (IH t) as (p & E & Q & R); [lia|]. exists ("_"%char :: d :: p). split; [cbn; rewrite <- E; reflexivity|]. split; [|exact R].
        right. right. exists (d :: p). split; [reflexivity|]. destruct Q as [->|[Q|(q & -> & Q)]]; [apply digit_one|apply digit_more|apply digit_underscore]; assumption.
      * exists []. split; [reflexivity|]. split; [auto|]. split; [exact N|]. intros _. rewrite <- digit_ok. congruence.
    + exists []. split; [reflexivity|]. split; [auto|]. split; [exact N|]. contradiction.
Qed.
Lemma digits_some t r : digits t = Some r -> exists p, digit_part p /\ t = p ++ r /\ ended r.
Proof.
  unfold digits. destruct t as [|c t]; [discriminate|]. destruct (digit c) eqn:D; [|discriminate]. intro H. injection H as <-. apply digit_ok in D.
  destruct (digits_from_ok _ t (le_n _)) as (p & E & Q & R). exists (c :: p). split; [|split; [cbn; rewrite <- E; reflexivity|exact R]].
  destruct Q as [->|[Q|(q & -> & Q)]]; [apply digit_one|apply digit_more|apply digit_underscore]; assumption.
Qed.
Lemma digits_from_ended r : ended r -> digits_from r = r.
Proof.
  destruct r as [|c r]; [reflexivity|]. intros (N & U). cbn [digits_from]. destruct (digit c) eqn:D; [apply digit_ok in D; contradiction|].
  destruct (Ascii.eqb_spec c "_") as [E|X]; [|reflexivity]. specialize (U E). destruct r as [|d r]; [reflexivity|]. destruct (digit d) eqn:F; [apply digit_ok in F; contradiction|reflexivity].
Qed.
Lemma digits_complete p r : digit_part p -> ended r -> digits (p ++ r) = Some r.
Proof.
  intros P R. assert (G : digit_part p -> forall c t, p = c :: t -> is_digit c /\ digits_from (t ++ r) = r).
  { clear P. induction 1 as [d D|d t D T IH|d t D T IH]; intros c u E; injection E as <- <-; (split; [exact D|]).
    - apply digits_from_ended, R.
    - destruct T as [e E|e v E V|e v E V]; destruct (IH _ _ eq_refl) as (_ & Q); cbn [app digits_from]; rewrite (proj2 (digit_ok e) E); exact Q.
    - destruct T as [e E|e v E V|e v E V]; destruct (IH _ _ eq_refl) as (_ & Q); cbn [app digits_from]; change (digit "_") with false; change (Ascii.eqb "_" "_") with true; cbv iota;
        rewrite (proj2 (digit_ok e) E); exact Q. }
  destruct p as [|c t]; [inversion P|]. destruct (G P c t eq_refl) as (C & Q). unfold digits. cbn [app]. rewrite (proj2 (digit_ok c) C), Q. reflexivity.
Qed.
Lemma digits_none t : digits t = None -> forall p r, digit_part p -> t <> p ++ r.
Proof.
  unfold digits. intros H p r P ->. assert (G : exists c u, p = c :: u /\ is_digit c) by (destruct P; eauto). destruct G as (c & u & -> & C). cbn [app] in H.
  rewrite (proj2 (digit_ok c) C) in H. discriminate H.
Qed.
Lemma sign_ok t : exists s, (s = [] \/ s = ["+"] \/ s = ["-"])%char /\ t = s ++ sign_ t.
Proof.
  destruct t as [|c t]; [exists []; auto|]. cbn [sign_]. destruct (Ascii.eqb_spec c "+") as [->|]; [exists ["+"%char]; auto|]. destruct (Ascii.eqb_spec c "-") as [->|]; [exists ["-"%char]; auto|].
  exists []. auto.
Qed.
Lemma sign_complete s t : (s = [] \/ s = ["+"] \/ s = ["-"])%char -> (forall c u, t = c :: u -> c <> "+"%char /\ c <> "-"%char) -> sign_ (s ++ t) = t.
Proof.
  intros [->|[->| ->]] H; [|reflexivity|reflexivity]. destruct t as [|c t]; [reflexivity|]. destruct (H c t eq_refl) as (A & B). cbn.
  destruct (Ascii.eqb_spec c "+"); [contradiction|]. destruct (Ascii.eqb_spec c "-"); [contradiction|reflexivity].
Qed.
Lemma digit_part_head p : digit_part p -> exists c u, p = c :: u /\ is_digit c.
Proof. intros [c|c t|c t]; eauto. Qed.
Lemma digit_signless c : is_digit c -> c <> "+"%char /\ c <> "-"%char /\ c <> "."%char /\ c <> "e"%char /\ c <> "E"%char.
Proof. intro H. repeat split; intros ->; unfold is_digit in H; cbn in H; lia. Qed.
Lemma exponent_ok t : exponent t = true <-> exponent_part t.
Proof.
  split.
  - destruct t as [|c t]; [constructor|]. cbn [exponent]. destruct (Ascii.eqb c "e" || Ascii.eqb c "E") eqn:E; [|discriminate].
    destruct (digits (sign_ t)) as [[|d r]|] eqn:D; try discriminate. intros _. destruct (digits_some _ _ D) as (p & P & Q & _). rewrite app_nil_r in Q. destruct (sign_ok t) as (s & S & T).
    rewrite T, Q. apply exponent_some; [|exact S|exact P]. apply orb_true_iff in E as [E|E]; apply Ascii.eqb_eq in E; auto.
  - intros [|e s u E S D]; [reflexivity|]. cbn [exponent]. replace (Ascii.eqb e "e" || Ascii.eqb e "E") with true by (destruct E as [->| ->]; reflexivity).
    rewrite sign_complete; [|exact S|].
    + rewrite <- (app_nil_r u), (digits_complete u [] D Logic.I). reflexivity.
    + intros c v Q. destruct (digit_part_head u D) as (c' & v' & Q' & C). rewrite Q in Q'. injection Q' as -> _. destruct (digit_signless _ C) as (A & B & _). auto.
Qed.
Lemma exponent_ended e : exponent_part e -> ended e.
Proof. intros [|c s u E S D]; [exact Logic.I|]. split; [destruct E as [->| ->]; unfold is_digit; cbn; lia|]. intros ->. destruct E as [E|E]; discriminate E. Qed.
Lemma decimal_ok t : decimal t = true <-> decimal_text t.
Proof.
  split.
  - unfold decimal. destruct (digits t) as [[|c r]|] eqn:D.
    + intros _. destruct (digits_some _ _ D) as (p & P & -> & _). constructor; [exact P|constructor].
    + destruct (digits_some _ _ D) as (p & P & -> & _). destruct (Ascii.eqb_spec c ".") as [->|N].
      * destruct (digits r) as [r'|] eqn:F.
        -- intro E. apply exponent_ok in E. destruct (digits_some _ _ F) as (q & Q & -> & _). apply (decimal_point p q r'); auto.
        -- intro E. apply exponent_ok in E. apply (decimal_point p [] r); auto.
      * intro E. apply exponent_ok in E. apply (decimal_integer p (c :: r)); auto.
    + destruct t as [|c r]; [discriminate|]. intro H. apply andb_true_iff in H as (A & B). apply Ascii.eqb_eq in A. subst c. destruct (digits r) as [r'|] eqn:F; [|discriminate].
      apply exponent_ok in B. destruct (digits_some _ _ F) as (q & Q & -> & _). apply (decimal_only q r'); auto.
  - intros [a e A E|a b e A B E|b e B E]; unfold decimal.
    + rewrite (digits_complete a e A (exponent_ended e E)). destruct e as [|c e]; [reflexivity|]. replace (Ascii.eqb c ".") with false; [apply exponent_ok, E|].
      symmetry. apply Ascii.eqb_neq. intros ->. inversion E as [|? ? ? X]; subst. destruct X as [X|X]; discriminate X.
    + rewrite (digits_complete a _ A); [|split; [unfold is_digit; cbn; lia|discriminate]]. change (Ascii.eqb "." ".") with true. cbv iota. destruct B as [->|B].
      * cbn [app]. destruct (digits e) as [r|] eqn:F; [|apply exponent_ok, E]. destruct (digits_some _ _ F) as (p & P & Q & _). destruct (digit_part_head p P) as (c & u & -> & C).
        destruct E as [|x s v X]; [discriminate Q|]. injection Q as -> _. destruct (digit_signless _ C) as (_ & _ & _ & Y & Z). destruct X; contradiction.
      * rewrite (digits_complete b e B (exponent_ended e E)). apply exponent_ok, E.
    + destruct (digits ("."%char :: b ++ e)) as [r|] eqn:F; [discriminate F|]. change (Ascii.eqb "." ".") with true. rewrite (digits_complete b e B (exponent_ended e E)). apply exponent_ok, E.
Qed.
Lemma blank_ok c : blank c = true <-> white c.
Proof. unfold blank, white. rewrite orb_true_iff, !andb_true_iff, !Nat.leb_le. tauto. Qed.
Lemma lstrip_ok t : exists a, Forall white a /\ t = a ++ lstrip t.
Proof.
  induction t as [|c t (a & A & E)]; [exists []; auto|]. cbn [lstrip]. destruct (blank c) eqn:B; [|exists []; auto]. exists (c :: a). split; [constructor; [apply blank_ok, B|exact A]|cbn; rewrite <- E; reflexivity].
Qed.
Lemma lstrip_complete a t : Forall white a -> (forall c u, t = c :: u -> ~ white c) -> lstrip (a ++ t) = t.
Proof.
  intros A H. induction A as [|c a C A IH]; cbn [app lstrip].
  - destruct t as [|c u]; [reflexivity|]. cbn. destruct (blank c) eqn:B; [|reflexivity]. apply blank_ok in B. destruct (H c u eq_refl B).
  - rewrite (proj2 (blank_ok c) C). exact IH.
Qed.
Lemma strip_ok t : exists a b, Forall white a /\ Forall white b /\ t = a ++ strip t ++ b.
Proof.
  destruct (lstrip_ok t) as (a & A & E). destruct (lstrip_ok (rev (lstrip t))) as (b & B & F). exists a, (rev b). split; [exact A|]. split; [apply Forall_rev, B|].
  unfold strip. rewrite E at 1. f_equal. apply (f_equal (@rev ascii)) in F. rewrite rev_involutive, rev_app_distr in F. exact F.
Qed.
Lemma strip_complete a m b : Forall white a -> Forall white b -> m <> [] -> (forall c u, m = c :: u -> ~ white c) -> (forall c u, m = u ++ [c] -> ~ white c) -> strip (a ++ m ++ b) = m.
Proof.
  intros A B N H K. unfold strip. rewrite (lstrip_complete a (m ++ b) A).
  - rewrite rev_app_distr, (lstrip_complete (rev b) (rev m)); [apply rev_involutive|apply Forall_rev, B|]. intros c u E. apply (f_equal (@rev ascii)) in E. rewrite rev_involutive in E. cbn in E. exact (K c (rev u) E).
  - destruct m as [|c u]; [contradiction|]. intros d v E. injection E as <- _. exact (H c u eq_refl).
Qed.
Lemma lower_ok c d : lower c = d -> same_letter c d.
Proof.
  unfold lower, same_letter. destruct (Nat.leb 65 (nat_of_ascii c) && Nat.leb (nat_of_ascii c) 90) eqn:E; [|auto]. apply andb_true_iff in E as (A & B). apply Nat.leb_le in A, B. intros <-. right. split; [lia|].
  apply nat_ascii_embedding. lia.
Qed.
Lemma lower_complete c d : same_letter c d -> 97 <= nat_of_ascii d <= 122 -> lower c = d.
Proof.
  intros [->|(A & B)] L; unfold lower.
  - destruct (Nat.leb_spec 65 (nat_of_ascii d)), (Nat.leb_spec (nat_of_ascii d) 90); cbn; try reflexivity; lia.
  - replace (Nat.leb 65 (nat_of_ascii c) && Nat.leb (nat_of_ascii c) 90) with true by (symmetry; apply andb_true_iff; rewrite !Nat.leb_le; exact A).
    rewrite <- B. apply ascii_nat_embedding.
Qed.
(** The characters of what float accepts are not white, and the first is no sign *)
Lemma decimal_text_chars u : decimal_text u -> Forall (fun c => ~ white c) u /\ u <> [] /\ forall c v, u = c :: v -> c <> "+"%char /\ c <> "-"%char.
Proof.
  assert (DC : forall a, digit_part a -> Forall (fun c => ~ white c) a).
  { assert (W : forall c, is_digit c -> ~ white c) by (intros c; unfold is_digit, white; lia). assert (W' : ~ white "_") by (unfold white; cbn; lia).
    induction 1; repeat (constructor; auto). }
  assert (EC : forall e, exponent_part e -> Forall (fun c => ~ white c) e).
  { intros e [|c s v E S D]; [constructor|]. constructor; [destruct E as [->| ->]; unfold white; cbn; lia|]. apply Forall_app. split; [|apply DC, D].
    destruct S as [->|[->| ->]]; [constructor| |]; (constructor; [unfold white; cbn; lia|constructor]). }
  assert (DOT : ~ white ".") by (unfold white; cbn; lia).
  intros [a e A E|a b e A B E|b e B E].
  - split; [apply Forall_app; auto|]. destruct (digit_part_head a A) as (c & v & -> & C). split; [discriminate|]. intros d w Q. injection Q as <- _. destruct (digit_signless _ C) as (X & Y & _). auto.
  - split; [apply Forall_app; split; [auto|]; constructor; [exact DOT|]; apply Forall_app; split; [destruct B as [->|B]; [constructor|auto]|auto]|].
    destruct (digit_part_head a A) as (c & v & -> & C). split; [discriminate|]. intros d w Q. injection Q as <- _. destruct (digit_signless _ C) as (X & Y & _). auto.
  - split; [constructor; [exact DOT|]; apply Forall_app; auto|]. split; [discriminate|]. intros d w Q. injection Q as <- _. split; discriminate.
Qed.
Lemma word_chars u w : In w [lit "inf"; lit "infinity"; lit "nan"] -> Forall2 same_letter u w ->
  map lower u = w /\ Forall (fun c => ~ white c) u /\ u <> [] /\ forall c v, u = c :: v -> c <> "+"%char /\ c <> "-"%char.
Proof.
  intros I F. assert (L : Forall (fun d => 97 <= nat_of_ascii d <= 122) w) by (destruct I as [<-|[<-|[<-|[]]]]; repeat (constructor; [cbn; lia|]); constructor).
  assert (N : w <> []) by (destruct I as [<-|[<-|[<-|[]]]]; discriminate). clear I.
  assert (G : Forall2 (fun c d => lower c = d /\ ~ white c /\ c <> "+"%char /\ c <> "-"%char) u w).
  { clear N. induction F as [|c d u w S F IH]; [constructor|]. inversion L as [|? ? L1 L2]; subst. constructor; [|auto]. split; [apply lower_complete; assumption|].
    assert (65 <= nat_of_ascii c) by (destruct S as [->|(S & _)]; lia). split; [unfold white; lia|]. split; intros ->; cbn in H; lia. }
  split; [|split; [|split]].
  - clear -G. induction G as [|c d u w (E & _) G IH]; [reflexivity|]. cbn. rewrite E, IH. reflexivity.
  - clear -G. induction G as [|c d u w (_ & W & _) G IH]; constructor; assumption.
  - destruct G; [contradiction|discriminate].
  - intros c v ->. inversion G as [|? ? ? ? (_ & _ & X)]; subst. exact X.
Qed.
Lemma is_float_ok t : is_float t = true <-> float_text t.
Proof.
  unfold is_float. split.
  - intro H. destruct (strip_ok t) as (a & b & A & B & E). destruct (sign_ok (strip t)) as (s & S & F). exists a, s, (sign_ (strip t)), b. split; [rewrite (app_assoc s), <- F; exact E|].
    split; [exact A|]. split; [exact S|]. split; [exact B|]. apply orb_true_iff in H as [H|H]; [left; apply decimal_ok, H|]. right.
    apply existsb_exists in H as (w & I & Q). exists w. split; [exact I|]. destruct (ProofMeasure.text_eqb_spec (map lower (sign_ (strip t))) w) as [W|]; [|discriminate]. revert W. clear.
    generalize (sign_ (strip t)) as u. intros u <-. induction u as [|c u IH]; cbn; constructor; [apply lower_ok; reflexivity|exact IH].
  - intros (a & s & u & b & -> & A & S & B & U).
    assert (G : Forall (fun c => ~ white c) u /\ u <> [] /\ forall c v, u = c :: v -> c <> "+"%char /\ c <> "-"%char).
    { destruct U as [U|(w & I & F)]; [apply decimal_text_chars, U|apply (word_chars u w I F)]. }
    destruct G as (G1 & G2 & G3).
    assert (X : strip (a ++ (s ++ u) ++ b) = s ++ u).
    { assert (W : Forall (fun c => ~ white c) (s ++ u)).
      { apply Forall_app. split; [|exact G1]. destruct S as [->|[->| ->]]; [constructor| |]; (constructor; [unfold white; cbn; lia|constructor]). }
      apply strip_complete; [exact A|exact B| | |].
      - intro Q. apply app_eq_nil in Q as (_ & Q). contradiction.
      - intros c v Q. rewrite Q in W. inversion W; assumption.
      - intros c v Q. rewrite Q in W. apply Forall_app in W as (_ & W). inversion W; assumption. }
    rewrite <- app_assoc in X. rewrite X, (sign_complete s u S G3). apply orb_true_iff. destruct U as [U|(w & I & F)]; [left; apply decimal_ok, U|]. right.
    destruct (word_chars u w I F) as (Q & _). apply existsb_exists. exists w. split; [exact I|]. rewrite Q. destruct (ProofMeasure.text_eqb_spec w w); [reflexivity|contradiction].
Qed.
Lemma not_float t : is_float t = false <-> ~ float_text t.
Proof. rewrite <- is_float_ok. destruct (is_float t); split; intro H; try congruence; try discriminate; try reflexivity. Qed.

(** ** The code *)
Lemma value_text v x : stands_for v x -> literal_text (value_str v) x.
Proof.
  intros [|t N|t P|t P|t F P|t F N|a b A B]; cbn [value_str].
  - constructor.
  - constructor; exact N.
  - constructor; exact P.
  - constructor; exact P.
  - rewrite (proj2 (not_float t) F). constructor; exact P.
  - rewrite (proj2 (is_float_ok t) F). constructor; exact N.
  - constructor; assumption.
Qed.
Lemma init_args_ok k : init_args k = arguments_of k.
Proof. destruct k; reflexivity. Qed.
Definition letterb (c : ascii) : bool := let n := nat_of_ascii c in (Nat.leb 48 n && Nat.leb n 57) || (Nat.leb 65 n && Nat.leb n 90) || (Nat.leb 97 n && Nat.leb n 122) || Nat.eqb n 95.
Definition identifierb (t : text) : bool := match t with [] => false | c :: _ => forallb letterb t && negb (digit c) end.
Lemma identifierb_ok t : identifierb t = true -> identifier t.
Proof.
  destruct t as [|c t]; [discriminate|]. unfold identifierb. intro H. apply andb_true_iff in H as (F & D). split; [discriminate|]. split.
  - apply Forall_forall. intros x I. rewrite forallb_forall in F. specialize (F x I). unfold letterb in F. unfold letter.
    rewrite !orb_true_iff, !andb_true_iff, !Nat.leb_le, Nat.eqb_eq in F. lia.
  - intros d u E. injection E as <- <-. unfold digit in D. unfold is_digit. intros (A & B). apply Nat.leb_le in A, B. rewrite A, B in D. discriminate D.
Qed.
Lemma join_keywords l : join (lit ", ") (lit "sketch" :: l) = lit "sketch" ++ concat (map (fun t => lit ", " ++ t) l).
Proof.
  generalize (lit "sketch") as h. induction l as [|t l IH]; intro h; [cbn; rewrite app_nil_r; reflexivity|].
  change (join (lit ", ") (h :: t :: l)) with (h ++ lit ", " ++ join (lit ", ") (t :: l)). rewrite IH. cbn [map concat]. rewrite <- !app_assoc. reflexivity.
Qed.
Lemma code_ok k attributes values : Forall2 (fun a x => stands_for (attributes a) x) (arguments_of k) values ->
  call (to_python k attributes) (class_name k) (combine (arguments_of k) values).
Proof.
  intro H. split; [apply identifierb_ok; destruct k; reflexivity|]. unfold to_python. rewrite join_keywords, init_args_ok, map_map.
  exists (concat (map (fun a => lit ", " ++ a ++ lit "=" ++ value_str (attributes a)) (arguments_of k))). split; [|rewrite <- !app_assoc; reflexivity].
  assert (F : Forall identifier (arguments_of k)).
  { apply Forall_forall. intros a I. apply identifierb_ok. assert (G : forallb identifierb (arguments_of k) = true) by (destruct k; reflexivity). rewrite forallb_forall in G. exact (G a I). }
  induction H as [|a x l m S H IH]; [constructor|]. inversion F; subst. cbn [map concat combine]. rewrite <- !app_assoc. constructor; [assumption|apply value_text, S|auto].
Qed.
Lemma arguments_known k a : In a (arguments_of k) ->
  In a (map lit ["first_point"; "second_point"; "base_point"; "center"; "point1_line1"; "point2_line1"; "point1_line2"; "point2_line2"]%string) /\ role_of a = AsPoint \/
  In a (map lit ["x"; "y"; "length"; "angle"; "radius"; "angle1"; "length1"; "angle2"; "length2"]%string) /\ role_of a = AsExpression \/
  a = lit "name" /\ role_of a = AsName \/
  In a (map lit ["label_offset"; "line_style"; "line_color"]%string) /\ role_of a = AsGiven.
Proof.
  assert (B : forall l : list text, forallb (fun a => existsb (text_eqb a) l) l = true -> True) by auto. clear B.
  assert (M : forall (a : text) l, existsb (text_eqb a) l = true -> In a l).
  { intros b l H. apply existsb_exists in H as (x & I & E). destruct (ProofMeasure.text_eqb_spec b x) as [->|]; [exact I|discriminate]. }
  set (check := fun a => 
     (existsb (text_eqb a) (map lit ["first_point"; "second_point"; "base_point"; "center"; "point1_line1"; "point2_line1"; "point1_line2"; "point2_line2"]%string) && match role_of a with AsPoint => true | _ => false end) ||
     ((existsb (text_eqb a) (map lit ["x"; "y"; "length"; "angle"; "radius"; "angle1"; "length1"; "angle2"; "length2"]%string) && match role_of a with AsExpression => true | _ => false end) ||
     ((existsb (text_eqb a) [lit "name"] && match role_of a with AsName => true | _ => false end) ||
     (existsb (text_eqb a) (map lit ["label_offset"; "line_style"; "line_color"]%string) && match role_of a with AsGiven => true | _ => false end)))).
  intro I. assert (C : forallb check (arguments_of k) = true) by (destruct k; vm_compute; reflexivity). rewrite forallb_forall in C. specialize (C a I). unfold check in C.
  apply orb_true_iff in C as [C|C]; [|apply orb_true_iff in C as [C|C]; [|apply orb_true_iff in C as [C|C]]]; apply andb_true_iff in C as (C & D); apply M in C.
  - left. split; [exact C|]. destruct (role_of a); try discriminate D; reflexivity.
  - right. left. split; [exact C|]. destruct (role_of a); try discriminate D; reflexivity.
  - right. right. left. destruct C as [<-|[]]. split; reflexivity.
  - right. right. right. split; [exact C|]. destruct (role_of a); try discriminate D; reflexivity.
Qed.
Lemma rebuilt_ok number_str k attributes a x : constructed attributes -> In a (arguments_of k) -> stands_for (attributes a) x ->
  alike number_str (attributes a) (initialised a (evaluated number_str x)).
Proof.
  intros (P & E & (n & N) & G) I S. unfold initialised.
  destruct (arguments_known k a I) as [(J & ->)|[(J & ->)|[(J & ->)|(J & ->)]]].
  - destruct (P a J) as (m & Q). rewrite Q in *. inversion S; subst. reflexivity.
  - destruct (E a J) as (t & Q). rewrite Q in *. inversion S; subst; cbn; auto.
  - subst a. rewrite N in *. inversion S; subst. reflexivity.
  - destruct (G a J) as (G1 & G2). destruct S; cbn; try reflexivity; [destruct (G1 t eq_refl)|destruct (G2 t eq_refl)|destruct (G2 t eq_refl)].
Qed.

(** ** Code which is no call *)
Lemma peel u l n w : keywords u l -> identifier n -> u ++ lit ")" = lit ", " ++ n ++ lit "=" ++ w -> exists v x t l', literal_text v x /\ keywords t l' /\ w = v ++ t ++ lit ")".
Proof.
  intros K I E. destruct K as [|m v x t l M L K]; [discriminate E|]. rewrite <- !app_assoc in E. apply app_inv_head in E. cbn [app lit list_ascii_of_string] in E.
  assert (NI : forall m, identifier m -> Forall (fun c => ~ ("="%char = c)) m).
  { intros q (_ & F & _). eapply Forall_impl; [|exact F]. intros c Hc <-. unfold letter in Hc. cbn in Hc. lia. }
  destruct (split_once (eq "="%char) m n "=" "=" _ _ (NI _ M) (NI _ I) eq_refl eq_refl E) as (-> & _ & F). exists v, x, t, l. rewrite <- F, <- ?app_assoc. auto.
Qed.
Lemma keywords_stop m q : keywords m q -> exists c r, m ++ lit ")" = c :: r /\ stop c.
Proof. intros [|? ? ? ? ? ? ? ?]; [exists ")"%char, []; split; [reflexivity|right; reflexivity]|eexists ","%char, _; split; [reflexivity|left; reflexivity]]. Qed.
Definition tail_text (attributes : text -> attribute) (l : list text) : text := concat (map (fun a => lit ", " ++ a ++ lit "=" ++ value_str (attributes a)) l) ++ lit ")".
Lemma tail_stop attributes l : exists c r, tail_text attributes l = c :: r /\ stop c.
Proof. destruct l as [|a l]; [exists ")"%char, []; split; [reflexivity|right; reflexivity]|eexists ","%char, _; split; [reflexivity|left; reflexivity]]. Qed.
Lemma to_python_eq k attributes : to_python k attributes = class_name k ++ lit "(sketch" ++ tail_text attributes (arguments_of k).
Proof. unfold to_python, tail_text. rewrite join_keywords, init_args_ok, map_map, <- !app_assoc. reflexivity. Qed.
Lemma call_tail k attributes c l : call (to_python k attributes) c l -> exists u l', keywords u l' /\ u ++ lit ")" = tail_text attributes (arguments_of k).
Proof.
  intros (I & u & K & E). rewrite to_python_eq in E.
  assert (NI : forall m, identifier m -> Forall (fun c => ~ ("("%char = c)) m).
  { intros m (_ & F & _). eapply Forall_impl; [|exact F]. intros x Hc <-. unfold letter in Hc. cbn in Hc. lia. }
  assert (J : identifier (class_name k)) by (apply identifierb_ok; destruct k; reflexivity). cbn [lit list_ascii_of_string app] in E.
  destruct (split_once (eq "("%char) _ _ "(" "(" _ _ (NI _ J) (NI _ I) eq_refl eq_refl E) as (_ & _ & F). injection F as F. exists u, l. auto.
Qed.
Lemma identifiers k a : In a (arguments_of k) -> identifier a.
Proof. intro I. apply identifierb_ok. assert (G : forallb identifierb (arguments_of k) = true) by (destruct k; reflexivity). rewrite forallb_forall in G. exact (G a I). Qed.
(** The keywords up to an argument can be read *)
Lemma reach attributes before : forall a after, Forall identifier (before ++ a :: after) -> (forall b, In b before -> exists x, stands_for (attributes b) x) ->
  forall u l, keywords u l -> u ++ lit ")" = tail_text attributes (before ++ a :: after) ->
  exists v x t l', literal_text v x /\ keywords t l' /\ value_str (attributes a) ++ tail_text attributes after = v ++ t ++ lit ")".
Proof.
  induction before as [|b before IH]; intros a after F S u l K E; cbn [app] in *; inversion F as [|? ? F1 F2]; subst.
  - unfold tail_text in E. cbn [map concat] in E. rewrite <- !app_assoc in E. destruct (peel _ _ _ _ K F1 E) as (v & x & t & l' & L & K' & W).
    exists v, x, t, l'. split; [exact L|]. split; [exact K'|exact W].
  - unfold tail_text in E. cbn [map concat] in E. rewrite <- !app_assoc in E. destruct (peel _ _ _ _ K F1 E) as (v & x & t & l' & L & K' & W).
    destruct (S b (or_introl eq_refl)) as (y & Y). apply value_text in Y. change (value_str (attributes b) ++ tail_text attributes (before ++ a :: after) = v ++ t ++ lit ")") in W.
    destruct (tail_stop attributes (before ++ a :: after)) as (c & r & T & C). destruct (keywords_stop _ _ K') as (d & s & T' & D). rewrite T, T' in W.
    destruct (literal_unique _ _ _ _ _ _ _ _ Y L C D W) as (_ & _ & Q). rewrite <- T, <- T' in Q.
    apply (IH a after F2 (fun b I => S b (or_intror I)) t l' K'). symmetry. exact Q.
Qed.
Lemma literal_head v x : literal_text v x -> exists c u, v = c :: u /\ ~ stop c /\ c <> "n"%char.
Proof.
  intros [|t N|t P|a b A B].
  - eexists _, _. split; [reflexivity|]. split; [intros [E|E]; discriminate E|discriminate].
  - destruct (number_chars t N) as (F & NE). destruct t as [|c u]; [contradiction|]. inversion F as [|? ? H ?]; subst. exists c, u. split; [reflexivity|]. split; [apply number_char_not, H|].
    intros ->. destruct H as [(A & B)|H]; [cbn in B; lia|cbn in H; intuition discriminate].
  - eexists _, _. split; [reflexivity|]. split; [intros [E|E]; discriminate E|discriminate].
  - eexists _, _. split; [reflexivity|]. split; [intros [E|E]; discriminate E|discriminate].
Qed.
Lemma reach_call k attributes before a after c l : arguments_of k = before ++ a :: after -> (forall b, In b before -> exists x, stands_for (attributes b) x) ->
  call (to_python k attributes) c l ->
  exists v x t l', literal_text v x /\ keywords t l' /\ value_str (attributes a) ++ tail_text attributes after = v ++ t ++ lit ")".
Proof.
  intros A S H. destruct (call_tail _ _ _ _ H) as (u & l' & K & E). rewrite A in E. refine (reach attributes before a after _ S u l' K E).
  rewrite <- A. apply Forall_forall. apply identifiers.
Qed.
Lemma other_refuted k attributes before a after : arguments_of k = before ++ a :: after -> (forall b, In b before -> exists x, stands_for (attributes b) x) ->
  attributes a = VOther -> forall c l, ~ call (to_python k attributes) c l.
Proof.
  intros A S O c l H. destruct (reach_call _ _ _ _ _ _ _ A S H) as (v & x & t & l' & L & K & E). rewrite O in E. cbn [value_str app] in E.
  destruct (tail_stop attributes after) as (d & r & T & D). rewrite T in E. destruct (literal_head _ _ L) as (e & u & -> & N & _). injection E as <- _. contradiction.
Qed.
Lemma nan_refuted k attributes before a after : arguments_of k = before ++ a :: after -> (forall b, In b before -> exists x, stands_for (attributes b) x) ->
  attributes a = VExpression (lit "nan") -> forall c l, ~ call (to_python k attributes) c l.
Proof.
  intros A S O c l H. destruct (reach_call _ _ _ _ _ _ _ A S H) as (v & x & t & l' & L & K & E). rewrite O in E.
  change (value_str (VExpression (lit "nan"))) with (lit "nan") in E. destruct (literal_head _ _ L) as (e & u & -> & _ & N). injection E as E _. congruence.
Qed.
Lemma quote_refuted k attributes before a after p d q : arguments_of k = before ++ a :: after -> (forall b, In b before -> exists x, stands_for (attributes b) x) ->
  attributes a = VString (p ++ "'"%char :: d :: q) -> Forall plain_char p -> ~ stop d -> forall c l, ~ call (to_python k attributes) c l.
Proof.
  intros A S O P N c l H. destruct (reach_call _ _ _ _ _ _ _ A S H) as (v & x & t & l' & L & K & E). rewrite O in E. cbn [value_str] in E. unfold quote in E.
  rewrite <- !app_assoc in E. cbn [app lit list_ascii_of_string] in E.
  destruct L as [|y Y|y Y|y z Y Z].
  - discriminate E.
  - destruct (number_chars y Y) as (F & NE). destruct y as [|e u]; [contradiction|]. inversion F as [|? ? F1 ?]; subst. injection E as E _. destruct (number_char_not _ F1) as (_ & Q & _). congruence.
  - cbn [app lit list_ascii_of_string] in E. injection E as E. rewrite <- !app_assoc in E. cbn [app] in E.
    assert (NQ : forall m, Forall plain_char m -> Forall (fun c => ~ ("'"%char = c)) m) by (intros m; apply Forall_impl; intros e (Q & _) G; congruence).
    destruct (split_once (eq "'"%char) p y "'" "'" _ _ (NQ _ P) (NQ _ Y) eq_refl eq_refl E) as (_ & _ & F).
    destruct (keywords_stop _ _ K) as (e & r & T & D). cbn [lit list_ascii_of_string] in T. rewrite T in F. injection F as F _. congruence.
  - discriminate E.
Qed.
