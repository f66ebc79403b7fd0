From Coq Require Import String Ascii List Bool Arith ZArith Lia.
From Verif Require Import Base ModelFormula ModelMeasure ModelDate SpecDate ProofMeasure.
From Verif Require ModelXml ProofXml.
Import ListNotations.

(** ** The expressions *)
Definition agrees (a : list (ascii -> bool)) (m : text) : Prop := Forall2 (fun p c => p c = true) a m.
Definition matches (p : part) (m : text) : Prop := exists a, In a p /\ agrees a m.
Lemma prefix_sound a : forall s m r, prefix a s = Some (m, r) -> s = m ++ r /\ agrees a m.
Proof.
  induction a as [|p a IH]; intros s m r H; cbn in H.
  - injection H as <- <-. split; [reflexivity|constructor].
  - destruct s as [|c s]; [discriminate H|]. destruct (p c) eqn:P; [|discriminate H]. destruct (prefix a s) as [[m' r']|] eqn:E; [|discriminate H].
    injection H as <- <-. destruct (IH _ _ _ E) as [-> A]. split; [reflexivity|constructor; assumption].
Qed.
Lemma prefix_complete a m r : agrees a m -> prefix a (m ++ r) = Some (m, r).
Proof. induction 1 as [|p c a m P A IH]; [reflexivity|]. cbn. rewrite P, IH. reflexivity. Qed.
Lemma search_sound l : forall s ms r, search l s = Some (ms, r) -> s = concat ms ++ r /\ Forall2 matches l ms.
Proof.
  induction l as [|p l IH]; intros s ms r H; [injection H as <- <-; split; [reflexivity|constructor]|].
  assert (G : s = concat ms ++ r /\ exists m ms', ms = m :: ms' /\ matches p m /\ Forall2 matches l ms').
  { cbn in H. revert H. enough (forall q, (forall a, In a q -> In a p) ->
      (fix alternatives (p : part) : option (list text * text) :=
         match p with [] => None | a :: p => match prefix a s with
             | Some (m, r) => match search l r with Some (ms, r) => Some (m :: ms, r) | None => alternatives p end
             | None => alternatives p end end) q = Some (ms, r) ->
      s = concat ms ++ r /\ exists m ms', ms = m :: ms' /\ matches p m /\ Forall2 matches l ms') as G by (intros H; exact (G p (fun a I => I) H)).
    induction q as [|a q IHq]; intros I H; [discriminate H|]. destruct (prefix a s) as [[m r']|] eqn:E.
    - destruct (search l r') as [[ms' r'']|] eqn:E'.
      + injection H as <- <-. destruct (prefix_sound _ _ _ _ E) as [-> A]. destruct (IH _ _ _ E') as [-> F].
        split; [cbn; now rewrite app_assoc|]. exists m, ms'. repeat split; auto. exists a. split; [apply I; now left|exact A].
      + apply IHq; [intros b B; apply I; now right|exact H].
    - apply IHq; [intros b B; apply I; now right|exact H]. }
  destruct G as [-> (m & ms' & -> & M & F)]. split; [reflexivity|constructor; assumption].
Qed.
Lemma search_complete l : forall ms r, Forall2 matches l ms -> exists out, search l (concat ms ++ r) = Some out.
Proof.
  induction l as [|p l IH]; intros ms r F; inversion F as [|? m ? ms' M F' E1 E2]; subst; [eexists; reflexivity|].
  destruct M as (a & I & A). destruct (IH ms' r F') as [out' O]. cbn. rewrite <- app_assoc. set (s := m ++ concat ms' ++ r).
  clear IH F F'. induction p as [|b p IHp]; [destruct I|]. destruct I as [->|I].
  - unfold s at 1. rewrite (prefix_complete _ _ _ A). rewrite O. destruct out'. eexists. reflexivity.
  - destruct (prefix b s) as [[m' r']|]; [destruct (search l r') as [[]|]; [eexists; reflexivity|]|]; exact (IHp I).
Qed.

(** ** Characters *)
Lemma range_spec (x y c : ascii) : range (String x "") (String y "") c = true <-> nat_of_ascii x <= nat_of_ascii c <= nat_of_ascii y.
Proof. cbn. rewrite andb_true_iff, !Nat.leb_le. reflexivity. Qed.
Lemma code_inj a b : nat_of_ascii a = nat_of_ascii b -> a = b.
Proof. intros H. rewrite <- (ascii_nat_embedding a), <- (ascii_nat_embedding b), H. reflexivity. Qed.
Definition decimal (c : ascii) : Prop := 48 <= nat_of_ascii c <= 57.
Definition inner (c : ascii) : Prop := decimal c \/ nat_of_ascii c = 32.
Definition decimal_value (c : ascii) : Z := (Z.of_nat (nat_of_ascii c) - 48)%Z.
Lemma digit_code d : d < 10 -> nat_of_ascii (ascii_of_nat (48 + d)) = 48 + d.
Proof. intros H. apply nat_ascii_embedding. lia. Qed.

(** The value of digits *)
Definition valued (t : text) : Z := fold_left (fun n c => (10 * n + decimal_value c)%Z) t 0%Z.
Lemma valued_snoc t c : valued (t ++ [c]) = (10 * valued t + decimal_value c)%Z.
Proof. unfold valued. rewrite fold_left_app. reflexivity. Qed.
Lemma numeral_iff t z : numeral t z <-> t <> [] /\ Forall decimal t /\ z = valued t.
Proof.
  split.
  - induction 1 as [d D|t z d N (NE & F & ->) D].
    + repeat split; [discriminate|constructor; [unfold decimal; rewrite digit_code by exact D; lia|constructor]|].
      unfold valued; cbn [fold_left]. unfold decimal_value. rewrite digit_code by exact D. lia.
    + repeat split; [destruct t; discriminate|apply Forall_app; split; [exact F|constructor; [unfold decimal; rewrite digit_code by exact D; lia|constructor]]|].
      rewrite valued_snoc. unfold decimal_value. rewrite digit_code by exact D. lia.
  - intros (NE & F & ->). revert NE F. induction t as [|c t IH] using rev_ind; intros NE F; [now destruct NE|].
    apply Forall_app in F. destruct F as [F C]. apply Forall_inv in C. unfold decimal in C.
    assert (E : c = ascii_of_nat (48 + (nat_of_ascii c - 48))) by (rewrite <- (ascii_nat_embedding c) at 1; f_equal; lia).
    rewrite valued_snoc. assert (V : decimal_value c = Z.of_nat (nat_of_ascii c - 48)) by (unfold decimal_value; lia). rewrite V.
    rewrite E at 1. destruct t as [|b t].
    + apply (num_one (nat_of_ascii c - 48)). lia.
    + apply num_more; [apply IH; [discriminate|exact F]|lia].
Qed.
Lemma number_valued t : Forall decimal t -> number t = valued t.
Proof.
  unfold number, valued. generalize 0%Z. induction t as [|c t IH]; intros n F; [reflexivity|]. cbn [fold_left].
  destruct (Ascii.eqb_spec c " ") as [->|N]; [apply Forall_inv in F; unfold decimal in F; cbn in F; lia|].
  apply IH. exact (Forall_inv_tail F).
Qed.
Lemma valued_bound t : Forall decimal t -> (0 <= valued t < 10 ^ Z.of_nat (length t))%Z.
Proof.
  induction t as [|c t IH] using rev_ind; intros F; [cbn; lia|]. apply Forall_app in F. destruct F as [F C]. apply Forall_inv in C.
  specialize (IH F). rewrite valued_snoc, app_length. cbn [length]. rewrite Nat2Z.inj_add, Z.pow_add_r by lia. unfold decimal_value, decimal in *. lia.
Qed.

(** ** The fields *)
Ltac agree := repeat match goal with
  | H : agrees _ _ |- _ => unfold agrees in H
  | H : Forall2 _ [] _ |- _ => inversion H; subst; clear H
  | H : Forall2 _ (_ :: _) _ |- _ => inversion H; subst; clear H
  end.
Ltac chars := unfold one, any_digit in *; repeat match goal with
  | H : context [range (String ?x "") (String ?y "") ?c = true] |- _ => rewrite (range_spec x y c) in H; cbn [nat_of_ascii] in H
  | |- context [range (String ?x "") (String ?y "") ?c = true] => rewrite (range_spec x y c)
  end.
Ltac codes := repeat match goal with |- context [nat_of_ascii (Ascii ?a ?b ?c ?d ?e ?f ?g ?h)] =>
    let v := eval vm_compute in (nat_of_ascii (Ascii a b c d e f g h)) in change (nat_of_ascii (Ascii a b c d e f g h)) with v
  | H : context [nat_of_ascii (Ascii ?a ?b ?c ?d ?e ?f ?g ?h)] |- _ =>
    let v := eval vm_compute in (nat_of_ascii (Ascii a b c d e f g h)) in change (nat_of_ascii (Ascii a b c d e f g h)) with v in H
  end.
Ltac field := chars; codes; unfold decimal, decimal_value in *; try lia.
Ltac letters := unfold agrees; repeat first [apply Forall_nil | apply Forall2_nil | apply Forall_cons; [field|] | apply Forall2_cons; [field|]].

Lemma year_spec m : matches year m <-> length m = 4 /\ Forall decimal m.
Proof.
  split.
  - intros (a & I & A). destruct I as [<-|[]]. agree. split; [reflexivity|]. letters.
  - intros [L F]. destruct m as [|c1 [|c2 [|c3 [|c4 [|]]]]]; try discriminate L. eexists. split; [left; reflexivity|].
    repeat match goal with H : Forall _ (_ :: _) |- _ => inversion H; subst; clear H end. letters.
Qed.
Lemma two_chars (m : text) : m <> [] -> length m <= 2 -> exists c, m = [c] \/ exists d, m = [c; d].
Proof. destruct m as [|c [|d [|e m]]]; intros N L; [now destruct N|exists c; now left|exists c; right; now exists d|cbn in L; lia]. Qed.
Ltac inv_forall := repeat match goal with H : Forall _ (_ :: _) |- _ => inversion H; subst; clear H | H : Forall _ [] |- _ => clear H end.
Ltac alternatives I := cbn [In month day hour minute second year] in I; repeat (destruct I as [<-|I]); [..|destruct I].
Ltac shape := split; [discriminate|split; [cbn; lia|split; [letters|]]]; unfold valued; cbn [fold_left]; field.
Lemma month_spec m : matches month m <-> m <> [] /\ length m <= 2 /\ Forall decimal m /\ (1 <= valued m <= 12)%Z.
Proof.
  split.
  - intros (a & I & A). alternatives I; agree; shape.
  - intros (N & L & F & V). destruct (two_chars m N L) as (c & [->|(d & ->)]); unfold valued in V; cbn [fold_left] in V; inv_forall; unfold decimal, decimal_value in *.
    + eexists. split; [right; right; left; reflexivity|]. letters.
    + destruct (Nat.eq_dec (nat_of_ascii c) 48); [eexists; split; [right; left; reflexivity|]|eexists; split; [left; reflexivity|]]; letters.
Qed.
Lemma hour_spec m : matches hour m <-> m <> [] /\ length m <= 2 /\ Forall decimal m /\ (0 <= valued m <= 23)%Z.
Proof.
  split.
  - intros (a & I & A). alternatives I; agree; shape.
  - intros (N & L & F & V). destruct (two_chars m N L) as (c & [->|(d & ->)]); unfold valued in V; cbn [fold_left] in V; inv_forall; unfold decimal, decimal_value in *.
    + eexists. split; [right; right; left; reflexivity|]. letters.
    + destruct (Nat.eq_dec (nat_of_ascii c) 50); [eexists; split; [left; reflexivity|]|eexists; split; [right; left; reflexivity|]]; letters.
Qed.
Lemma minute_spec m : matches minute m <-> m <> [] /\ length m <= 2 /\ Forall decimal m /\ (0 <= valued m <= 59)%Z.
Proof.
  split.
  - intros (a & I & A). alternatives I; agree; shape.
  - intros (N & L & F & V). destruct (two_chars m N L) as (c & [->|(d & ->)]); unfold valued in V; cbn [fold_left] in V; inv_forall; unfold decimal, decimal_value in *.
    + eexists. split; [right; left; reflexivity|]. letters.
    + eexists; split; [left; reflexivity|]; letters.
Qed.
Lemma second_spec m : matches second m <-> m <> [] /\ length m <= 2 /\ Forall decimal m /\ (0 <= valued m <= 61)%Z.
Proof.
  split.
  - intros (a & I & A). alternatives I; agree; shape.
  - intros (N & L & F & V). destruct (two_chars m N L) as (c & [->|(d & ->)]); unfold valued in V; cbn [fold_left] in V; inv_forall; unfold decimal, decimal_value in *.
    + eexists. split; [right; right; left; reflexivity|]. letters.
    + destruct (Nat.eq_dec (nat_of_ascii c) 54); [eexists; split; [left; reflexivity|]|eexists; split; [right; left; reflexivity|]]; letters.
Qed.
(** The day, without its space *)
Definition is_day (m : text) : Prop := m <> [] /\ length m <= 2 /\ Forall decimal m /\ (1 <= valued m <= 31)%Z.
Lemma day_spec m : matches day m <-> is_day m \/ exists c, m = [" "%char; c] /\ is_day [c].
Proof.
  unfold is_day. split.
  - intros (a & I & A). alternatives I; agree; [left; shape..|right].
    match goal with H : one " " ?x = true |- _ => assert (x = " "%char) by (apply code_inj; field); subst end.
    eexists. split; [reflexivity|shape].
  - intros [(N & L & F & V)|(c & -> & N & L & F & V)].
    + destruct (two_chars m N L) as (c & [->|(d & ->)]); unfold valued in V; cbn [fold_left] in V; inv_forall; unfold decimal, decimal_value in *.
      * eexists. split; [right; right; right; left; reflexivity|]. letters.
      * destruct (Nat.eq_dec (nat_of_ascii c) 48); [eexists; split; [right; right; left; reflexivity|]; letters|].
        destruct (Nat.eq_dec (nat_of_ascii c) 51); [eexists; split; [left; reflexivity|]|eexists; split; [right; left; reflexivity|]]; letters.
    + unfold valued in V; cbn [fold_left] in V; inv_forall. eexists. split; [do 4 right; left; reflexivity|]. letters.
Qed.
Lemma agrees_digits n m : agrees (repeat any_digit n) m <-> length m = n /\ Forall decimal m.
Proof.
  revert m. induction n as [|n IH]; intros m; cbn; split.
  - intros A. inversion A. now split.
  - intros [L _]. destruct m; [constructor|discriminate L].
  - intros A. inversion A as [|? ? ? ? P A']; subst. apply IH in A'. destruct A' as [<- F]. split; [reflexivity|]. constructor; [field|exact F].
  - intros [L F]. destruct m as [|c m]; [discriminate L|]. inv_forall. constructor; [field|]. apply IH. split; [now injection L|assumption].
Qed.
Lemma fraction_spec m : matches fraction m <-> m <> [] /\ length m <= 6 /\ Forall decimal m.
Proof.
  unfold matches, fraction. split.
  - intros (a & I & A). apply in_map_iff in I. destruct I as (n & <- & I). apply agrees_digits in A. destruct A as [<- F].
    assert (1 <= length m <= 6) by (cbn in I; intuition lia). repeat split; [destruct m; [cbn in *; lia|discriminate]|lia|exact F].
  - intros (N & L & F). exists (repeat any_digit (length m)). split; [|apply agrees_digits; now split]. apply in_map.
    destruct m as [|c m]; [now destruct N|]. cbn [length] in *. cbn [In]. lia.
Qed.
Lemma mark_spec x y m : matches (mark (String x "") (String y "")) m <-> m = [x] \/ m = [y].
Proof.
  unfold matches, mark. split.
  - intros (a & [<-|[]] & A). agree. apply orb_true_iff in H1. destruct H1 as [H|H]; [left|right]; f_equal; apply code_inj; unfold one in H; apply range_spec in H; lia.
  - intros H. eexists. split; [left; reflexivity|]. destruct H as [->| ->]; repeat constructor; apply orb_true_iff; [left|right]; unfold one; apply range_spec; lia.
Qed.
