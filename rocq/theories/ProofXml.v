From Coq Require Import String Ascii List Bool Arith ZArith NArith Lia.
From Verif Require Import Base ModelFormula ModelMeasure ProofMeasure ModelXml SpecXml.
Import ListNotations.

(** ** Integers *)
Lemma digit_value_digit d : (d < 10)%N -> digit_value (digit d) = Some d.
Proof.
  intro H. unfold digit_value, digit. rewrite N_ascii_embedding by lia.
  replace ((48 <=? 48 + d) && (48 + d <=? 57))%N with true; [f_equal; lia|]. symmetry. apply andb_true_intro. split; apply N.leb_le; lia.
Qed.
(** Only digits *)
Definition is_digit (c : ascii) : Prop := digit_value c <> None.
Lemma read_digits_app s acc d : Forall is_digit s -> (d < 10)%N -> read_digits acc (s ++ [digit d]) = option_map (fun n => (10 * n + d)%N) (read_digits acc s).
Proof.
  intros F D. revert acc. induction F as [|c s C F IH]; intro acc; cbn [app read_digits]; [rewrite (digit_value_digit d D); reflexivity|].
  destruct (digit_value c) as [x|] eqn:E; [apply IH|destruct (C E)].
Qed.
Lemma digits_ok fuel : forall n, (n < 2 ^ N.of_nat fuel)%N -> digits (S fuel) n <> [] /\ Forall is_digit (digits (S fuel) n) /\ read_nat (digits (S fuel) n) = Some n.
Proof.
  induction fuel as [|fuel IH]; intros n L.
  - cbn in L. assert (n = 0)%N as -> by lia. cbn. repeat split; [discriminate|repeat constructor; discriminate].
  - change (digits (S (S fuel)) n) with (if (n <? 10)%N then [digit n] else digits (S fuel) (n / 10) ++ [digit (n mod 10)]).
    destruct (N.ltb_spec n 10) as [H|H].
    + unfold read_nat. rewrite (digit_value_digit n H). repeat split; [discriminate|]. constructor; [|constructor]. unfold is_digit. rewrite (digit_value_digit n H). discriminate.
    + assert (M : (n mod 10 < 10)%N) by (apply N.mod_lt; lia).
      destruct (IH (n / 10)%N) as (N1 & F1 & R1).
      { rewrite Nat2N.inj_succ, N.pow_succ_r' in L. apply N.div_lt_upper_bound; lia. }
      split; [intro E; apply app_eq_nil in E; destruct E; discriminate|]. split.
      * apply Forall_app. split; [exact F1|]. constructor; [|constructor]. unfold is_digit. rewrite (digit_value_digit _ M). discriminate.
      * destruct (digits (S fuel) (n / 10)) as [|c s] eqn:E; [contradiction|]. inversion F1 as [|? ? C F2]; subst. unfold read_nat in *. cbn [app].
        destruct (digit_value c) as [x|] eqn:Q; [|destruct (C Q)]. rewrite (read_digits_app s x _ F2 M), R1. cbn [option_map]. f_equal.
        rewrite (N.div_mod' n 10) at 3. reflexivity.
Qed.
Lemma nat_str_ok n : nat_str n <> [] /\ Forall is_digit (nat_str n) /\ read_nat (nat_str n) = Some n.
Proof. unfold nat_str. apply digits_ok. destruct n as [|p]; [reflexivity|]. cbn [N.size_nat].
  assert (H : (Npos p < 2 ^ N.of_nat (Pos.size_nat p))%N).
  { induction p as [p IH|p IH|]; cbn [Pos.size_nat]; try reflexivity; rewrite Nat2N.inj_succ, N.pow_succ_r'; lia. }
  exact H.
Qed.
Lemma digit_range c : is_digit c -> 48 <= nat_of_ascii c <= 57.
Proof.
  unfold is_digit, digit_value. intro H. destruct ((48 <=? N_of_ascii c)%N && (N_of_ascii c <=? 57)%N) eqn:E; [|congruence].
  apply andb_prop in E. destruct E as [E1 E2]. apply N.leb_le in E1, E2. unfold nat_of_ascii. lia.
Qed.
Lemma lstrip_stop c s : is_space c = false -> lstrip (c :: s) = c :: s.
Proof. intro H. cbn. rewrite H. reflexivity. Qed.
Lemma strip_id s : (forall c, In c s -> is_space c = false) -> strip s = s.
Proof.
  intro H. unfold strip. assert (Q : forall s, (forall c, In c s -> is_space c = false) -> lstrip s = s).
  { intros [|c u] K; [reflexivity|]. apply lstrip_stop, K. left. reflexivity. }
  rewrite (Q s H), Q; [apply rev_involutive|]. intros c C. apply H. apply in_rev. exact C.
Qed.
Lemma digit_space c : is_digit c -> is_space c = false.
Proof.
  intro H. apply digit_range in H. unfold is_space. set (n := nat_of_ascii c) in *. clearbody n.
  destruct (Nat.leb_spec n 13); [lia|]. destruct (Nat.leb_spec n 32); [lia|]. destruct (Nat.eqb_spec n 133); [lia|]. destruct (Nat.eqb_spec n 160); [lia|].
  rewrite !andb_false_r. reflexivity.
Qed.
Lemma int_back z : int_parse (int_str z) = Ok z.
Proof.
  destruct z as [|p|p]; [reflexivity| |].
  - cbn [int_str]. destruct (nat_str_ok (Npos p)) as (N & F & R). unfold int_parse. rewrite strip_id.
    2:{ intros c C. apply digit_space. rewrite Forall_forall in F. exact (F c C). }
    destruct (nat_str (Npos p)) as [|c s]; [contradiction|]. inversion F as [|? ? C _]; subst. apply digit_range in C.
    destruct (Ascii.eqb_spec c "-"%char) as [->|_]; [cbn in C; lia|]. destruct (Ascii.eqb_spec c "+"%char) as [->|_]; [cbn in C; lia|].
    rewrite R. reflexivity.
  - cbn [int_str]. destruct (nat_str_ok (Npos p)) as (N & F & R). unfold int_parse. rewrite strip_id.
    2:{ intros c [<-|C]; [reflexivity|]. apply digit_space. rewrite Forall_forall in F. exact (F c C). }
    change (lit "-" ++ nat_str (Npos p)) with ("-"%char :: nat_str (Npos p)). cbn [Ascii.eqb]. rewrite R. reflexivity.
Qed.
Lemma int_str_chars z c : In c (int_str z) -> 45 <= nat_of_ascii c.
Proof.
  intro H. assert (Q : forall n, In c (nat_str n) -> 45 <= nat_of_ascii c).
  { intros n C. destruct (nat_str_ok n) as (_ & F & _). rewrite Forall_forall in F. specialize (F c C). apply digit_range in F. lia. }
  destruct z as [|p|p]; cbn [int_str] in H; [destruct H as [<-|[]]; cbn; lia|exact (Q _ H)|].
  apply in_app_or in H. destruct H as [[<-|[]]|H]; [cbn; lia|exact (Q _ H)].
Qed.

(** ** Splitting *)
Lemma split_none sep s : ~ In sep s -> split sep s = [s].
Proof.
  induction s as [|c s IH]; intro N; [reflexivity|]. cbn. destruct (Ascii.eqb_spec c sep) as [->|_]; [destruct N; left; reflexivity|].
  rewrite IH; [reflexivity|]. intro H. apply N. right. exact H.
Qed.
Lemma split_first sep s t : ~ In sep s -> split sep (s ++ sep :: t) = s :: split sep t.
Proof.
  induction s as [|c s IH]; intro N; cbn; [rewrite Ascii.eqb_refl; reflexivity|].
  destruct (Ascii.eqb_spec c sep) as [->|_]; [destruct N; left; reflexivity|]. rewrite IH; [reflexivity|]. intro H. apply N. right. exact H.
Qed.
Lemma split_joined sep l : l <> [] -> Forall (fun s => ~ In sep s) l -> split sep (join [sep] l) = l.
Proof.
  induction l as [|a l IH]; [contradiction|]. intros _ N. inversion N as [|? ? N1 N2]; subst. destruct l as [|b l]; [apply split_none, N1|].
  change (join [sep] (a :: b :: l)) with (a ++ sep :: join [sep] (b :: l)). rewrite (split_first sep a _ N1), IH; [reflexivity|discriminate|exact N2].
Qed.
Lemma contains_spec c s : contains c s = true <-> In c s.
Proof.
  unfold contains. rewrite existsb_exists. split; [intros (x & X & E); destruct (Ascii.eqb_spec c x); [subst; exact X|discriminate]|].
  intro H. exists c. split; [exact H|apply Ascii.eqb_refl].
Qed.
Lemma in_join c sep l : In c (join sep l) -> In c sep \/ exists s, In s l /\ In c s.
Proof.
  induction l as [|a l IH]; [intros []|]. destruct l as [|b l]; [intro H; right; exists a; split; [left; reflexivity|exact H]|].
  change (join sep (a :: b :: l)) with (a ++ sep ++ join sep (b :: l)). intro H. apply in_app_or in H. destruct H as [H|H].
  - right. exists a. split; [left; reflexivity|exact H].
  - apply in_app_or in H. destruct H as [H|H]; [left; exact H|]. destruct (IH H) as [K|(s & Hs & K)]; [left; exact K|right; exists s; split; [right; exact Hs|exact K]].
Qed.

Section Proofs.
Context {float : Type} (float_str : float -> text) (float_parse : text -> result float)
  (float_of_int : Z -> result float) (int_of_float : float -> result Z) (float_truth : float -> bool).
Hypothesis Hf : faithful float_str float_parse.
Notation value := (value float).
Notation attribute := (attribute float).
Notation from := (from_xml float float_str float_parse float_of_int int_of_float).
Notation to := (to_xml float float_str float_truth).
Notation write := (object_to_xml float float_str float_truth).
Notation attrs := (attributes_of float float_str float_truth).
Notation read := (read_object float float_str float_parse float_of_int int_of_float).
Notation init := (init_from_xml float float_str float_parse float_of_int int_of_float).
Notation get := (get_attribute float).

Lemma traverse_floats l : traverse float_parse (map float_str l) = Ok l.
Proof. induction l as [|x l IH]; [reflexivity|]. cbn. rewrite (f_back _ _ Hf). cbn. rewrite IH. reflexivity. Qed.
Lemma value_back k v : suits k v -> exists s, to k v = Ok s /\ from k (VStr _ s) = Ok v /\ xml_text s.
Proof.
  destruct k, v; cbn [suits]; intro H; try contradiction.
  - destruct b; [exists (lit "true")|exists (lit "false")]; (split; [reflexivity|]; split; [reflexivity|]); intros c C; left; cbn in C; repeat (destruct C as [<-|C]; [cbn; lia|]); contradiction.
  - exists (int_str z). split; [reflexivity|]. split; [cbn; rewrite int_back; reflexivity|]. intros c C. left. apply int_str_chars in C. lia.
  - exists (float_str x). split; [reflexivity|]. split; [cbn; rewrite (f_back _ _ Hf); reflexivity|]. intros c C. left. apply (f_word _ _ Hf) in C. lia.
  - exists (join (lit " ") (map float_str l)). split; [reflexivity|]. split.
    + cbn [from_xml].
      assert (NS : Forall (fun s => ~ In " "%char s) (map float_str l)).
      { apply Forall_forall. intros s Hs C. apply in_map_iff in Hs. destruct Hs as (x & <- & _). apply (f_word _ _ Hf) in C. cbn in C. lia. }
      destruct l as [|x [|y l]]; [contradiction| |].
      * cbn [map join]. destruct (text_eqb_spec (float_str x) (lit "none")) as [E|_]; [destruct (f_none _ _ Hf x E)|].
        destruct (contains " "%char (float_str x)) eqn:C; [apply contains_spec in C; apply (f_word _ _ Hf) in C; cbn in C; lia|].
        destruct (contains ","%char (float_str x)) eqn:C2; [|rewrite (f_back _ _ Hf); reflexivity].
        exfalso. pose proof (f_comma _ _ Hf x) as Q. apply contains_spec in C2. contradiction.
      * assert (C : contains " "%char (join (lit " ") (map float_str (x :: y :: l))) = true).
        { apply contains_spec. change (join (lit " ") (map float_str (x :: y :: l))) with (float_str x ++ lit " " ++ join (lit " ") (map float_str (y :: l))).
          apply in_or_app. right. left. reflexivity. }
        rewrite C. destruct (text_eqb_spec (join (lit " ") (map float_str (x :: y :: l))) (lit "none")) as [E|_].
        { exfalso. rewrite E in C. discriminate. }
        change (lit " ") with [" "%char]. rewrite (split_joined " "%char) by (first [discriminate|exact NS]). rewrite traverse_floats. reflexivity.
    + intros c C. left. apply in_join in C. destruct C as [[<-|[]]|(s & Hs & C)]; [cbn; lia|].
      apply in_map_iff in Hs. destruct Hs as (x & <- & _). apply (f_word _ _ Hf) in C. lia.
  - exists s. split; [reflexivity|]. split; [reflexivity|exact H].
Qed.
Lemma suits_some k v : suits k v -> v <> VNone float.
Proof. destruct k, v; cbn; intros H E; try discriminate; contradiction. Qed.

(** ** Writing *)
Definition fine (i : instance float) (a : attribute) : Prop :=
  exists v, get i a = Ok v /\ (suits (a_kind _ a) v \/ v = VNone _ /\ a_default _ a = VNone _).
Lemma attrs_ok i table : (forall a, In a table -> fine i a) -> forall e0, (forall p, In p e0 -> xml_text (snd p)) ->
  exists e, attrs table i e0 = Ok e /\ (forall p, In p e -> xml_text (snd p)) /\
  forall name,
    (lookup e name = lookup e0 name /\ forall a, In a table -> a_xml _ a = name -> get i a = Ok (VNone _)) \/
    (exists a v s, In a table /\ a_xml _ a = name /\ get i a = Ok v /\ suits (a_kind _ a) v /\ to (a_kind _ a) v = Ok s /\ lookup e name = Some s).
Proof.
  induction table as [|a table IH]; intros F e0 X0.
  - exists e0. split; [reflexivity|]. split; [exact X0|]. intro name. left. split; [reflexivity|intros a []].
  - destruct (F a (or_introl eq_refl)) as (v & G & D).
    assert (F' : forall b, In b table -> fine i b) by (intros b B; apply F; right; exact B).
    cbn [attributes_of]. rewrite G. cbn [bind]. destruct D as [D|[-> D]].
    + destruct (value_back _ v D) as (s & T & _ & Xs). destruct (IH F' (set_item e0 (a_xml _ a) s)) as (e & E & X & L).
      { intros p P. assert (Q : In p e0 \/ snd p = s). { clear - P. induction e0 as [|[k y] l IHl]; cbn in P; [destruct P as [<-|[]]; right; reflexivity|].
          destruct (text_eqb k (a_xml _ a)); destruct P as [<-|P]; [right; reflexivity|left; right; exact P|left; left; reflexivity|].
          destruct (IHl P); [left; right; assumption|right; assumption]. }
        destruct Q as [Q| ->]; [exact (X0 p Q)|exact Xs]. }
      exists e. split; [destruct v; try (rewrite T; cbn [bind]; exact E); destruct (suits_some _ _ D eq_refl)|]. split; [exact X|].
      intro name. destruct (L name) as [[L1 L2]|(b & w & s' & B & R)].
      * rewrite lookup_set in L1. destruct (text_eqb_spec (a_xml _ a) name) as [En|En].
        -- right. exists a, v, s. split; [left; reflexivity|]. auto.
        -- left. split; [exact L1|]. intros b [<-|B] Eb; [contradiction|exact (L2 b B Eb)].
      * right. exists b, w, s'. split; [right; exact B|exact R].
    + destruct (IH F' e0 X0) as (e & E & X & L). exists e. split; [exact E|]. split; [exact X|]. intro name.
      destruct (L name) as [[L1 L2]|(b & w & s' & B & R)]; [left|right; exists b, w, s'; split; [right; exact B|exact R]].
      split; [exact L1|]. intros b [<-|B] Eb; [exact G|exact (L2 b B Eb)].
Qed.
(** ** Reading *)
Lemma init_ok (val : attribute -> value) table e : (forall a, In a table ->
    match lookup e (a_xml _ a) with Some s => from (a_kind _ a) (VStr _ s) | None => Ok (a_default _ a) end = Ok (val a)) ->
  forall i, exists i', init table e i = Ok i' /\
    (forall a, In a table -> exists b, In b table /\ a_py _ b = a_py _ a /\ lookup i' (a_py _ a) = Some (val b)) /\
    (forall py, (forall a, In a table -> a_py _ a <> py) -> lookup i' py = lookup i py).
Proof.
  induction table as [|a table IH]; intros R i.
  - exists i. split; [reflexivity|]. split; [intros a []|reflexivity].
  - cbn [init_from_xml]. rewrite (R a (or_introl eq_refl)). cbn [bind].
    destruct (IH ltac:(intros b B; apply R; right; exact B) (set_item i (a_py _ a) (val a))) as (i' & E & L & K).
    exists i'. split; [exact E|]. split.
    + intros b [<-|B].
      * destruct (in_dec (list_eq_dec ascii_dec) (a_py _ a) (map (a_py _) table)) as [H|H].
        -- apply in_map_iff in H. destruct H as (b & Eb & B). destruct (L b B) as (c & C & Ec & Lc). exists c. rewrite Eb in Ec, Lc. split; [right; exact C|auto].
        -- exists a. split; [left; reflexivity|]. split; [reflexivity|]. rewrite K, lookup_set.
           ++ destruct (text_eqb_spec (a_py _ a) (a_py _ a)); [reflexivity|congruence].
           ++ intros c C Ec. apply H. rewrite <- Ec. apply in_map, C.
      * destruct (L b B) as (c & C & R'). exists c. split; [right; exact C|exact R'].
    + intros py N. rewrite K, lookup_set.
      * destruct (text_eqb_spec (a_py _ a) py) as [Q|_]; [destruct (N a (or_introl eq_refl) Q)|reflexivity].
      * intros b B. apply N. right. exact B.
Qed.
Lemma xml_char_spec s : xml_text s -> forallb xml_char s = true.
Proof.
  intro H. apply forallb_forall. intros c C. specialize (H c C). unfold xml_char. destruct H as [H|[H|[H|[H|[]]]]].
  - apply Nat.leb_le in H. rewrite H. reflexivity.
  - rewrite <- H. reflexivity.
  - rewrite <- H. reflexivity.
  - rewrite <- H. reflexivity.
Qed.
Lemma round_trip_ok table i : consistent table -> (forall a, In a table -> fine i a) ->
  exists e i', write table i = Ok e /\ read table e = Ok i' /\
    forall a, In a table -> get i' a = get i a /\ (lookup e (a_xml _ a) = None <-> get i a = Ok (VNone _)).
Proof.
  intros C F. destruct (attrs_ok i table F []) as (e & E & X & L); [intros p []|].
  assert (V : exists val : attribute -> value, forall a, In a table -> get i a = Ok (val a)).
  { exists (fun a => match get i a with Ok v => v | Raise _ => VNone _ end). intros a A. destruct (F a A) as (v & G & _). rewrite G. reflexivity. }
  destruct V as (val & V).
  assert (R : forall a, In a table -> match lookup e (a_xml _ a) with Some s => from (a_kind _ a) (VStr _ s) | None => Ok (a_default _ a) end = Ok (val a) /\
    (lookup e (a_xml _ a) = None <-> get i a = Ok (VNone _))).
  { intros a A. destruct (L (a_xml _ a)) as [[L1 L2]|(b & v & s & B & Eb & G & Sv & T & L1)].
    - cbn in L1. rewrite L1. specialize (L2 a A eq_refl). split; [|split; [intros _; exact L2|reflexivity]].
      destruct (F a A) as (v & G & D). rewrite G in L2. injection L2 as ->. destruct D as [D|[_ D]]; [destruct (suits_some _ _ D eq_refl)|].
      rewrite D. rewrite (V a A) in G. injection G as ->. reflexivity.
    - assert (b = a) as -> by (apply (C b a B A); right; exact Eb). rewrite L1.
      destruct (value_back _ v Sv) as (s' & T' & B' & _). rewrite T in T'. injection T' as <-. rewrite (V a A) in G. injection G as G. subst v.
      split; [exact B'|]. split; [discriminate|]. intro G'. exfalso. rewrite (V a A) in G'. injection G' as G'. exact (suits_some _ _ Sv G'). }
  destruct (init_ok val table e (fun a A => proj1 (R a A)) []) as (i' & I' & L' & _).
  exists e, i'. split; [|split; [exact I'|]].
  - unfold object_to_xml. rewrite E. cbn [bind]. unfold check_element. replace (forallb _ e) with true; [reflexivity|].
    symmetry. apply forallb_forall. intros p P. apply xml_char_spec, X, P.
  - intros a A. split; [|apply (R a A)]. destruct (L' a A) as (b & B & Eb & Lb). assert (b = a) as -> by (apply (C b a B A); left; exact Eb).
    unfold get_attribute at 1. rewrite Lb. symmetry. exact (V a A).
Qed.
End Proofs.
