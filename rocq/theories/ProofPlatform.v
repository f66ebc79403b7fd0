(** Lemmas for C150 and C151. *)
From Coq Require Import String Ascii List Bool Arith ZArith Lia.
From Verif Require Import Base ModelFormula ModelFiles ModelYaml ModelPlatform SpecPlatform ProofFiles.
From Verif Require Import ProofXml.
From Verif Require ModelXml ModelMeasure ProofMeasure.
Import ListNotations.

Lemma starts_iff p s : starts p s = true <-> exists r, s = p ++ r.
Proof.
  revert s. induction p as [|a p IH]; intros s; cbn [starts]; [split; [intros _; exists s; reflexivity|reflexivity]|]. destruct s as [|b s]; [split; [discriminate|intros [r R]; discriminate]|].
  destruct (Ascii.eqb a b) eqn:E; cbn [andb].
  - apply Ascii.eqb_eq in E as <-. rewrite IH. split; intros [r R]; exists r; [rewrite R; reflexivity|injection R; auto].
  - split; [discriminate|]. intros [r R]. injection R as -> _. rewrite Ascii.eqb_refl in E. discriminate.
Qed.
Lemma find_iff p s : (exists k, ModelFormula.find p s = Some k) <-> mentions p s.
Proof.
  induction s as [|c s IH]; cbn [ModelFormula.find].
  - destruct (starts p []) eqn:E.
    + split; [|eauto]. intros _. apply starts_iff in E as [r E]. exists [], r. exact E.
    + split; [intros [k K]; discriminate|]. intros (a & b & H). symmetry in H. apply app_eq_nil in H as [-> H]. apply app_eq_nil in H as [-> ->]. discriminate.
  - destruct (starts p (c :: s)) eqn:E.
    + split; [|eauto]. intros _. apply starts_iff in E as [r E]. exists [], r. exact E.
    + split.
      * intros [k K]. destruct (ModelFormula.find p s) as [j|]; [|discriminate]. destruct (proj1 IH (ex_intro _ j eq_refl)) as (a & b & ->). exists (c :: a), b. reflexivity.
      * intros ([|x a] & b & H); [enough (starts p (c :: s) = true) by congruence; apply starts_iff; exists b; exact H|].
        injection H as _ H. destruct (proj2 IH (ex_intro _ a (ex_intro _ b H))) as [j ->]. eexists. reflexivity.
Qed.
Lemma is_in_iff p s : is_in p s = true <-> mentions p s.
Proof.
  unfold is_in. rewrite <- find_iff. destruct (ModelFormula.find p s); split; try discriminate; eauto. intros [k K]. discriminate.
Qed.
Lemma is_in_not p s : ~ mentions p s -> is_in p s = false.
Proof. intros H. destruct (is_in p s) eqn:E; [apply is_in_iff in E; contradiction|reflexivity]. Qed.

Lemma first_none key lines : Forall (fun l => ~ mentions key l) lines -> first_line key lines = None.
Proof. induction 1 as [|l lines N F IH]; [reflexivity|]. cbn. rewrite is_in_not by exact N. exact IH. Qed.
Lemma first_some key before line after : Forall (fun l => ~ mentions key l) before -> mentions key line -> first_line key (before ++ line :: after) = Some line.
Proof.
  induction 1 as [|l lines N F IH]; intros M; cbn; [apply is_in_iff in M; rewrite M; reflexivity|]. rewrite is_in_not by exact N. apply IH. exact M.
Qed.
Lemma split_char sep a b : split sep (a ++ sep :: b) = split sep a ++ split sep b.
Proof.
  induction a as [|c a IH]; [cbn [app split]; rewrite Ascii.eqb_refl; reflexivity|]. cbn [app split]. rewrite IH. destruct (Ascii.eqb c sep); [reflexivity|].
  destruct (split sep a) eqn:E; [|reflexivity]. clear -E. destruct a as [|x a]; cbn in E; [discriminate|]. destruct (Ascii.eqb x sep); [discriminate|]. destruct (split sep a); discriminate.
Qed.
Lemma split_one sep n : ~ In sep n -> split sep n = [n].
Proof.
  induction n as [|c n IH]; intros H; [reflexivity|]. cbn [split]. destruct (Ascii.eqb c sep) eqn:E.
  - apply Ascii.eqb_eq in E. destruct H. left. exact E.
  - rewrite IH; [reflexivity|]. intros K. apply H. right. exact K.
Qed.
Lemma second_of a b : ~ In ":"%char a -> ~ In ":"%char b -> second_field (a ++ ":"%char :: b) = Ok b.
Proof. intros A B. unfold second_field. rewrite split_char, !split_one by assumption. reflexivity. Qed.
Lemma second_cut a b c : ~ In ":"%char a -> ~ In ":"%char b -> second_field (a ++ ":"%char :: b ++ ":"%char :: c) = Ok b.
Proof. intros A B. unfold second_field. rewrite split_char, (split_one _ a) by assumption. rewrite split_char, (split_one _ b) by assumption. reflexivity. Qed.

Lemma lstrip_blank a s : blank a -> ModelXml.lstrip (a ++ s) = ModelXml.lstrip s.
Proof.
  induction a as [|c a IH]; intros B; [reflexivity|]. cbn [app ModelXml.lstrip]. rewrite (B c) by (left; reflexivity). apply IH. intros d D. apply B. right. exact D.
Qed.
Lemma blank_rev a : blank a -> blank (rev a).
Proof. intros B c C. apply B. apply in_rev. exact C. Qed.
Lemma strip_around a s b : blank a -> blank b -> trimmed s -> ModelXml.strip (a ++ s ++ b) = s.
Proof.
  intros A B [T1 T2]. unfold ModelXml.strip. rewrite lstrip_blank by exact A. destruct s as [|c s].
  - cbn [app]. replace (ModelXml.lstrip b) with (@nil ascii); [reflexivity|]. rewrite <- (app_nil_r b), lstrip_blank by exact B. reflexivity.
  - cbn [app]. rewrite lstrip_stop by exact T1. change (c :: s ++ b) with ((c :: s) ++ b). rewrite rev_app_distr, lstrip_blank by (apply blank_rev; exact B).
    destruct (rev (c :: s)) as [|d r] eqn:E; [apply (f_equal (@length ascii)) in E; rewrite rev_length in E; discriminate|].
    rewrite lstrip_stop by exact T2. rewrite <- E, rev_involutive. reflexivity.
Qed.
Lemma int_space z c : In c (ModelXml.int_str z) -> ModelXml.is_space c = false.
Proof.
  assert (Q : forall n, In c (ModelXml.nat_str n) -> ModelXml.is_space c = false).
  { intros n C. destruct (nat_str_ok n) as (_ & F & _). rewrite Forall_forall in F. apply digit_space. exact (F c C). }
  destruct z as [|p|p]; cbn [ModelXml.int_str]; intros H; [destruct H as [<-|[]]; reflexivity|exact (Q _ H)|].
  apply in_app_or in H. destruct H as [[<-|[]]|H]; [reflexivity|exact (Q _ H)].
Qed.
Lemma int_trimmed z : trimmed (ModelXml.int_str z).
Proof.
  pose proof (int_space z) as H. unfold trimmed. split.
  - destruct (ModelXml.int_str z); [exact I|]. apply H. left. reflexivity.
  - destruct (rev (ModelXml.int_str z)) eqn:E; [exact I|]. apply H. apply in_rev. rewrite E. left. reflexivity.
Qed.
Lemma int_parse_around a z b : blank a -> blank b -> ModelXml.int_parse (a ++ ModelXml.int_str z ++ b) = Ok z.
Proof.
  intros A B. rewrite <- (int_back z). unfold ModelXml.int_parse. pose proof (int_trimmed z) as T. rewrite strip_around by assumption.
  pose proof (strip_around [] (ModelXml.int_str z) [] (fun c H => match H with end) (fun c H => match H with end) T) as S. cbn [app] in S. rewrite app_nil_r in S. rewrite S. reflexivity.
Qed.

(** ** replace *)
Lemma replacing_skip old new a r : forall k, k = length a -> replacing old new k (a ++ r) = replacing old new 0 r.
Proof. induction a as [|c a IH]; intros k ->; [reflexivity|]. cbn [app length replacing]. apply IH. reflexivity. Qed.
Lemma between_cons p s parts : parts <> [] -> between_words p (s :: parts) = s ++ p ++ between_words p parts.
Proof. destruct parts; [congruence|reflexivity]. Qed.
Lemma replace_replaced old new s : old <> [] -> replaced old new s (replace old new s).
Proof.
  intros O. unfold replace. remember (length s) as n eqn:N. revert s N. induction n as [n IH] using lt_wf_ind. intros s ->.
  destruct s as [|c s].
  - exists [[]]. split; [discriminate|]. split; [reflexivity|]. split; [reflexivity|]. constructor; [|constructor]. intros (a & b & H). symmetry in H.
    apply app_eq_nil in H as [-> H]. apply app_eq_nil in H as [H _]. contradiction.
  - cbn [replacing]. destruct (starts old (c :: s)) eqn:E.
    + apply starts_iff in E as [r E]. destruct old as [|o old]; [congruence|]. cbn [app] in E. injection E as -> ->.
      cbn [length]. rewrite Nat.sub_0_r || rewrite Nat.sub_succ, Nat.sub_0_r. rewrite replacing_skip by reflexivity.
      destruct (IH (length r)) with (s := r) as (parts & P & T & T' & F); [cbn; rewrite app_length; lia|reflexivity|].
      exists ([] :: parts). split; [discriminate|]. rewrite !between_cons by exact P. cbn [app]. split; [rewrite <- T; reflexivity|]. split; [rewrite <- T'; reflexivity|].
      constructor; [|exact F]. intros (a & b & H). symmetry in H. apply app_eq_nil in H as [-> H]. discriminate.
    + destruct (IH (length s)) with (s := s) as (parts & P & T & T' & F); [cbn; lia|reflexivity|].
      destruct parts as [|w parts]; [congruence|]. exists ((c :: w) :: parts). split; [discriminate|].
      split; [rewrite T; destruct parts; reflexivity|]. split; [rewrite T'; destruct parts; reflexivity|]. inversion_clear F. constructor; [|assumption].
      intros ([|x a] & b & M); [|injection M as _ M; apply H; exists a, b; exact M].
      enough (starts old (c :: s) = true) by congruence. apply starts_iff. destruct parts as [|v parts].
      * cbn [between_words] in T. exists b. rewrite T. exact M.
      * rewrite between_cons in T by discriminate. exists (b ++ old ++ between_words old (v :: parts)). rewrite T. cbn [app] in M. change (c :: w ++ old ++ between_words old (v :: parts)) with ((c :: w) ++ old ++ between_words old (v :: parts)). rewrite M, <- !app_assoc. reflexivity.
Qed.

(** ** Dictionaries *)
Section Dictionary.
Variable number : Type.
Notation yaml := (ModelYaml.yaml number).
Lemma key_eqb_iff k j : key_eqb k j = true <-> k = j.
Proof.
  destruct k as [s|m|], j as [t|n|]; cbn; split; try discriminate; try reflexivity; intros H.
  - destruct (ProofMeasure.text_eqb_spec s t); [subst; reflexivity|discriminate].
  - injection H as ->. destruct (ProofMeasure.text_eqb_spec t t); [reflexivity|congruence].
  - apply Z.eqb_eq in H as ->. reflexivity.
  - injection H as ->. apply Z.eqb_refl.
Qed.
Lemma key_eqb_refl k : key_eqb k k = true.
Proof. apply key_eqb_iff. reflexivity. Qed.
Lemma find_set (l : list (ykey * yaml)) k x : find_key (set_key l k x) k = Some x.
Proof.
  induction l as [|[k' v] l IH]; cbn; [rewrite key_eqb_refl; reflexivity|]. destruct (key_eqb k' k) eqn:E; cbn; rewrite E; [reflexivity|exact IH].
Qed.
Lemma find_other (l : list (ykey * yaml)) k j x : k <> j -> find_key (set_key l k x) j = find_key l j.
Proof.
  intros N. assert (H : key_eqb k j = false) by (destruct (key_eqb k j) eqn:E; [apply key_eqb_iff in E; contradiction|reflexivity]).
  induction l as [|[k' v] l IH]; cbn; [rewrite H; reflexivity|]. destruct (key_eqb k' k) eqn:E; cbn.
  - apply key_eqb_iff in E as ->. rewrite H. reflexivity.
  - rewrite IH. reflexivity.
Qed.
Lemma lit_inj a b : lit a = lit b -> a = b.
Proof. unfold lit. intros H. rewrite <- (string_of_list_ascii_of_string a), H. apply string_of_list_ascii_of_string. Qed.
Lemma item_set (v : yaml) k x v' : set_item v k x = Ok v' -> item v' k = Ok x /\ forall j, j <> k -> item v' j = item v j.
Proof.
  destruct v as [| | | |l]; try discriminate. cbn. intros H. injection H as <-. cbn. rewrite find_set. split; [reflexivity|].
  intros j N. rewrite find_other; [reflexivity|]. intros K. injection K as K. apply lit_inj in K. congruence.
Qed.
Lemma set_inner_ok (v : yaml) a b c x v' : set_inner v a b c x = Ok v' ->
  inner v' a b c = Ok x /\ forall a' b' c', (a', b', c') <> (a, b, c) -> inner v' a' b' c' = inner v a' b' c'.
Proof.
  unfold set_inner, inner. intros H. destruct (item v a) as [u|] eqn:U; [|discriminate]. cbn [bind] in H. destruct (item u b) as [w|] eqn:B; [|discriminate]. cbn [bind] in H.
  destruct (set_item w c x) as [w'|] eqn:W; [|discriminate]. cbn [bind] in H. destruct (set_item u b w') as [u'|] eqn:U'; [|discriminate]. cbn [bind] in H.
  apply item_set in W as [W1 W2], U' as [V1 V2], H as [H1 H2]. split; [rewrite H1; cbn [bind]; rewrite V1; exact W1|].
  intros a' b' c' N. destruct (string_dec a' a) as [->|A]; [|rewrite H2 by exact A; reflexivity]. rewrite H1, U. cbn [bind].
  destruct (string_dec b' b) as [->|B']; [|rewrite V2 by exact B'; reflexivity]. rewrite V1, B. cbn [bind]. apply W2. congruence.
Qed.
End Dictionary.
