(** Lemmas for C149: absolute paths and parents. *)
From Coq Require Import String Ascii List Bool Arith ZArith Lia.
From Verif Require Import Base ModelFormula ModelFiles SpecFiles ProofFiles.
Import ListNotations.

Lemma join_after n names : slash :: join [slash] (n :: names) = after_slashes (n :: names).
Proof.
  revert n. induction names as [|m names IH]; intros n; [cbn; rewrite app_nil_r; reflexivity|].
  change (join [slash] (n :: m :: names)) with (n ++ [slash] ++ join [slash] (m :: names)). cbn [app]. rewrite IH. reflexivity.
Qed.
Lemma slash_join names : repeat slash 1 ++ join [slash] names = spelled names.
Proof. destruct names as [|n names]; [reflexivity|]. apply join_after. Qed.
Lemma two_slashes names : repeat slash 2 ++ join [slash] names = slash :: spelled names.
Proof. destruct names as [|n names]; [reflexivity|]. cbn [repeat app spelled]. f_equal. apply join_after. Qed.
Lemma split_spelled names : Forall proper names -> split slash (spelled names) = [] :: match names with [] => [[]] | _ => names end.
Proof. intros F. destruct names as [|n names]; [reflexivity|]. apply (split_after (n :: names) F). Qed.
Lemma split_slash_first p : split slash (slash :: p) = [] :: split slash p.
Proof. apply (split_slash [] p). Qed.

Definition one_or_two (k : nat) : Prop := k = 1 \/ k = 2.
Definition prefixed (k : nat) (names : list text) : text := repeat slash (k - 1) ++ spelled names.
Lemma prefixed_join k names : one_or_two k -> repeat slash k ++ join [slash] names = prefixed k names.
Proof. intros [-> | ->]; [apply slash_join|apply two_slashes]. Qed.
Lemma spelled_head names : exists r, spelled names = slash :: r.
Proof. destruct names; [exists []; reflexivity|eexists; reflexivity]. Qed.
Lemma starts_self s r : starts [s] (s :: r) = true.
Proof. cbn [starts]. rewrite Ascii.eqb_refl. reflexivity. Qed.
Lemma spelled_second names : Forall proper names -> starts [slash; slash] (spelled names) = false.
Proof.
  intros F. destruct F as [|n names P F]; [reflexivity|]. destruct n as [|c n]; [destruct P as [P _]; congruence|].
  cbn [spelled after_slashes app starts]. rewrite Ascii.eqb_refl. destruct (Ascii.eqb slash c) eqn:E; [|reflexivity].
  apply Ascii.eqb_eq in E. destruct P as (_ & P & _). destruct P. left. auto.
Qed.
Lemma slashes_of k names : one_or_two k -> Forall proper names -> initial_slashes (prefixed k names) = k.
Proof.
  intros K F. pose proof (spelled_second names F) as S. destruct (spelled_head names) as [r R]. rewrite R in *. unfold initial_slashes, is_abs.
  destruct K as [-> | ->]; unfold prefixed; cbn [Nat.sub repeat app]; rewrite R.
  - rewrite starts_self, S. reflexivity.
  - rewrite starts_self. cbn [starts] in *. rewrite Ascii.eqb_refl in *. cbn [andb] in *. destruct r as [|c r]; [reflexivity|].
    destruct (Ascii.eqb slash c); [discriminate|reflexivity].
Qed.

Lemma normal_proper comps done : Forall (fun c => ~ In slash c) comps -> Forall proper done -> Forall proper (normal_components true comps done).
Proof.
  intros F. revert done. induction F as [|c comps N F IH]; intros done D; cbn [normal_components].
  - apply Forall_rev. exact D.
  - destruct (text_eqb c []) eqn:E1; [apply IH; exact D|]. destruct (text_eqb c dot) eqn:E2; [apply IH; exact D|]. cbn [orb].
    assert (L : match done with l :: _ => text_eqb l dots | [] => false end = false).
    { destruct D as [|n done P D]; [reflexivity|]. apply text_eqb_neq. apply P. }
    rewrite L. cbn [negb andb orb]. rewrite !orb_false_r. destruct (text_eqb c dots) eqn:E3; cbn [negb].
    + apply IH. destruct D; [constructor|assumption].
    + apply IH. constructor; [|exact D]. repeat split; auto; intros K; subst; rewrite text_eqb_refl in *; discriminate.
Qed.
Lemma normal_same names done : Forall proper names -> normal_components true names done = rev done ++ names.
Proof.
  intros F. revert done. induction F as [|c names P F IH]; intros done; cbn [normal_components]; [rewrite app_nil_r; reflexivity|].
  rewrite !text_eqb_neq by apply P. cbn [orb negb]. rewrite IH. cbn [rev]. rewrite <- app_assoc. reflexivity.
Qed.

(** ** normpath of an absolute path *)
Lemma initial_cases p : is_abs p = true -> one_or_two (initial_slashes p).
Proof. intros A. unfold initial_slashes. rewrite A. destruct (_ && _); [right|left]; reflexivity. Qed.
Lemma prefixed_nonempty k names : prefixed k names <> [].
Proof. unfold prefixed. destruct (spelled_head names) as [r ->]. destruct (repeat slash (k - 1)); discriminate. Qed.
Lemma normpath_abs p : is_abs p = true ->
  normpath p = prefixed (initial_slashes p) (normal_components true (split slash p) []).
Proof.
  intros A. unfold normpath. rewrite text_eqb_neq by (intros ->; discriminate A). pose proof (initial_cases p A) as K.
  cbv zeta. assert (B : (0 <? initial_slashes p) = true) by (destruct K as [-> | ->]; reflexivity). rewrite B, (prefixed_join _ _ K).
  rewrite text_eqb_neq by apply prefixed_nonempty. reflexivity.
Qed.
Lemma split_prefixed k names : one_or_two k -> Forall proper names ->
  split slash (prefixed k names) = repeat [] k ++ match names with [] => [[]] | _ => names end.
Proof.
  intros [-> | ->] F; unfold prefixed; cbn [Nat.sub repeat app]; [|rewrite split_slash_first]; rewrite split_spelled by exact F; reflexivity.
Qed.
Lemma prefixed_abs k names : one_or_two k -> is_abs (prefixed k names) = true.
Proof. intros [-> | ->]; unfold prefixed, is_abs; cbn [Nat.sub repeat app]; [destruct (spelled_head names) as [r ->]|]; apply starts_self. Qed.
Lemma normpath_same k names : one_or_two k -> Forall proper names -> normpath (prefixed k names) = prefixed k names.
Proof.
  intros K F. rewrite normpath_abs by (apply prefixed_abs; exact K). rewrite slashes_of by assumption. f_equal. rewrite split_prefixed by assumption.
  destruct K as [-> | ->]; cbn [repeat app normal_components]; destruct names as [|n names]; try reflexivity; apply (normal_same (n :: names) [] F).
Qed.

Section Paths.
Variables (cwd : text) (home : option text) (home_of : text -> option text).
Lemma pjoin_abs p : is_abs cwd = true -> is_abs p = false -> is_abs (pjoin cwd p) = true.
Proof.
  intros A R. unfold pjoin. rewrite R. destruct cwd as [|c w]; [discriminate|]. cbn [text_eqb] in *. destruct (text_eqb (c :: w) [] || ends_slash (c :: w)); exact A.
Qed.
Lemma abspath_normal p : is_abs cwd = true -> exists k names, one_or_two k /\ Forall proper names /\ abspath cwd p = prefixed k names.
Proof.
  intros A. unfold abspath. set (q := if is_abs p then p else pjoin cwd p).
  assert (Q : is_abs q = true) by (unfold q; destruct (is_abs p) eqn:E; [exact E|apply pjoin_abs; assumption]).
  exists (initial_slashes q), (normal_components true (split slash q) []). split; [apply initial_cases; exact Q|]. split; [|apply normpath_abs; exact Q].
  apply normal_proper; [apply split_clean|constructor].
Qed.
Lemma expand_abs p : is_abs p = true -> expanduser home home_of p = p.
Proof.
  destruct p as [|c p]; [reflexivity|]. unfold is_abs. cbn [starts]. destruct (Ascii.eqb slash c) eqn:E; [|discriminate]. apply Ascii.eqb_eq in E as <-. reflexivity.
Qed.
Lemma absolute_again cwd' home' home_of' p : is_abs cwd = true ->
  to_absolute_path cwd' home' home_of' (to_absolute_path cwd home home_of p) = to_absolute_path cwd home home_of p.
Proof.
  intros A. unfold to_absolute_path at 2 3. destruct (abspath_normal (expanduser home home_of p) A) as (k & names & K & F & ->).
  unfold to_absolute_path, abspath. pose proof (prefixed_abs k names K) as P.
  assert (X : expanduser home' home_of' (prefixed k names) = prefixed k names).
  { destruct (prefixed k names) as [|c r]; [reflexivity|]. unfold is_abs in P. cbn [starts] in P. destruct (Ascii.eqb slash c) eqn:E; [|discriminate].
    apply Ascii.eqb_eq in E as <-. reflexivity. }
  rewrite X, P. apply normpath_same; assumption.
Qed.

Variables (here : list text) (entries : list (text * node)).
Notation root := (Dir entries).
Hypothesis W : tree root.
Lemma empty_first pl c l : at_place root pl = Some (Dir l) -> follow root pl ([] :: c) = follow root pl c.
Proof. intros A. cbn [follow]. rewrite A. reflexivity. Qed.
Lemma spelled_place k q : one_or_two k -> at_place root q <> None -> resolve here root (prefixed k (rev q)) = Some q.
Proof.
  intros K A. unfold resolve. rewrite text_eqb_neq by apply prefixed_nonempty. rewrite prefixed_abs by exact K.
  assert (F : Forall proper (rev q)). { apply Forall_rev. destruct (at_place root q) eqn:E; [|congruence]. apply (tree_at root W q n E). }
  rewrite split_prefixed by assumption. pose proof (follow_rev root W q A) as R.
  assert (S : forall c, follow root [] ([] :: c) = follow root [] c) by (intros c; apply (empty_first [] c entries); reflexivity).
  assert (G : follow root [] (match rev q with [] => [[]] | _ => rev q end) = Some q).
  { destruct (rev q) eqn:Q; [rewrite S|]; exact R. }
  destruct K as [-> | ->]; cbn [repeat app]; rewrite !S; exact G.
Qed.
Hypothesis CWD : cwd = spelled (rev here).
Hypothesis HERE : exists l, at_place root here = Some (Dir l).
Lemma follow_cwd : follow root [] (split slash cwd) = Some here.
Proof.
  destruct HERE as [l A]. assert (N : at_place root here <> None) by congruence.
  pose proof (spelled_place 1 here (or_introl eq_refl) N) as R. unfold resolve in R. rewrite text_eqb_neq in R by apply prefixed_nonempty.
  rewrite (prefixed_abs 1 _ (or_introl eq_refl)) in R. unfold prefixed in R. cbn [Nat.sub repeat app] in R. rewrite <- CWD in R. exact R.
Qed.
Lemma cwd_abs : is_abs cwd = true.
Proof. rewrite CWD. apply (prefixed_abs 1 (rev here) (or_introl eq_refl)). Qed.
Lemma follow_join p : is_abs p = false -> follow root [] (split slash (pjoin cwd p)) = follow root here (split slash p).
Proof.
  intros R. unfold pjoin. rewrite R. pose proof cwd_abs as A. pose proof follow_cwd as F. rewrite text_eqb_neq by (intros X; rewrite X in A; discriminate). cbn [orb].
  destruct (ends_slash cwd) eqn:E.
  - destruct (ends_slash_inv cwd E) as [q Q]. rewrite Q in F |- *. rewrite <- app_assoc. cbn [app]. rewrite split_slash in F |- *. rewrite follow_app in F |- *.
    destruct (follow root [] (split slash q)) as [r|]; [|discriminate]. cbn [split follow] in F. destruct (at_place root r) as [[|m]|]; try discriminate. cbn in F. injection F as ->. reflexivity.
  - cbn [app]. rewrite split_slash, follow_app, F. reflexivity.
Qed.
Lemma abspath_place p q : resolve here root p = Some q -> resolve here root (abspath cwd p) = Some q.
Proof.
  unfold resolve at 1. intros R. destruct (text_eqb p []) eqn:N; [discriminate|]. unfold abspath.
  set (a := if is_abs p then p else pjoin cwd p).
  assert (A : is_abs a = true) by (unfold a; destruct (is_abs p) eqn:E; [exact E|apply pjoin_abs; [exact cwd_abs|exact E]]).
  assert (F : follow root [] (split slash a) = Some q).
  { unfold a. destruct (is_abs p) eqn:E; [exact R|]. rewrite follow_join by exact E. exact R. }
  rewrite normpath_abs by exact A. rewrite (normal_follow root W (split slash a) [] q (Forall_nil _) F).
  apply spelled_place; [apply initial_cases; exact A|]. apply (follow_at root (split slash a) []); [cbn; congruence|exact F].
Qed.
End Paths.

(** ** Parents *)
Lemma until_app n r : ~ In slash n -> until_name (n ++ r) = until_name r.
Proof.
  induction n as [|c n IH]; intros H; [reflexivity|]. cbn [app until_name]. destruct (Ascii.eqb c slash) eqn:E.
  - apply Ascii.eqb_eq in E. destruct H. left. exact E.
  - apply IH. intros K. apply H. right. exact K.
Qed.
Lemma not_in_rev n : ~ In slash n -> ~ In slash (rev n).
Proof. intros H K. apply H. apply in_rev. exact K. Qed.
Lemma head_last d f : ~ In slash f -> head_of (d ++ slash :: f) = d ++ [slash].
Proof.
  intros H. unfold head_of. rewrite rev_app_distr. cbn [rev]. rewrite <- !app_assoc, until_app by (apply not_in_rev; exact H). cbn [app until_name].
  rewrite Ascii.eqb_refl. cbn [rev]. rewrite rev_involutive. reflexivity.
Qed.
Lemma head_none f : ~ In slash f -> head_of f = [].
Proof. intros H. unfold head_of. rewrite <- (app_nil_r (rev f)), until_app by (apply not_in_rev; exact H). reflexivity. Qed.
Lemma lstrip_not p : starts [slash] p = false -> lstrip_slash p = p.
Proof. destruct p as [|c p]; [reflexivity|]. cbn [starts lstrip_slash]. intros H. rewrite Ascii.eqb_sym in H. destruct (Ascii.eqb c slash); [discriminate|reflexivity]. Qed.
Lemma rstrip_one d : ends_slash d = false -> rstrip_slash (d ++ [slash]) = d.
Proof.
  intros H. unfold rstrip_slash. rewrite rev_app_distr. cbn [rev app lstrip_slash]. rewrite Ascii.eqb_refl. unfold ends_slash in H. rewrite lstrip_not by exact H. apply rev_involutive.
Qed.
Lemma repeat_ends n : n <> 0 -> ends_slash (repeat slash n) = true.
Proof. destruct n as [|n]; [congruence|]. intros _. unfold ends_slash. replace (repeat slash (S n)) with (repeat slash n ++ [slash]) by (symmetry; apply repeat_cons). rewrite rev_app_distr. apply starts_self. Qed.
Lemma dirname_last d f : ~ In slash f -> d <> [] -> ends_slash d = false -> dirname (d ++ slash :: f) = d.
Proof.
  intros F N E. unfold dirname. rewrite head_last by exact F. cbv zeta. rewrite text_eqb_neq by (destruct d; discriminate). cbn [orb].
  rewrite text_eqb_neq; [apply rstrip_one; exact E|]. intros H. rewrite app_length in H. cbn [length] in H. rewrite Nat.add_1_r in H. cbn [repeat] in H. rewrite repeat_cons in H.
  apply app_inj_tail in H as [H _]. destruct (length d) eqn:L; [destruct d; [congruence|discriminate]|]. rewrite H in E. rewrite repeat_ends in E by congruence. discriminate.
Qed.
Lemma dirname_root f : ~ In slash f -> dirname (slash :: f) = [slash].
Proof. intros F. unfold dirname. change (slash :: f) with ([] ++ slash :: f). rewrite head_last by exact F. reflexivity. Qed.
Lemma dirname_none f : ~ In slash f -> dirname f = [].
Proof. intros F. unfold dirname. rewrite head_none by exact F. reflexivity. Qed.
Lemma after_app a b : after_slashes (a ++ b) = after_slashes a ++ after_slashes b.
Proof. induction a as [|n a IH]; [reflexivity|]. cbn [app after_slashes]. rewrite IH, app_assoc. reflexivity. Qed.
Lemma after_ends names : names <> [] -> Forall proper names -> ends_slash (after_slashes names) = false.
Proof.
  intros N F. destruct (exists_last N) as (l & n & ->). rewrite after_app. apply Forall_app in F as [_ F]. inversion_clear F.
  cbn [after_slashes]. rewrite app_nil_r. destruct H as (H1 & H2 & _). destruct (exists_last H1) as (m & c & ->).
  unfold ends_slash. change (after_slashes l ++ slash :: m ++ [c]) with (after_slashes l ++ (slash :: m) ++ [c]). rewrite app_assoc, rev_app_distr. cbn [rev app starts].
  destruct (Ascii.eqb slash c) eqn:E; [|reflexivity]. apply Ascii.eqb_eq in E as <-. destruct H2. apply in_app_iff. right. left. reflexivity.
Qed.
Lemma dirname_spelled names : Forall proper names -> dirname (spelled names) = spelled (removelast names).
Proof.
  intros F. destruct names as [|n names]; [reflexivity|]. assert (N : n :: names <> []) by discriminate.
  destruct (exists_last N) as (l & m & E). rewrite E in *. rewrite removelast_last. apply Forall_app in F as [F G]. inversion_clear G.
  assert (S : spelled (l ++ [m]) = after_slashes l ++ slash :: m).
  { transitivity (after_slashes (l ++ [m])); [destruct l; reflexivity|]. rewrite after_app. cbn [after_slashes]. rewrite app_nil_r. reflexivity. }
  rewrite S. destruct l as [|x l].
  - apply dirname_root. apply H.
  - apply dirname_last; [apply H|discriminate|]. apply after_ends; [discriminate|exact F].
Qed.
Lemma removelast_firstn' {A} (l : list A) : removelast l = firstn (length l - 1) l.
Proof.
  destruct l as [|a l]; [reflexivity|]. destruct (@exists_last _ (a :: l) ltac:(discriminate)) as (m & b & ->).
  rewrite removelast_last, app_length. cbn [length]. rewrite Nat.add_sub, firstn_app, Nat.sub_diag, firstn_all. cbn. rewrite app_nil_r. reflexivity.
Qed.
Lemma parents_spelled names k : Forall proper names ->
  Nat.iter k dirname (spelled names) = spelled (firstn (length names - k) names).
Proof.
  intros F. induction k as [|k IH]; [rewrite Nat.sub_0_r, firstn_all; reflexivity|]. cbn [Nat.iter nat_rect]. unfold Nat.iter in IH. rewrite IH.
  rewrite dirname_spelled by (apply Forall_forall; intros x H; rewrite Forall_forall in F; apply F; rewrite <- (firstn_skipn (length names - k) names); apply in_app_iff; auto).
  f_equal. rewrite removelast_firstn', firstn_firstn, firstn_length. f_equal. lia.
Qed.
