(** Properties C148 and C149: the search of a file; absolute paths and parents. *)
From Coq Require Import String Ascii List Bool Arith ZArith Lia.
From Verif Require Import Base ModelFormula ModelFiles SpecFiles ProofFiles ProofFiles2.
Import ListNotations.
Local Open Scope string_scope.
Local Open Scope list_scope.

(** ** C148 *)
(** The file which is found is a file of this name, under the first of the directories under which there is one; when the directory itself
    holds one, it is that one. *)
Theorem C148_found : forall here root f l p, tree root -> find here root f (Several l) = Ok p ->
  exists l1 d l2 place x names, l = l1 ++ d :: l2 /\ is_bytes d = is_bytes f /\
    resolve here root (characters d) = Some place /\ at_place root place = Some x /\ down x (names ++ [characters f]) File /\
    resolve here root p = Some (characters f :: rev names ++ place) /\ lookup here root p = Some File /\
    (forall d' x' names', In d' l1 -> is_bytes d' = is_bytes f -> lookup here root (characters d') = Some x' ->
       ~ down x' (names' ++ [characters f]) File) /\
    (down x [characters f] File -> names = []).
Proof.
  intros here root f l p W E. unfold find in E. cbn [paths] in E.
  destruct (find_cases here root f l) as [[R _]|(p' & l1 & d & l2 & R & -> & H & B & place & x & names & P & A & D & -> & T)]; [congruence|].
  rewrite R in E. injection E as <-. exists l1, d, l2, place, x, names. repeat split; auto.
  - pose proof (resolve_down here root W x _ _ D (characters d) place P A) as [K _]. rewrite fold_left_app, rev_app_distr in K. exact K.
  - unfold lookup. pose proof (resolve_down here root W x _ _ D (characters d) place P A) as [K1 K2]. rewrite fold_left_app in K1. cbn [fold_left] in K1. rewrite K1. exact K2.
  - intros d' x' names' I B' L' D'. apply (H d' I). split; [exact B'|]. exists x', names'. auto.
Qed.
Print Assumptions C148_found.
(** There is an error exactly when there is no such file. *)
Theorem C148_missing : forall here root f l e, find here root f (Several l) = Raise e <->
  e = NameError /\ forall d x names, In d l -> is_bytes d = is_bytes f -> lookup here root (characters d) = Some x -> ~ down x (names ++ [characters f]) File.
Proof.
  intros here root f l e. unfold find. cbn [paths].
  destruct (find_cases here root f l) as [[R H]|(p' & l1 & d & l2 & R & -> & H & B & place & x & names & P & A & D & E & T)]; rewrite R; split.
  - intros K. injection K as <-. split; [reflexivity|]. intros d x names I B L D. apply (H d I). split; [exact B|]. eauto.
  - intros [-> _]. reflexivity.
  - discriminate.
  - intros [_ K]. exfalso. apply (K d x names); auto; [apply in_app_iff; right; left; reflexivity|]. unfold lookup. rewrite P. exact A.
Qed.
Print Assumptions C148_missing.
(** One directory given as a str is taken for the list of its characters; given as bytes it is right for a name in bytes and never gives
    anything for a str. *)
Theorem C148_characters_refuted : forall here root f d,
  find here root f (One (Chars false d)) = find here root f (Several (map (fun c => Chars false [c]) d)).
Proof. reflexivity. Qed.
Print Assumptions C148_characters_refuted.
Theorem C148_str_refuted : exists root f d p, tree root /\ down root [lit "etc"; f] File /\ resolve [] root d = Some [lit "etc"] /\
  find [] root (Chars false f) (Several [Chars false d]) = Ok (lit "/etc/logging.yml") /\
  find [] root (Chars false f) (One (Chars false d)) = Ok p /\ resolve [] root p <> resolve [] root (lit "/etc/logging.yml").
Proof.
  exists (Dir [(lit "bin", Dir [(lit "logging.yml", File)]); (lit "etc", Dir [(lit "logging.yml", File)])]), (lit "logging.yml"), (lit "/etc"), (lit "/bin/logging.yml").
  split.
  { assert (P : forall n, In n [lit "bin"; lit "etc"; lit "logging.yml"] -> proper n).
    { intros n [<-|[<-|[<-|[]]]]; (split; [discriminate|]); (split; [|split; discriminate]); cbn; intros H; repeat (destruct H as [H|H]; [discriminate|]); exact H. }
    constructor; [repeat constructor; cbn; intros H; repeat (destruct H as [H|H]; [discriminate|]); exact H|].
    repeat (constructor; [cbn [fst snd]; split; [apply P; cbn; tauto|]|]); try constructor; try (repeat constructor; cbn; intros []; fail);
      (constructor; [|constructor]); (split; [apply P; cbn; tauto|constructor]). }
  split; [econstructor; [right; left; reflexivity|econstructor; [left; reflexivity|constructor]]|].
  split; [vm_compute; reflexivity|]. split; [vm_compute; reflexivity|]. split; [vm_compute; reflexivity|]. vm_compute. discriminate.
Qed.
Print Assumptions C148_str_refuted.
Theorem C148_relative_refuted : exists root f d, down root [d; f] File /\ find [] root (Chars false f) (Several [Chars false d]) = Ok (d ++ lit "/" ++ f) /\
  find [] root (Chars false f) (One (Chars false d)) = Raise NameError.
Proof.
  exists (Dir [(lit "etc", Dir [(lit "logging.yml", File)])]), (lit "logging.yml"), (lit "etc").
  split; [econstructor; [left; reflexivity|econstructor; [left; reflexivity|constructor]]|]. split; vm_compute; reflexivity.
Qed.
Print Assumptions C148_relative_refuted.
Theorem C148_bytes_refuted : forall here root f d, find here root (Chars false f) (One (Chars true d)) = Raise NameError /\
  find here root (Chars true f) (One (Chars true d)) = find here root (Chars true f) (Several [Chars true d]).
Proof. intros. split; [|reflexivity]. unfold find. cbn. destruct (lookup here root d); reflexivity. Qed.
Print Assumptions C148_bytes_refuted.
(** A file of a sub-directory listed first is found before one which is less deep. *)
Example C148_order : find [] (Dir [(lit "a", Dir [(lit "b", Dir [(lit "f", File)])]); (lit "c", Dir [(lit "f", File)])]) (Chars false (lit "f")) (Several [Chars false (lit "/")])
  = Ok (lit "/a/b/f").
Proof. vm_compute. reflexivity. Qed.

(** ** C149 *)
(** The absolute path leads where the path leads. *)
Theorem C149_place : forall home home_of here entries p q, tree (Dir entries) -> (exists l, at_place (Dir entries) here = Some (Dir l)) ->
  (forall r, p <> "~"%char :: r) -> resolve here (Dir entries) p = Some q ->
  resolve here (Dir entries) (to_absolute_path (spelled (rev here)) home home_of p) = Some q.
Proof.
  intros home home_of here entries p q W H N R. unfold to_absolute_path.
  replace (expanduser home home_of p) with p; [apply abspath_place; auto|].
  destruct p as [|c p]; [reflexivity|]. unfold expanduser. destruct (Ascii.eqb c "~"%char) eqn:E; [|reflexivity]. apply Ascii.eqb_eq in E as ->. destruct (N p eq_refl).
Qed.
Print Assumptions C149_place.
(** The tilde stands for the home directory. *)
Theorem C149_home : forall cwd h home_of r, is_abs h = true -> ends_slash h = false ->
  to_absolute_path cwd (Some h) home_of (lit "~/" ++ r) = to_absolute_path cwd (Some h) home_of (h ++ lit "/" ++ r) /\
  to_absolute_path cwd (Some h) home_of (lit "~") = to_absolute_path cwd (Some h) home_of h.
Proof.
  intros cwd h home_of r A E. assert (S : rstrip_slash h = h).
  { unfold rstrip_slash. rewrite lstrip_not by exact E. apply rev_involutive. }
  assert (N : h <> []) by (intros ->; discriminate A).
  unfold to_absolute_path. rewrite (expand_abs (Some h) home_of h A), (expand_abs (Some h) home_of (h ++ lit "/" ++ r)) by (rewrite is_abs_app; assumption).
  split; f_equal.
  - change (expanduser (Some h) home_of (lit "~/" ++ r)) with (if text_eqb (rstrip_slash h ++ slash :: r) [] then [slash] else rstrip_slash h ++ slash :: r).
    rewrite S, text_eqb_neq by (destruct h; discriminate). reflexivity.
  - change (expanduser (Some h) home_of (lit "~")) with (if text_eqb (rstrip_slash h ++ []) [] then [slash] else rstrip_slash h ++ []).
    rewrite S, app_nil_r, text_eqb_neq by exact N. reflexivity.
Qed.
Print Assumptions C149_home.
(** Likewise for the home of another user; without one the name is that of a file of the working directory. *)
Lemma user_name_app n r : ~ In slash n -> user_name (n ++ slash :: r) = n /\ user_name n = n.
Proof.
  induction n as [|c n IH]; intros N; [split; reflexivity|].
  assert (C : Ascii.eqb c slash = false) by (apply Ascii.eqb_neq; intros ->; apply N; left; reflexivity).
  destruct IH as [A B]; [intros I; apply N; right; exact I|].
  cbn [app user_name]. rewrite C, A, B. split; reflexivity.
Qed.
Theorem C149_other_home : forall cwd home home_of n r, n <> [] -> ~ In slash n ->
  (forall h, home_of n = Some h -> is_abs h = true -> ends_slash h = false ->
    to_absolute_path cwd home home_of (lit "~" ++ n ++ lit "/" ++ r) = to_absolute_path cwd home home_of (h ++ lit "/" ++ r) /\
    to_absolute_path cwd home home_of (lit "~" ++ n) = to_absolute_path cwd home home_of h) /\
  (home_of n = None -> is_abs cwd = true -> ends_slash cwd = false ->
    to_absolute_path cwd home home_of (lit "~" ++ n ++ lit "/" ++ r) = to_absolute_path cwd home home_of (cwd ++ lit "/~" ++ n ++ lit "/" ++ r)).
Proof.
  intros cwd home home_of n r N S. destruct (user_name_app n r S) as [U V].
  assert (K : text_eqb n [] = false) by (apply text_eqb_neq; exact N).
  assert (E1 : expanduser home home_of (lit "~" ++ n ++ lit "/" ++ r) =
    match home_of n with None => lit "~" ++ n ++ lit "/" ++ r | Some h => let q := rstrip_slash h ++ skipn (length n) (n ++ slash :: r) in if text_eqb q [] then [slash] else q end).
  { change (lit "~" ++ n ++ lit "/" ++ r) with ("~"%char :: (n ++ slash :: r)). cbn [expanduser]. rewrite U, K. reflexivity. }
  assert (E2 : expanduser home home_of (lit "~" ++ n) =
    match home_of n with None => lit "~" ++ n | Some h => let q := rstrip_slash h ++ skipn (length n) n in if text_eqb q [] then [slash] else q end).
  { change (lit "~" ++ n) with ("~"%char :: n). cbn [expanduser]. rewrite V, K. reflexivity. }
  split.
  - intros h H A E. assert (R : rstrip_slash h = h).
    { unfold rstrip_slash. rewrite lstrip_not by exact E. apply rev_involutive. }
    assert (M : h <> []) by (intros ->; discriminate A).
    unfold to_absolute_path. rewrite E1, E2, H. cbv zeta. rewrite R, skipn_app, skipn_all, Nat.sub_diag, app_nil_r.
    rewrite (expand_abs home home_of h A), (expand_abs home home_of (h ++ lit "/" ++ r)) by (rewrite is_abs_app; assumption).
    rewrite !text_eqb_neq by (destruct h; [discriminate A|discriminate]). split; reflexivity.
  - intros H A E.
    unfold to_absolute_path. rewrite E1, H. rewrite (expand_abs home home_of (cwd ++ _)) by (rewrite is_abs_app; [assumption | intros ->; discriminate A]).
    unfold abspath. change (is_abs (lit "~" ++ n ++ lit "/" ++ r)) with false. cbv iota. rewrite is_abs_app by (first [assumption | intros ->; discriminate A]). rewrite ?A. cbv iota.
    unfold pjoin. change (is_abs (lit "~" ++ n ++ lit "/" ++ r)) with false. cbv iota. rewrite E, text_eqb_neq by (intros ->; discriminate A). reflexivity.
Qed.
Print Assumptions C149_other_home.
(** It starts with one or two slashes, has proper names, no other slash, and is its own absolute path. *)
Theorem C149_normal : forall cwd home home_of p, is_abs cwd = true -> exists names, Forall proper names /\
  (to_absolute_path cwd home home_of p = spelled names \/ to_absolute_path cwd home home_of p = slash :: spelled names).
Proof.
  intros cwd home home_of p A. destruct (abspath_normal cwd (expanduser home home_of p) A) as (k & names & K & F & E).
  exists names. split; [exact F|]. unfold to_absolute_path. rewrite E. destruct K as [-> | ->]; [left|right]; reflexivity.
Qed.
Print Assumptions C149_normal.
Theorem C149_again : forall cwd home home_of cwd' home' home_of' p, is_abs cwd = true ->
  to_absolute_path cwd' home' home_of' (to_absolute_path cwd home home_of p) = to_absolute_path cwd home home_of p.
Proof. intros. apply absolute_again. assumption. Qed.
Print Assumptions C149_again.
(** Two paths which lead to the same place can have different absolute paths: two slashes at the start are kept. *)
Theorem C149_unique_refuted : exists root p q, resolve [] root p = Some [lit "a"] /\ resolve [] root q = Some [lit "a"] /\
  to_absolute_path [slash] None (fun _ => None) p <> to_absolute_path [slash] None (fun _ => None) q.
Proof. exists (Dir [(lit "a", File)]), (lit "/a"), (lit "//a"). vm_compute. split; [reflexivity|]. split; [reflexivity|]. discriminate. Qed.
Print Assumptions C149_unique_refuted.
(** Otherwise they have the same. *)
Theorem C149_unique_partial : forall home home_of here entries p p' q, tree (Dir entries) -> (exists l, at_place (Dir entries) here = Some (Dir l)) ->
  (forall r, p <> "~"%char :: r) -> (forall r, p' <> "~"%char :: r) -> resolve here (Dir entries) p = Some q -> resolve here (Dir entries) p' = Some q ->
  let a := to_absolute_path (spelled (rev here)) home home_of p in let b := to_absolute_path (spelled (rev here)) home home_of p' in
  a = b \/ a = slash :: b \/ slash :: a = b.
Proof.
  intros home home_of here entries p p' q W H N N' R R' a b.
  assert (U : forall p, (forall r, p <> "~"%char :: r) -> resolve here (Dir entries) p = Some q ->
    to_absolute_path (spelled (rev here)) home home_of p = spelled (rev q) \/ to_absolute_path (spelled (rev here)) home home_of p = slash :: spelled (rev q)).
  { clear - W H. intros p N R. pose proof (C149_place home home_of here entries p q W H N R) as P.
    destruct (C149_normal (spelled (rev here)) home home_of p (cwd_abs _ here eq_refl)) as (names & F & E).
    assert (K : exists k, one_or_two k /\ to_absolute_path (spelled (rev here)) home home_of p = prefixed k names).
    { destruct E as [E|E]; [exists 1; split; [left; reflexivity|exact E]|exists 2; split; [right; reflexivity|exact E]]. }
    destruct K as (k & K & E'). rewrite E' in P. unfold resolve in P. rewrite text_eqb_neq in P by apply prefixed_nonempty. rewrite prefixed_abs, split_prefixed in P by assumption.
    assert (G : names = rev q).
    { assert (S : forall c, follow (Dir entries) [] ([] :: c) = follow (Dir entries) [] c) by reflexivity.
      assert (G : follow (Dir entries) [] names = Some q).
      { destruct K as [-> | ->]; cbn [repeat app] in P; rewrite !S in P; destruct names; exact P. }
      pose proof (normal_follow _ W names [] q (Forall_nil _) G) as X. rewrite normal_same in X by exact F. exact X. }
    rewrite <- G. exact E. }
  destruct (U p N R) as [A|A], (U p' N' R') as [B|B]; unfold a, b; rewrite A, B; auto.
Qed.
Print Assumptions C149_unique_partial.
(** A path which leads nowhere can have an absolute path which leads somewhere. *)
Theorem C149_nowhere_refuted : exists root p, resolve [] root p = None /\ resolve [] root (to_absolute_path [slash] None (fun _ => None) p) = Some [lit "a"].
Proof. exists (Dir [(lit "a", File)]), (lit "nothing/../a"). vm_compute. auto. Qed.
Print Assumptions C149_nowhere_refuted.
Example C149_case : to_absolute_path (lit "/home/me") (Some (lit "/home/me/")) (fun _ => None) (lit "~/patterns/../data/./") = lit "/home/me/data" /\
  to_absolute_path (lit "/home/me") None (fun _ => None) (lit "../you//x/") = lit "/home/you/x" /\
  to_absolute_path (lit "/home/me") None (fun _ => None) (lit "../../../..") = lit "/".
Proof. vm_compute. auto. Qed.

(** Each step takes one name off an absolute path, until the root; no step and less than no step leave it. *)
Theorem C149_parent : forall names step, Forall proper names ->
  parent_directory_of (spelled names) step = spelled (firstn (length names - Z.to_nat step) names).
Proof. intros names step F. apply parents_spelled. exact F. Qed.
Print Assumptions C149_parent.
Theorem C149_parent_of_file : forall d f, ~ In slash f ->
  (d <> [] -> ends_slash d = false -> parent_directory_of (d ++ slash :: f) 1 = d) /\
  parent_directory_of (slash :: f) 1 = [slash] /\ parent_directory_of f 1 = [].
Proof. intros d f F. split; [intros N E; apply dirname_last; assumption|]. split; [apply dirname_root; exact F|apply dirname_none; exact F]. Qed.
Print Assumptions C149_parent_of_file.
(** A directory written with a slash at its end is its own parent, the parent of a relative name is no path, and dots are names. *)
Theorem C149_parent_refuted : parent_directory_of (lit "/a/b/") 1 = lit "/a/b" /\ parent_directory_of (lit "a") 1 = [] /\
  parent_directory_of (lit "/a/b/..") 1 = lit "/a/b" /\
  exists root, resolve [] root (lit "/a/b/..") = Some [lit "a"] /\ resolve [] root (parent_directory_of (lit "/a/b/..") 1) = Some [lit "b"; lit "a"] /\
    resolve [] root (parent_directory_of (lit "a") 1) = None.
Proof.
  split; [vm_compute; reflexivity|]. split; [vm_compute; reflexivity|]. split; [vm_compute; reflexivity|].
  exists (Dir [(lit "a", Dir [(lit "b", Dir [])])]). vm_compute. auto.
Qed.
Print Assumptions C149_parent_refuted.
Example C149_parent_case : parent_directory_of (lit "/home/me/x.val") 2 = lit "/home" /\ parent_directory_of (lit "/home/me/x.val") 9 = lit "/".
Proof. vm_compute. auto. Qed.
