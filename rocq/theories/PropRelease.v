(** C154, C155: the description of the package and its version. *)
From Coq Require Import String Ascii List Bool Arith Lia Permutation.
From Verif Require Import Base ModelFormula ModelXml ModelRelease SpecRelease ProofRelease SpecFormula ProofFormula SpecPlatform ProofPlatform.
Import ListNotations.
Local Open Scope string_scope.
Local Open Scope list_scope.
Local Open Scope result_scope.

(** *** C154: merge_include.  The files are any finite set, which may include each other in any way. *)
Definition finite (file : text -> option (list text)) (dom : list text) : Prop := forall n, file n <> None -> In n dom.
(** The merge ends, also when files include each other. *)
Theorem C154_ends file dom src fuel : finite file dom -> length dom <= fuel ->
  merge_include file fuel src [] <> Raise OutOfFuel /\ merge_include file fuel src [] = merge_include file (length dom) src [].
Proof.
  intros D L. assert (T : merge_include file (length dom) src [] <> Raise OutOfFuel) by (apply (merge_total file dom D); apply left_bound).
  assert (E : merge_include file fuel src [] = merge_include file (length dom) src []).
  { replace fuel with (length dom + (fuel - length dom)) by lia. apply merge_more; [reflexivity|exact T]. }
  split; [rewrite E; exact T|exact E].
Qed.
Print Assumptions C154_ends.
(** It fails when a file which is reached is missing, and only then. *)
Theorem C154_missing file dom src fuel : finite file dom -> length dom <= fuel ->
  ((exists n, reached file includes src n /\ file n = None) <-> merge_include file fuel src [] = Raise LookupError) /\
  ((forall n, reached file includes src n -> file n <> None) <-> exists t inc, merge_include file fuel src [] = Ok (t, inc)).
Proof.
  intros D L. destruct (C154_ends file dom src fuel D L) as [N _].
  assert (A : forall t inc, merge_include file fuel src [] = Ok (t, inc) -> forall n, reached file includes src n -> In n inc /\ file n <> None).
  { intros t inc E. destruct (merge_ok file _ _ _ _ _ E) as (order & out & _ & _ & C & I & _ & Q & R & _).
    assert (X : forall n, In n inc -> file n <> None) by (intros n J; apply I in J; destruct J as [J|[]]; exact (proj2 (C n J))).
    intros n H. assert (J : In n inc).
    { induction H as [n H|n k H IH K]; [apply Q; exact H|]. apply I in IH. destruct IH as [IH|[]]. exact (R n IH k K). }
    split; [exact J|exact (X n J)]. }
  destruct (merge_include file fuel src []) as [[t inc]|e] eqn:E.
  - split; split.
    + intros (n & R & F). exfalso. exact (proj2 (A t inc eq_refl n R) F).
    + discriminate.
    + intros _. exists t, inc. reflexivity.
    + intros _ n R. exact (proj2 (A t inc eq_refl n R)).
  - destruct (merge_raise file _ _ _ _ E) as [->|(-> & n & R & F)]; [congruence|]. split; split.
    + reflexivity.
    + intros _. exists n. auto.
    + intros H. exfalso. exact (H n R F).
    + intros (t & inc & H). discriminate H.
Qed.
Print Assumptions C154_missing.
(** The text is made of the lines of the source and of the lines, once, of each file which is reached, without the includes. *)
Theorem C154_once file fuel src t inc : merge_include file fuel src [] = Ok (t, inc) ->
  exists order out, t = concat out /\ NoDup order /\ (forall n, In n order <-> reached file includes src n) /\
    Permutation out (own_lines includes src ++ flat_map (fun n => own_lines includes (content file n)) order).
Proof.
  intros E. destruct (merge_ok file _ _ _ _ _ E) as (order & out & A & B & C & I & P & Q & R & S). exists order, out. split; [exact A|]. split; [exact B|]. split; [|exact P].
  intros n. split; [apply S|]. intros H. assert (J : In n inc); [|apply I in J; destruct J as [J|[]]; exact J].
  induction H as [n H|n k H IH K]; [apply Q; exact H|]. apply I in IH. destruct IH as [IH|[]]. exact (R n IH k K).
Qed.
Print Assumptions C154_once.
(** The lines are in their places: when no file comes twice, each include is replaced by the text of its file; *)
Theorem C154_order file src out seen fuel : expands file includes src out seen -> NoDup seen -> length seen <= fuel ->
  exists inc, merge_include file fuel src [] = Ok (concat out, inc).
Proof. intros E D L. destruct (merge_expands file src out seen E [] fuel D) as (inc & M & _); [intros n _ []|exact L|]. exists inc. exact M. Qed.
Print Assumptions C154_order.
(** and an include of a file which came before adds nothing. *)
Theorem C154_again file fuel a line n b : includes line = Some n -> reached file includes a n ->
  merge_include file fuel (a ++ line :: b) [] = merge_include file fuel (a ++ b) [].
Proof.
  intros X R. rewrite !merge_app. destruct (merge_include file fuel a []) as [[t inc]|e] eqn:E; [|reflexivity]. cbn [bind snd fst].
  rewrite (merge_seen file fuel line n); [reflexivity|exact X|]. destruct (merge_ok file _ _ _ _ _ E) as (order & out & _ & _ & _ & I & _ & Q & RR & _).
  clear X. induction R as [n H|n k H IH K]; [apply Q; exact H|]. apply I in IH. destruct IH as [IH|[]]. exact (RR n IH k K).
Qed.
Print Assumptions C154_again.
(** The lines which include a file *)
Theorem C154_directive name : name <> [] -> (forall c, In c name -> is_space c = false /\ c <> ":"%char) ->
  includes (lit ".. include:: " ++ name ++ [newline]) = Some name.
Proof.
  intros N H. unfold includes, is_include. change (lit ".. include:: " ++ name ++ [newline]) with (lit ".. include::" ++ lit " " ++ name ++ [newline]). rewrite starts_app. f_equal. unfold include_name.
  assert (L : forall s p, (forall c, In c s -> c <> ":"%char) -> last_piece p s = p ++ s).
  { induction s as [|c s IH]; intros p K; [rewrite app_nil_r; reflexivity|]. cbn [last_piece]. destruct s as [|d s]; [reflexivity|].
    assert (C : Ascii.eqb c ":" = false) by (apply Ascii.eqb_neq; apply K; left; reflexivity). rewrite C. cbn [andb].
    rewrite IH by (intros e I; apply K; right; exact I). rewrite <- app_assoc. reflexivity. }
  assert (S : last_piece [] (lit ".. include::" ++ lit " " ++ name ++ [newline]) = [] ++ lit " " ++ name ++ [newline]).
  { rewrite <- (L (lit " " ++ name ++ [newline]) []); [reflexivity|]. intros c I. apply in_app_iff in I. destruct I as [[<- | []]|I]; [discriminate|]. apply in_app_iff in I. destruct I as [I|[<- | []]]; [apply H; exact I|discriminate]. }
  rewrite S. cbn [app]. apply strip_around.
  - intros c [<- | []]. reflexivity.
  - intros c [<- | []]. reflexivity.
  - split.
    + destruct name as [|c name]; [exact Logic.I|]. apply H. left. reflexivity.
    + destruct (rev name) as [|c r] eqn:E; [exact Logic.I|]. apply H. apply in_rev. rewrite E. left. reflexivity.
Qed.
Print Assumptions C154_directive.
Theorem C154_other line : ~ (exists r, line = lit ".. include::" ++ r) -> includes line = None.
Proof.
  intros N. unfold includes, is_include. destruct (starts (lit ".. include::") line) eqn:E; [|reflexivity]. apply starts_spec in E. contradiction.
Qed.
Print Assumptions C154_other.
(** Not what one expects: two names of a file are two files; an include in a paragraph of its own indentation is text; and the last line of a
    file which does not end it runs into the next one. *)
Definition files (n : text) : option (list text) :=
  if text_eqb n (lit "a.txt") then Some [lit "first"] else if text_eqb n (lit "./a.txt") then Some [lit "first"]
  else if text_eqb n (lit "b.txt") then Some [lit ".. include:: c.txt" ++ [newline]; lit "b" ++ [newline]]
  else if text_eqb n (lit "c.txt") then Some [lit "c" ++ [newline]; lit ".. include:: b.txt" ++ [newline]] else None.
Theorem C154_names_refuted :
  merge_include files 4 [lit ".. include:: a.txt" ++ [newline]; lit ".. include:: ./a.txt" ++ [newline]] [] = Ok (lit "firstfirst", [lit "./a.txt"; lit "a.txt"]) /\
  merge_include files 4 [lit "  .. include:: a.txt" ++ [newline]] [] = Ok (lit "  .. include:: a.txt" ++ [newline], []) /\
  merge_include files 4 [lit ".. include:: a.txt" ++ [newline]; lit "next" ++ [newline]] [] = Ok (lit "firstnext" ++ [newline], [lit "a.txt"]).
Proof. repeat split; vm_compute; reflexivity. Qed.
Print Assumptions C154_names_refuted.
Example C154_case :
  finite files [lit "a.txt"; lit "./a.txt"; lit "b.txt"; lit "c.txt"] /\
  merge_include files 4 [lit ".. include:: b.txt" ++ [newline]; lit "end" ++ [newline]; lit ".. include:: c.txt"] [] =
    Ok (lit "c" ++ [newline] ++ lit "b" ++ [newline] ++ lit "end" ++ [newline], [lit "c.txt"; lit "b.txt"]) /\
  merge_include files 4 [lit ".. include:: d.txt"] [] = Raise LookupError.
Proof.
  split; [|split; vm_compute; reflexivity]. intros n H. unfold files in H. cbn [In].
  destruct (text_eqb_spec n (lit "a.txt")); [auto|]. destruct (text_eqb_spec n (lit "./a.txt")); [auto|].
  destruct (text_eqb_spec n (lit "b.txt")); [auto|]. destruct (text_eqb_spec n (lit "c.txt")); [auto|congruence].
Qed.

(** *** C155: update_git_sha *)
(** The version is the tag without its v, and without the mark of a branch. *)
Theorem C155_version v : ~ In "-"%char v -> version_of (lit "v" ++ v) = v /\ version_of (lit "v" ++ v ++ lit "-branched") = v.
Proof.
  intros N. unfold version_of. rewrite !starts_app. change (skipn 1 (lit "v" ++ v)) with v. change (skipn 1 (lit "v" ++ v ++ lit "-branched")) with (v ++ lit "-branched").
  split; [apply replacing_absent; intros (a & b & ->); apply N; apply in_app_iff; right; left; reflexivity|].
  unfold replace. induction v as [|c v IH]; [reflexivity|]. change ((c :: v) ++ lit "-branched") with (c :: (v ++ lit "-branched")). cbn [replacing].
  replace (starts (lit "-branched") (c :: v ++ lit "-branched")) with false.
  - rewrite IH; [reflexivity|]. intros I. apply N. right. exact I.
  - symmetry. change (lit "-branched") with ("-"%char :: lit "branched") at 1. cbn [starts]. destruct (Ascii.eqb_spec "-" c) as [<- |]; [exfalso; apply N; left; reflexivity|reflexivity].
Qed.
Print Assumptions C155_version.
Theorem C155_plain tag : ~ (exists r, tag = lit "v" ++ r) -> version_of tag = tag.
Proof. intros N. unfold version_of. destruct (starts (lit "v") tag) eqn:E; [|reflexivity]. apply starts_spec in E. contradiction. Qed.
Print Assumptions C155_plain.
(** Only the three lines change, each one to the assignment of its value; the others and their order are kept. *)
Definition begins (p line : text) : Prop := exists r, line = p ++ r.
Theorem C155_lines tag sha lines : valid_version (version_of tag) = true -> trimmed tag -> trimmed sha ->
  exists lines', update_git_sha (tag ++ [newline]) (sha ++ [newline]) lines = Ok lines' /\
  Forall2 (fun x y =>
    (begins (lit "__version__") x -> y = lit "__version__ = '" ++ version_of tag ++ lit "'" ++ [newline]) /\
    (begins (lit "GIT_TAG") x -> y = lit "GIT_TAG = '" ++ tag ++ lit "'" ++ [newline]) /\
    (begins (lit "GIT_SHA") x -> y = lit "GIT_SHA = '" ++ sha ++ lit "'" ++ [newline]) /\
    (~ begins (lit "__version__") x -> ~ begins (lit "GIT_TAG") x -> ~ begins (lit "GIT_SHA") x -> y = x)) lines lines'.
Proof.
  intros V T S. unfold update_git_sha. assert (N : blank [newline]) by (intros c [<- | []]; reflexivity). assert (N0 : blank []) by (intros c []).
  pose proof (strip_around [] tag [newline] N0 N T) as E1. pose proof (strip_around [] sha [newline] N0 N S) as E2. cbn [app] in E1, E2. rewrite E1, E2, V. eexists. split; [reflexivity|].
  induction lines as [|x lines IH]; cbn [map]; constructor; [|exact IH]. unfold update_line.
  assert (B : forall p, begins p x <-> starts p x = true) by (intros p; symmetry; apply starts_spec).
  assert (D : forall p q, begins p x -> begins q x -> match p, q with c :: _, d :: _ => c = d | _, _ => True end).
  { intros [|c p] [|d q] [r ->] [r' E]; try exact Logic.I. injection E. auto. }
  destruct (starts (lit "__version__") x) eqn:A1.
  - split; [intros _; reflexivity|]. apply B in A1. split; [intros H; pose proof (D _ _ A1 H) as X; discriminate X|].
    split; [intros H; pose proof (D _ _ A1 H) as X; discriminate X|]. intros H. contradiction.
  - split; [intros H; apply B in H; congruence|]. destruct (starts (lit "GIT_TAG") x) eqn:A2.
    + split; [intros _; reflexivity|]. split.
      * intros [r ->]. discriminate A2.
      * intros _ H. apply B in A2. contradiction.
    + split; [intros H; apply B in H; congruence|]. destruct (starts (lit "GIT_SHA") x) eqn:A3.
      * split; [intros _; reflexivity|]. intros _ _ H. apply B in A3. contradiction.
      * split; [intros H; apply B in H; congruence|]. reflexivity.
Qed.
Print Assumptions C155_lines.
(** Doing it again changes nothing. *)
Theorem C155_again describe rev_parse lines lines' : update_git_sha describe rev_parse lines = Ok lines' -> update_git_sha describe rev_parse lines' = Ok lines'.
Proof.
  unfold update_git_sha. destruct (valid_version _); [|discriminate]. intros H. injection H as <-. f_equal. rewrite map_map. apply map_ext. intros x. generalize (version_of (strip describe)) (strip describe) (strip rev_parse). intros v t s.
  unfold update_line. destruct (starts (lit "__version__") x) eqn:A; [reflexivity|]. destruct (starts (lit "GIT_TAG") x) eqn:B; [reflexivity|].
  destruct (starts (lit "GIT_SHA") x) eqn:C; [reflexivity|]. rewrite A, B, C. reflexivity.
Qed.
Print Assumptions C155_again.
(** A version without a digit at its start is refused; nothing is written. *)
Theorem C155_refused describe rev_parse lines : (forall c r, version_of (strip describe) = c :: r -> is_digit c = false) ->
  update_git_sha describe rev_parse lines = Raise ValueError.
Proof.
  intros H. unfold update_git_sha. destruct (version_of (strip describe)) as [|c r] eqn:E; cbn [valid_version]; [reflexivity|]. rewrite (H c r eq_refl). reflexivity.
Qed.
Print Assumptions C155_refused.
(** Not what one expects: any text with a digit at its start is a version, such as the commit which git gives when there is no tag, or one which
    does not leave a python file; and without the lines of the tag and of the commit, as in the package, these are not written. *)
Theorem C155_any_refuted : (forall c r lines, is_digit c = true -> trimmed (c :: r) -> exists lines', update_git_sha (c :: r) (lit "0") lines = Ok lines') /\
  update_git_sha (lit "4f1d2a9" ++ [newline]) (lit "4f1d2a9c" ++ [newline]) [lit "__version__ = '0.3.0'" ++ [newline]] = Ok [lit "__version__ = '4f1d2a9'" ++ [newline]] /\
  update_git_sha (lit "v1'+x" ++ [newline]) (lit "0" ++ [newline]) [lit "__version__ = '0.3.0'"] = Ok [lit "__version__ = '1'+x'" ++ [newline]].
Proof.
  split; [|split; vm_compute; reflexivity]. intros c r lines D T. unfold update_git_sha.
  assert (N0 : blank []) by (intros d []). pose proof (strip_around [] (c :: r) [] N0 N0 T) as E. rewrite app_nil_r in E. cbn [app] in E. rewrite E.
  assert (V : valid_version (version_of (c :: r)) = true).
  { unfold version_of. destruct (starts (lit "v") (c :: r)) eqn:X; [|exact D]. change (lit "v") with ["v"%char] in X. cbn [starts] in X. rewrite andb_true_r in X. apply Ascii.eqb_eq in X. subst c. discriminate D. }
  rewrite V. eexists. reflexivity.
Qed.
Print Assumptions C155_any_refuted.
Example C155_case :
  update_git_sha (lit "v1.2.3-branched" ++ [newline]) (lit "abc" ++ [newline]) [lit "import os"; lit "__version__ = '0'"; lit "GIT_TAG = ''"; lit "GIT_SHA = ''"; lit " __version__"] =
    Ok [lit "import os"; lit "__version__ = '1.2.3'" ++ [newline]; lit "GIT_TAG = 'v1.2.3-branched'" ++ [newline]; lit "GIT_SHA = 'abc'" ++ [newline]; lit " __version__"] /\
  update_git_sha (lit "release" ++ [newline]) (lit "abc") [] = Raise ValueError.
Proof. split; vm_compute; reflexivity. Qed.
