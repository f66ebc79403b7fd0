(** Lemmas for C148 and C149. *)
From Coq Require Import String Ascii List Bool Arith ZArith Lia.
From Verif Require Import Base ModelFormula ModelFiles SpecFiles.
Import ListNotations.

Lemma text_eqb_iff a b : text_eqb a b = true <-> a = b.
Proof. unfold text_eqb. destruct (list_eq_dec ascii_dec a b); split; congruence. Qed.
Lemma text_eqb_refl a : text_eqb a a = true.
Proof. apply text_eqb_iff. reflexivity. Qed.
Lemma text_eqb_neq a b : a <> b -> text_eqb a b = false.
Proof. intros H. destruct (text_eqb a b) eqn:E; [apply text_eqb_iff in E; contradiction|reflexivity]. Qed.
Ltac texts :=
  repeat match goal with
  | |- context [text_eqb ?a ?b] => let E := fresh "E" in destruct (text_eqb a b) eqn:E; [apply text_eqb_iff in E|]
  end.

(** ** split *)
Lemma split_nil p : split slash p <> [].
Proof. destruct p as [|c p]; cbn; [congruence|]. destruct (Ascii.eqb c slash); [congruence|]. destruct (split slash p); congruence. Qed.
Lemma split_slash a b : split slash (a ++ slash :: b) = split slash a ++ split slash b.
Proof.
  induction a as [|c a IH]; [reflexivity|]. cbn [app split]. rewrite IH. destruct (Ascii.eqb c slash); [reflexivity|].
  destruct (split slash a) eqn:E; [destruct (split_nil a E)|reflexivity].
Qed.
Lemma split_name n : ~ In slash n -> split slash n = [n].
Proof.
  induction n as [|c n IH]; intros H; [reflexivity|]. cbn [split]. destruct (Ascii.eqb c slash) eqn:E.
  - apply Ascii.eqb_eq in E. destruct H. left. exact E.
  - rewrite IH; [reflexivity|]. intros K. apply H. right. exact K.
Qed.
Lemma split_after names : Forall proper names -> split slash (after_slashes names) = [] :: names.
Proof.
  induction 1 as [|n names P F IH]; [reflexivity|]. cbn [after_slashes]. destruct names as [|m names].
  - cbn [after_slashes]. rewrite app_nil_r. cbn [split]. rewrite Ascii.eqb_refl, split_name; [reflexivity|apply P].
  - change (slash :: n ++ after_slashes (m :: names)) with ([] ++ slash :: (n ++ after_slashes (m :: names))). rewrite split_slash. cbn [after_slashes].
    rewrite split_slash, (split_name n) by apply P. cbn [split app] in *. cbn [after_slashes split] in IH. rewrite Ascii.eqb_refl in IH. injection IH as ->. reflexivity.
Qed.
Lemma split_clean p : Forall (fun c => ~ In slash c) (split slash p).
Proof.
  induction p as [|c p IH]; [constructor; [exact (fun x => x)|constructor]|]. cbn. destruct (Ascii.eqb c slash) eqn:E; [constructor; [exact (fun x => x)|exact IH]|].
  assert (N : c <> slash) by (intros ->; rewrite Ascii.eqb_refl in E; discriminate).
  destruct (split slash p) as [|w l].
  - constructor; [|constructor]. intros [K|[]]. auto.
  - inversion_clear IH. constructor; [|assumption]. intros [K|K]; auto.
Qed.

Lemma ends_slash_inv p : ends_slash p = true -> exists q, p = q ++ [slash].
Proof.
  unfold ends_slash. intros H. destruct (rev p) as [|c r] eqn:E; [discriminate|]. cbn [starts] in H.
  assert (K : c = slash). { destruct (Ascii.eqb slash c) eqn:K; [apply Ascii.eqb_eq in K; auto|discriminate]. }
  exists (rev r). rewrite <- (rev_involutive p), E, K. reflexivity.
Qed.
Lemma is_abs_app p q : p <> [] -> is_abs (p ++ q) = is_abs p.
Proof. destruct p; [congruence|reflexivity]. Qed.
Lemma proper_rel n : ~ In slash n -> is_abs n = false.
Proof.
  destruct n as [|c n]; [reflexivity|]. intros H. unfold is_abs. cbn [starts]. destruct (Ascii.eqb slash c) eqn:E; [|reflexivity].
  apply Ascii.eqb_eq in E. destruct H. left. congruence.
Qed.

(** ** Following paths *)
Section Follow.
Variable root : node.
Lemma follow_app pl a b : follow root pl (a ++ b) = match follow root pl a with Some q => follow root q b | None => None end.
Proof.
  revert pl. induction a as [|c a IH]; intros pl; [reflexivity|]. cbn [app follow]. destruct (at_place root pl) as [[|l]|]; try reflexivity.
  destruct (text_eqb c [] || text_eqb c dot); [apply IH|]. destruct (text_eqb c dots); [apply IH|]. destruct (child c l); [apply IH|reflexivity].
Qed.
Lemma child_in n l x : child n l = Some x -> In (n, x) l.
Proof.
  induction l as [|[m y] l IH]; [discriminate|]. cbn. destruct (text_eqb n m) eqn:E; [apply text_eqb_iff in E; intros H; injection H as ->; subst; auto|auto].
Qed.
Lemma in_child n l x : NoDup (map fst l) -> In (n, x) l -> child n l = Some x.
Proof.
  induction l as [|[m y] l IH]; intros D H; [destruct H|]. cbn in *. inversion_clear D. destruct H as [H|H].
  - injection H as -> ->. rewrite text_eqb_refl. reflexivity.
  - rewrite text_eqb_neq; [auto|]. intros ->. apply H0. apply (in_map fst) in H. exact H.
Qed.
Hypothesis W : tree root.
Lemma tree_child l n x : tree (Dir l) -> child n l = Some x -> proper n /\ tree x.
Proof. intros T H. inversion_clear T. rewrite Forall_forall in H1. apply child_in in H. apply (H1 _ H). Qed.
Lemma tree_at pl x : at_place root pl = Some x -> Forall proper pl /\ tree x.
Proof.
  revert x. induction pl as [|n pl IH]; intros x H; cbn in H; [injection H as <-; auto|].
  destruct (at_place root pl) as [[|l]|] eqn:E; try discriminate. destruct (IH _ eq_refl) as [F T]. destruct (tree_child l n x T H). auto.
Qed.
Lemma at_tl pl l : at_place root pl = Some (Dir l) -> exists m, at_place root (tl pl) = Some (Dir m).
Proof. destruct pl as [|n pl]; cbn; intros H; [eauto|]. destruct (at_place root pl) as [[|m]|]; try discriminate. eauto. Qed.
Lemma step_name pl l n x : at_place root pl = Some (Dir l) -> child n l = Some x ->
  follow root pl [n] = Some (n :: pl) /\ at_place root (n :: pl) = Some x.
Proof.
  intros A C. destruct (tree_at _ _ A) as [_ T]. destruct (tree_child _ _ _ T C) as [(P1 & P2 & P3 & P4) _].
  cbn [follow at_place]. rewrite A, C, !text_eqb_neq by assumption. cbn [orb]. auto.
Qed.
(** What is reached exists. *)
Lemma follow_at comps pl q : at_place root pl <> None -> follow root pl comps = Some q -> at_place root q <> None.
Proof.
  revert pl. induction comps as [|c comps IH]; intros pl A F; [cbn in F; injection F as <-; exact A|]. cbn [follow] in F.
  destruct (at_place root pl) as [[|l]|] eqn:E; try discriminate.
  destruct (text_eqb c [] || text_eqb c dot); [apply (IH pl); [rewrite E; congruence|exact F]|].
  destruct (text_eqb c dots). { destruct (at_tl _ _ E) as [m M]. apply (IH (tl pl)); [rewrite M; congruence|exact F]. }
  destruct (child c l) eqn:C; [|discriminate]. apply (IH (c :: pl)); [cbn; rewrite E, C; congruence|exact F].
Qed.
Lemma follow_rev q : at_place root q <> None -> follow root [] (rev q) = Some q.
Proof.
  induction q as [|n q IH]; intros A; [reflexivity|]. cbn [rev]. rewrite follow_app. cbn [at_place] in A.
  destruct (at_place root q) as [[|l]|] eqn:E; try congruence. rewrite IH by congruence. destruct (child n l) eqn:C; [|congruence].
  apply (step_name q l n n0 E C).
Qed.
(** Normalising an absolute path is following it. *)
Lemma normal_follow comps pl q : Forall proper pl -> follow root pl comps = Some q -> normal_components true comps pl = rev q.
Proof.
  revert pl. induction comps as [|c comps IH]; intros pl P F; [cbn in F; injection F as <-; reflexivity|]. cbn [follow normal_components] in *.
  destruct (at_place root pl) as [[|l]|] eqn:E; try discriminate. destruct (text_eqb c [] || text_eqb c dot); [auto|].
  assert (D : match pl with l :: _ => text_eqb l dots | [] => false end = false).
  { destruct P as [|n pl N P]; [reflexivity|]. apply text_eqb_neq. apply N. }
  rewrite D. cbn [negb andb]. rewrite !orb_false_r. destruct (text_eqb c dots) eqn:K; cbn [negb].
  - apply IH; [|exact F]. destruct P; [constructor|assumption].
  - destruct (child c l) eqn:C; [|discriminate]. apply IH; [|exact F]. constructor; [|exact P].
    destruct (tree_at _ _ E) as [_ T]. apply (tree_child _ _ _ T C).
Qed.
(** Going down *)
Lemma resolve_join here p pl l n x : resolve here root p = Some pl -> at_place root pl = Some (Dir l) -> child n l = Some x ->
  resolve here root (pjoin p n) = Some (n :: pl).
Proof.
  intros R A C. destruct (tree_at _ _ A) as [_ T]. destruct (tree_child _ _ _ T C) as [P _]. destruct (step_name _ _ _ _ A C) as [S _].
  unfold resolve in *. destruct (text_eqb p []) eqn:N; [discriminate|].
  assert (NE : p <> []). { intros ->. rewrite text_eqb_refl in N. discriminate. }
  unfold pjoin. rewrite (proper_rel n) by apply P. rewrite N. cbn [orb]. destruct (ends_slash p) eqn:ES.
  - rewrite text_eqb_neq by (destruct p; [congruence|discriminate]). rewrite is_abs_app by exact NE.
    destruct (ends_slash_inv p ES) as [q ->]. rewrite <- app_assoc. cbn [app]. rewrite split_slash in R |- *. rewrite follow_app in R |- *.
    destruct (follow root (if is_abs (q ++ [slash]) then [] else here) (split slash q)) as [r|]; [|discriminate].
    rewrite split_name by apply P. cbn [split follow] in R. destruct (at_place root r) as [[|m]|]; try discriminate. cbn in R. injection R as <-. exact S.
  - rewrite text_eqb_neq by (destruct p; [congruence|discriminate]). rewrite is_abs_app by exact NE. cbn [app]. rewrite split_slash, follow_app, R, split_name by apply P. exact S.
Qed.
End Follow.

(** ** os.walk *)
Fixpoint walks (path : text) (l : list (text * node)) : list (text * list text) :=
  match l with [] => [] | (n, x) :: l => walk (pjoin path n) x ++ walks path l end.
Lemma walk_dir path l : walk path (Dir l) = (path, file_names l) :: walks path l.
Proof. cbn [walk]. f_equal. induction l as [|[n x] l IH]; [reflexivity|]. cbn [walks]. rewrite IH. reflexivity. Qed.
Lemma names_iff l f : In f (file_names l) <-> In (f, File) l.
Proof.
  induction l as [|[n [|m]] l IH]; cbn [file_names In]; [tauto| |]; rewrite IH.
  - split; (intros [H|H]; [|auto]); left; congruence.
  - split; [auto|]. intros [H|H]; [discriminate|exact H].
Qed.
Fixpoint node_size (x : node) : nat :=
  match x with File => 1 | Dir l => S ((fix sizes (l : list (text * node)) := match l with [] => 0 | (_, y) :: l => S (node_size y + sizes l) end) l) end.
Lemma size_in n x l : In (n, x) l -> node_size x < node_size (Dir l).
Proof.
  induction l as [|[m y] l IH]; intros H; [destruct H|]. cbn [node_size] in *. destruct H as [H|H]; [injection H as -> ->; lia|]. specialize (IH H). lia.
Qed.
Lemma node_ind' (P : node -> Prop) : P File -> (forall l, (forall n x, In (n, x) l -> P x) -> P (Dir l)) -> forall x, P x.
Proof.
  intros F D x. remember (node_size x) as k eqn:K. revert x K. induction k as [k IH] using lt_wf_ind. intros [|l] ->; [exact F|].
  apply D. intros n x H. apply (IH (node_size x)); [apply (size_in n x l H)|reflexivity].
Qed.
Lemma in_walks path l e : In e (walks path l) <-> exists n x, In (n, x) l /\ In e (walk (pjoin path n) x).
Proof.
  induction l as [|[m y] l IH]; cbn [walks]; [split; [intros []|intros (n & x & [] & _)]|]. rewrite in_app_iff, IH. split.
  - intros [H|(n & x & H & K)]; [exists m, y; split; [left; reflexivity|exact H]|exists n, x; split; [right; exact H|exact K]].
  - intros (n & x & [H|H] & K); [injection H as -> ->; auto|right; exists n, x; auto].
Qed.
Lemma in_walk d : forall path q fs, In (q, fs) (walk path d) <->
  exists names l, down d names (Dir l) /\ q = fold_left pjoin names path /\ fs = file_names l.
Proof.
  induction d as [|l IH] using node_ind'; intros path q fs.
  - split; [intros []|]. intros (names & l & D & _). inversion D.
  - rewrite walk_dir. cbn [In]. rewrite in_walks. split.
    + intros [H|(n & x & I & H)].
      * injection H as <- <-. exists [], l. repeat split. constructor.
      * apply (IH n x I) in H. destruct H as (names & m & D & Q & F). exists (n :: names), m. repeat split; auto. econstructor; eauto.
    + intros (names & m & D & Q & F). inversion D as [|? n x ns ? I D']; subst; [left; reflexivity|]. right. exists n, x. split; [exact I|].
      apply (IH n x I). exists ns, m. auto.
Qed.
Lemma holding_some f w p : first_holding f w = Some p -> exists q fs, In (q, fs) w /\ In f fs /\ p = pjoin q f.
Proof.
  induction w as [|[q fs] w IH]; [discriminate|]. cbn. destruct (existsb (text_eqb f) fs) eqn:E.
  - intros H. injection H as <-. apply existsb_exists in E as (g & I & E). apply text_eqb_iff in E as <-. exists q, fs. auto.
  - intros H. destruct (IH H) as (q' & fs' & I & K). exists q', fs'. auto.
Qed.
Lemma holding_none f w : first_holding f w = None <-> forall q fs, In (q, fs) w -> ~ In f fs.
Proof.
  induction w as [|[q fs] w IH]; cbn; [split; [intros _ q fs []|reflexivity]|]. destruct (existsb (text_eqb f) fs) eqn:E.
  - split; [discriminate|]. intros H. exfalso. apply existsb_exists in E as (g & I & E). apply text_eqb_iff in E as <-. apply (H q fs); auto.
  - rewrite IH. split.
    + intros H q' fs' [K|K]; [|eauto]. injection K as <- <-. intros I. enough (existsb (text_eqb f) fs = true) by congruence.
      apply existsb_exists. exists f. split; [exact I|apply text_eqb_refl].
    + intros H q' fs' K. apply (H q' fs'). auto.
Qed.
Lemma down_app d a b x y : down d a x -> down x b y -> down d (a ++ b) y.
Proof. induction 1; intros H'; [exact H'|]. cbn. econstructor; eauto. Qed.
Lemma down_last d names f y : down d (names ++ [f]) y -> exists l, down d names (Dir l) /\ In (f, y) l.
Proof.
  revert d. induction names as [|n names IH]; intros d H; cbn in H; inversion H as [|? ? x ? ? I D]; subst.
  - inversion D; subst. exists l. split; [constructor|exact I].
  - destruct (IH _ D) as (m & M & K). exists m. split; [econstructor; eauto|exact K].
Qed.

Section Find.
Variables (here : list text) (root : node).
Hypothesis W : tree root.
Lemma resolve_down x names y : down x names y -> forall p pl, resolve here root p = Some pl -> at_place root pl = Some x ->
  resolve here root (fold_left pjoin names p) = Some (rev names ++ pl) /\ at_place root (rev names ++ pl) = Some y.
Proof.
  induction 1 as [n|l n x names y I D IH]; intros p pl R A; [auto|]. cbn [fold_left rev].
  destruct (tree_at root W _ _ A) as [_ T]. inversion T as [|? ND FA]; subst. pose proof (in_child _ _ _ ND I) as C.
  pose proof (resolve_join root W here p pl l n x R A C) as R'. destruct (step_name root W _ _ _ _ A C) as [_ A'].
  destruct (IH _ _ R' A') as [K1 K2]. rewrite <- app_assoc. cbn [app]. auto.
Qed.

Definition holder (d f : chars) : Prop := is_bytes d = is_bytes f /\ exists x names, lookup here root (characters d) = Some x /\ down x (names ++ [characters f]) File.
Lemma find_cases f l : 
  (find_in here root f l = Raise NameError /\ forall d, In d l -> ~ holder d f) \/
  (exists p l1 d l2, find_in here root f l = Ok p /\ l = l1 ++ d :: l2 /\ (forall d', In d' l1 -> ~ holder d' f) /\ is_bytes d = is_bytes f /\
    exists place x names, resolve here root (characters d) = Some place /\ at_place root place = Some x /\ down x (names ++ [characters f]) File /\
      p = pjoin (fold_left pjoin names (characters d)) (characters f) /\
      (down x [characters f] File -> names = [])).
Proof.
  induction l as [|d l IH]; [left; split; [reflexivity|intros d []]|]. cbn [find_in].
  assert (SKIP : ~ holder d f -> find_in here root f (d :: l) = find_in here root f l ->
     (find_in here root f (d :: l) = Raise NameError /\ forall d0, In d0 (d :: l) -> ~ holder d0 f) \/
     (exists p l1 d0 l2, find_in here root f (d :: l) = Ok p /\ d :: l = l1 ++ d0 :: l2 /\ (forall d', In d' l1 -> ~ holder d' f) /\ is_bytes d0 = is_bytes f /\
       exists place x names, resolve here root (characters d0) = Some place /\ at_place root place = Some x /\ down x (names ++ [characters f]) File /\
         p = pjoin (fold_left pjoin names (characters d0)) (characters f) /\ (down x [characters f] File -> names = []))).
  { intros N E. rewrite E. destruct IH as [[R H]|(p & l1 & d0 & l2 & R & -> & H & K)].
    - left. split; [exact R|]. intros d0 [<-|I]; auto.
    - right. exists p, (d :: l1), d0, l2. repeat split; auto; try apply K. intros d' [<-|I]; auto. }
  cbn [find_in] in SKIP. destruct (lookup here root (characters d)) as [x|] eqn:L; [|apply SKIP; [intros (_ & x & n & X & _); congruence|reflexivity]].
  destruct (Bool.eqb (is_bytes d) (is_bytes f)) eqn:B; [|apply SKIP; [intros [X _]; rewrite X, eqb_reflx in B; discriminate|reflexivity]].
  apply eqb_prop in B. destruct (first_holding (characters f) (walk (characters d) x)) as [p|] eqn:H.
  - right. clear SKIP IH. exists p, [], d, l. repeat split; auto.
    unfold lookup in L. destruct (resolve here root (characters d)) as [place|] eqn:R; [|discriminate]. exists place, x.
    assert (Q : exists names, down x (names ++ [characters f]) File /\ p = pjoin (fold_left pjoin names (characters d)) (characters f) /\ (down x [characters f] File -> names = [])).
    { destruct x as [|m]; [discriminate H|]. rewrite walk_dir in H. cbn [first_holding] in H. destruct (existsb (text_eqb (characters f)) (file_names m)) eqn:E.
      - injection H as <-. exists []. repeat split. apply existsb_exists in E as (g & I & E). apply text_eqb_iff in E as <-. apply names_iff in I. econstructor; [exact I|constructor].
      - assert (N : ~ down (Dir m) [characters f] File).
        { intros D. inversion D as [|? ? y ? ? I D']; subst. inversion D'; subst. apply names_iff in I. enough (existsb (text_eqb (characters f)) (file_names m) = true) by congruence.
          apply existsb_exists. eexists. split; [exact I|apply text_eqb_refl]. }
        apply holding_some in H as (q & fs & I & F & ->). assert (I' : In (q, fs) (walk (characters d) (Dir m))) by (rewrite walk_dir; right; exact I).
        apply in_walk in I' as (names & k & D & -> & ->). exists names. repeat split; [|contradiction]. eapply down_app; [exact D|]. apply names_iff in F. econstructor; [exact F|constructor]. }
    destruct Q as (names & Q). exists names. tauto.
  - apply SKIP; [|reflexivity]. intros (_ & x' & names & X & D). rewrite L in X. injection X as <-. apply down_last in D as (m & D & I).
    rewrite holding_none in H. apply (H (fold_left pjoin names (characters d)) (file_names m)); [apply in_walk; exists names, m; auto|apply names_iff; exact I].
Qed.
End Find.
