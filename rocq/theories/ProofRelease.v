(** Lemmas on the description of the package and on its version. *)
From Coq Require Import String Ascii List Bool Arith Lia Permutation.
From Verif Require Import Base ModelFormula ModelXml ModelRelease SpecRelease.
Import ListNotations.
Local Open Scope result_scope.

Lemma text_eqb_spec a b : reflect (a = b) (text_eqb a b).
Proof. unfold text_eqb. destruct (list_eq_dec ascii_dec a b); constructor; assumption. Qed.
Lemma mem_spec n l : existsb (text_eqb n) l = true <-> In n l.
Proof.
  rewrite existsb_exists. split; [intros (x & I & E); destruct (text_eqb_spec n x); [subst; exact I|discriminate E]|]. intros I. exists n. split; [exact I|].
  destruct (text_eqb_spec n n); [reflexivity|congruence].
Qed.
Lemma mem_false n l : existsb (text_eqb n) l = false <-> ~ In n l.
Proof. rewrite <- mem_spec. destruct (existsb _ l); split; congruence. Qed.

(** The include of a line *)
Definition includes (line : text) : option text := if is_include line then Some (include_name line) else None.

Lemma perm4 {A} (u1 u2 a b c d : list A) : Permutation u1 (a ++ b) -> Permutation u2 (c ++ d) -> Permutation (u1 ++ u2) (c ++ a ++ b ++ d).
Proof.
  intros -> ->. rewrite (app_assoc a b), (app_assoc (a ++ b) c d), (app_assoc c (a ++ b) d). apply Permutation_app_tail. apply Permutation_app_comm.
Qed.

Section Merge.
Variable file : text -> option (list text).
Notation merge := (merge_include file).
Notation own := (own_lines includes).
Notation names := (named includes).

(** The recursion without the fixpoints *)
Lemma merge_nil fuel inc : merge fuel [] inc = Ok ([], inc).
Proof. destruct fuel; reflexivity. Qed.
Lemma merge_line fuel x l inc : includes x = None -> merge fuel (x :: l) inc = (q <- merge fuel l inc ;; Ok (x ++ fst q, snd q)).
Proof. unfold includes. destruct (is_include x) eqn:E; [discriminate|]. intros _. destruct fuel; cbn [merge_include]; rewrite E; reflexivity. Qed.
Lemma merge_seen fuel x n l inc : includes x = Some n -> In n inc -> merge fuel (x :: l) inc = merge fuel l inc.
Proof.
  unfold includes. destruct (is_include x) eqn:E; [|discriminate]. intros H I. injection H as H. apply mem_spec in I.
  destruct fuel; cbn [merge_include]; rewrite E, H, I; reflexivity.
Qed.
Lemma merge_missing fuel x n l inc : includes x = Some n -> ~ In n inc -> file n = None -> merge fuel (x :: l) inc = Raise LookupError.
Proof.
  unfold includes. destruct (is_include x) eqn:E; [|discriminate]. intros H I F. injection H as H. apply mem_false in I.
  destruct fuel; cbn [merge_include]; rewrite E, H, I, F; reflexivity.
Qed.
Lemma merge_fuel0 x n l inc src : includes x = Some n -> ~ In n inc -> file n = Some src -> merge 0 (x :: l) inc = Raise OutOfFuel.
Proof.
  unfold includes. destruct (is_include x) eqn:E; [|discriminate]. intros H I F. injection H as H. apply mem_false in I.
  cbn [merge_include]; rewrite E, H, I, F; reflexivity.
Qed.
Lemma merge_file fuel x n l inc src : includes x = Some n -> ~ In n inc -> file n = Some src ->
  merge (S fuel) (x :: l) inc = (r <- merge fuel src (n :: inc) ;; q <- merge (S fuel) l (snd r) ;; Ok (fst r ++ fst q, snd q)).
Proof.
  unfold includes. destruct (is_include x) eqn:E; [|discriminate]. intros H I F. injection H as H. apply mem_false in I.
  cbn [merge_include]; rewrite E, H, I, F; reflexivity.
Qed.
(** The cases of a line *)
Lemma in_names (n : text) inc : {In n inc} + {~ In n inc}.
Proof. apply in_dec. apply list_eq_dec. apply ascii_dec. Qed.

Lemma merge_app fuel a : forall b inc, merge fuel (a ++ b) inc = (r <- merge fuel a inc ;; q <- merge fuel b (snd r) ;; Ok (fst r ++ fst q, snd q)).
Proof.
  induction a as [|x a IH]; intros b inc; cbn [app].
  - rewrite merge_nil. cbn [bind fst snd]. destruct (merge fuel b inc) as [[? ?]|]; reflexivity.
  - destruct (includes x) as [n|] eqn:E.
    + destruct (in_names n inc) as [I|I]; [rewrite !(merge_seen fuel x n) by assumption; apply IH|].
      destruct (file n) as [src|] eqn:F; [|rewrite !(merge_missing fuel x n) by assumption; reflexivity].
      destruct fuel as [|fuel]; [rewrite !(merge_fuel0 x n _ inc src) by assumption; reflexivity|].
      rewrite !(merge_file fuel x n _ inc src) by assumption. destruct (merge fuel src (n :: inc)) as [[t1 s1]|]; [|reflexivity]. cbn [bind fst snd].
      rewrite IH. destruct (merge (S fuel) a s1) as [[t2 s2]|]; [|reflexivity]. cbn [bind fst snd].
      destruct (merge (S fuel) b s2) as [[t3 s3]|]; [|reflexivity]. cbn [bind fst snd]. rewrite app_assoc. reflexivity.
    + rewrite !merge_line by exact E. rewrite IH. destruct (merge fuel a inc) as [[t1 s1]|]; [|reflexivity]. cbn [bind fst snd].
      destruct (merge fuel b s1) as [[t2 s2]|]; [|reflexivity]. cbn [bind fst snd]. rewrite app_assoc. reflexivity.
Qed.

(** What a successful merge has done *)
Notation content := (content file).
Lemma merge_ok fuel : forall src inc t inc', merge fuel src inc = Ok (t, inc') ->
  exists order out, t = concat out /\ NoDup order /\ (forall n, In n order -> ~ In n inc /\ file n <> None) /\
    (forall n, In n inc' <-> In n order \/ In n inc) /\
    Permutation out (own src ++ flat_map (fun n => own (content n)) order) /\
    (forall n, In n (names src) -> In n inc') /\ (forall n, In n order -> forall k, In k (names (content n)) -> In k inc') /\
    (forall n, In n order -> reached file includes src n).
Proof.
  assert (Here : forall src l n x, (forall k, In k (names src) -> In k (names l)) -> reached file includes src n -> x = l -> reached file includes l n).
  { intros src l n x H R ->. induction R as [n I|n k R IH I]; [apply reached_here; auto|eapply reached_from; eauto]. }
  assert (Under : forall m src l n, In m (names l) -> file m = Some src -> reached file includes src n -> reached file includes l n).
  { intros m src l n I F R. induction R as [n J|n k R IH J]; [|eapply reached_from; eauto].
    apply reached_from with m; [apply reached_here; exact I|]. unfold content, SpecRelease.content. rewrite F. exact J. }
  induction fuel as [|fuel IHf]; intros src; induction src as [|x l IH]; intros inc t inc' E.
  1, 3: rewrite merge_nil in E; injection E as <- <-; exists [], []; repeat split; try constructor; cbn; tauto.
  all: destruct (includes x) as [n|] eqn:X.
  2, 4: rewrite merge_line in E by exact X; destruct (merge _ l inc) as [[t2 s2]|] eqn:E2; [|discriminate E]; cbn [bind fst snd] in E; injection E as <- <-;
    destruct (IH _ _ _ E2) as (order & out & A & B & C & D & P & Q & R & S); exists order, (x :: out); cbn [own_lines named]; rewrite X; cbn [concat app];
    repeat split; try assumption; try (apply C; assumption); try (apply D); [rewrite A; reflexivity|constructor; exact P|];
    intros n I; apply (Here l (x :: l) n (x :: l)); [cbn [named]; rewrite X; auto|apply S; exact I|reflexivity].
  - destruct (in_names n inc) as [I|I].
    + rewrite (merge_seen 0 x n) in E by assumption. destruct (IH _ _ _ E) as (order & out & A & B & C & D & P & Q & R & S). exists order, out.
      cbn [own_lines named]. rewrite X. split; [exact A|]. split; [exact B|]. split; [exact C|]. split; [exact D|]. split; [exact P|]. split; [|split; [exact R|]].
      * intros k [<- | K]; [apply D; right; exact I|apply Q; exact K].
      * intros k K. apply (Here l (x :: l) k (x :: l)); [cbn [named]; rewrite X; right; assumption|apply S; exact K|reflexivity].
    + destruct (file n) as [src|] eqn:F; [rewrite (merge_fuel0 x n l inc src) in E by assumption|rewrite (merge_missing 0 x n) in E by assumption]; discriminate E.
  - destruct (in_names n inc) as [I|I].
    + rewrite (merge_seen (S fuel) x n) in E by assumption. destruct (IH _ _ _ E) as (order & out & A & B & C & D & P & Q & R & S). exists order, out.
      cbn [own_lines named]. rewrite X. split; [exact A|]. split; [exact B|]. split; [exact C|]. split; [exact D|]. split; [exact P|]. split; [|split; [exact R|]].
      * intros k [<- | K]; [apply D; right; exact I|apply Q; exact K].
      * intros k K. apply (Here l (x :: l) k (x :: l)); [cbn [named]; rewrite X; right; assumption|apply S; exact K|reflexivity].
    + destruct (file n) as [src|] eqn:F; [|rewrite (merge_missing (S fuel) x n) in E by assumption; discriminate E].
      rewrite (merge_file fuel x n l inc src) in E by assumption. destruct (merge fuel src (n :: inc)) as [[t1 s1]|] eqn:E1; [|discriminate E]. cbn [bind fst snd] in E.
      destruct (merge (S fuel) l s1) as [[t2 s2]|] eqn:E2; [|discriminate E]. cbn [bind fst snd] in E. injection E as <- <-.
      destruct (IHf _ _ _ _ E1) as (o1 & u1 & A1 & B1 & C1 & D1 & P1 & Q1 & R1 & S1). destruct (IH _ _ _ E2) as (o2 & u2 & A2 & B2 & C2 & D2 & P2 & Q2 & R2 & S2).
      assert (O : forall k, In k o2 -> ~ In k (n :: o1)).
      { intros k K J. apply (proj1 (C2 k K)). apply D1. destruct J as [<- | J]; [right; left; reflexivity|left; exact J]. }
      exists (n :: o1 ++ o2), (u1 ++ u2). split; [rewrite concat_app; congruence|]. split; [|split; [|split; [|split; [|split; [|split]]]]].
      * constructor.
        { rewrite in_app_iff. intros [J|J]; [apply (proj1 (C1 n J)); left; reflexivity|apply (O n J); left; reflexivity]. }
        clear - B1 B2 O. induction o1 as [|a o1 IHo]; [exact B2|]. cbn [app]. inversion B1; subst. constructor.
        { rewrite in_app_iff. intros [J|J]; [contradiction|]. apply (O a J). right. left. reflexivity. }
        apply IHo; [assumption|]. intros k K [<- | J]; apply (O _ K); [left|right; right]; auto.
      * intros k [<- | K]; [split; [exact I|congruence]|]. apply in_app_iff in K. destruct K as [K|K].
        { destruct (C1 k K) as [U V]. split; [|exact V]. intros J. apply U. right. exact J. }
        { destruct (C2 k K) as [U V]. split; [|exact V]. intros J. apply U. apply D1. right. right. exact J. }
      * intros k. rewrite D2, D1. cbn [In]. rewrite in_app_iff. tauto.
      * cbn [own_lines flat_map]. rewrite X. rewrite flat_map_app. unfold SpecRelease.content at 1. rewrite F. apply perm4; assumption.
      * cbn [named]. rewrite X. intros k [<- | K]; [apply D2; right; apply D1; right; left; reflexivity|apply Q2; exact K].
      * intros k [<- | K] j J; [unfold content, SpecRelease.content in J; rewrite F in J; apply D2; right; apply Q1; exact J|].
        apply in_app_iff in K. destruct K as [K|K]; [apply D2; right; exact (R1 k K j J)|exact (R2 k K j J)].
      * assert (N : In n (names (x :: l))) by (cbn [named]; rewrite X; left; reflexivity).
        intros k [<- | K]; [apply reached_here; exact N|]. apply in_app_iff in K. destruct K as [K|K]; [exact (Under n src (x :: l) k N F (S1 k K))|].
        apply (Here l (x :: l) k (x :: l)); [cbn [named]; rewrite X; right; assumption|apply S2; exact K|reflexivity].
Qed.

Lemma reached_more src l n : (forall k, In k (names src) -> In k (names l)) -> reached file includes src n -> reached file includes l n.
Proof. intros H R. induction R as [n I|n k R IH I]; [apply reached_here; auto|eapply reached_from; eauto]. Qed.
Lemma reached_under m src l n : In m (names l) -> file m = Some src -> reached file includes src n -> reached file includes l n.
Proof.
  intros I F R. induction R as [n J|n k R IH J]; [|eapply reached_from; eauto].
  apply reached_from with m; [apply reached_here; exact I|]. unfold SpecRelease.content. rewrite F. exact J.
Qed.
Lemma names_head x n l : includes x = Some n -> In n (names (x :: l)).
Proof. intros X. cbn [named]. rewrite X. left. reflexivity. Qed.
Lemma names_tail x l k : In k (names l) -> In k (names (x :: l)).
Proof. intros K. cbn [named]. destruct (includes x); [right|]; exact K. Qed.
Lemma merge_raise fuel : forall src inc e, merge fuel src inc = Raise e -> e = OutOfFuel \/ (e = LookupError /\ exists n, reached file includes src n /\ file n = None).
Proof.
  induction fuel as [|fuel IHf]; intros src; induction src as [|x l IH]; intros inc e E.
  1, 3: rewrite merge_nil in E; discriminate E.
  all: destruct (includes x) as [n|] eqn:X.
  2, 4: rewrite merge_line in E by exact X; destruct (merge _ l inc) as [[t2 s2]|] eqn:E2; [discriminate E|]; injection E as ->;
    destruct (IH _ _ E2) as [->|(-> & n & R & F)]; [left; reflexivity|right; split; [reflexivity|]]; exists n; split; [|exact F]; apply (reached_more l); [apply names_tail|exact R].
  all: destruct (in_names n inc) as [I|I].
  1, 3: rewrite (merge_seen _ x n) in E by assumption; destruct (IH _ _ E) as [->|(-> & k & R & F)]; [left; reflexivity|right; split; [reflexivity|]];
    exists k; split; [|exact F]; apply (reached_more l); [apply names_tail|exact R].
  all: destruct (file n) as [src|] eqn:F.
  2, 4: rewrite (merge_missing _ x n) in E by assumption; injection E as <-; right; split; [reflexivity|]; exists n; split; [apply reached_here; apply names_head; exact X|exact F].
  - rewrite (merge_fuel0 x n l inc src) in E by assumption. injection E as <-. left. reflexivity.
  - rewrite (merge_file fuel x n l inc src) in E by assumption. destruct (merge fuel src (n :: inc)) as [[t1 s1]|e1] eqn:E1.
    + cbn [bind fst snd] in E. destruct (merge (S fuel) l s1) as [[t2 s2]|e2] eqn:E2; [discriminate E|]. injection E as ->.
      destruct (IH _ _ E2) as [->|(-> & k & R & G)]; [left; reflexivity|right; split; [reflexivity|]]. exists k. split; [|exact G]. apply (reached_more l); [apply names_tail|exact R].
    + injection E as ->. destruct (IHf _ _ _ E1) as [->|(-> & k & R & G)]; [left; reflexivity|right; split; [reflexivity|]]. exists k. split; [|exact G].
      exact (reached_under n src (x :: l) k (names_head x n l X) F R).
Qed.

(** The files which are left to include *)
Fixpoint left_of (dom inc : list text) : nat := match dom with [] => 0 | n :: dom => (if existsb (text_eqb n) inc then 0 else 1) + left_of dom inc end.
Lemma left_less dom : forall inc inc', (forall n, In n inc -> In n inc') -> left_of dom inc' <= left_of dom inc.
Proof.
  induction dom as [|n dom IH]; intros inc inc' H; cbn [left_of]; [lia|]. specialize (IH inc inc' H). destruct (existsb (text_eqb n) inc') eqn:A; [lia|].
  destruct (existsb (text_eqb n) inc) eqn:B; [|lia]. apply mem_spec in B. apply H in B. apply mem_spec in B. congruence.
Qed.
Lemma left_in dom n inc : In n dom -> ~ In n inc -> left_of dom (n :: inc) < left_of dom inc.
Proof.
  intros I N. induction dom as [|m dom IH]; [contradiction|]. cbn [left_of]. assert (L : left_of dom (n :: inc) <= left_of dom inc) by (apply left_less; intros k K; right; exact K).
  destruct I as [->|I].
  - assert (A : existsb (text_eqb n) (n :: inc) = true) by (apply mem_spec; left; reflexivity). apply mem_false in N. rewrite A, N. lia.
  - specialize (IH I). destruct (existsb (text_eqb m) (n :: inc)) eqn:A; [lia|]. destruct (existsb (text_eqb m) inc) eqn:B; [|lia].
    apply mem_spec in B. apply mem_false in A. exfalso. apply A. right. exact B.
Qed.
Lemma left_bound dom inc : left_of dom inc <= length dom.
Proof. induction dom as [|n dom IH]; cbn [left_of length]; [lia|]. destruct (existsb _ inc); lia. Qed.
Lemma merge_total dom : (forall n, file n <> None -> In n dom) -> forall fuel src inc, left_of dom inc <= fuel -> merge fuel src inc <> Raise OutOfFuel.
Proof.
  intros D. induction fuel as [|fuel IHf]; intros src; induction src as [|x l IH]; intros inc L E.
  1, 3: rewrite merge_nil in E; discriminate E.
  all: destruct (includes x) as [n|] eqn:X.
  2, 4: rewrite merge_line in E by exact X; destruct (merge _ l inc) as [[t2 s2]|] eqn:E2; [discriminate E|]; injection E as ->; exact (IH inc L E2).
  all: destruct (in_names n inc) as [I|I].
  1, 3: rewrite (merge_seen _ x n) in E by assumption; exact (IH inc L E).
  all: destruct (file n) as [src|] eqn:F; [|rewrite (merge_missing _ x n) in E by assumption; discriminate E].
  all: assert (J : In n dom) by (apply D; congruence); pose proof (left_in dom n inc J I) as Q.
  - lia.
  - rewrite (merge_file fuel x n l inc src) in E by assumption. destruct (merge fuel src (n :: inc)) as [[t1 s1]|e1] eqn:E1.
    + cbn [bind fst snd] in E. destruct (merge (S fuel) l s1) as [[t2 s2]|e2] eqn:E2; [discriminate E|]. injection E as ->. apply (IH s1); [|exact E2].
      destruct (merge_ok _ _ _ _ _ E1) as (o & u & _ & _ & _ & M & _). assert (left_of dom s1 <= left_of dom (n :: inc)) by (apply left_less; intros k K; apply M; right; exact K). lia.
    + injection E as ->. apply (IHf src (n :: inc)); [lia|exact E1].
Qed.
Lemma merge_more fuel : forall more src inc r, merge fuel src inc = r -> r <> Raise OutOfFuel -> merge (fuel + more) src inc = r.
Proof.
  induction fuel as [|fuel IHf]; intros more src; induction src as [|x l IH]; intros inc r E N.
  1, 3: rewrite merge_nil in *; exact E.
  all: destruct (includes x) as [n|] eqn:X.
  2, 4: rewrite merge_line in E by exact X; rewrite merge_line by exact X; destruct (merge _ l inc) as [[t2 s2]|e] eqn:E2 in E;
    [rewrite (IH _ _ E2) by discriminate; exact E|rewrite (IH _ _ E2) by (intros Q; apply N; rewrite <- E; injection Q as ->; reflexivity); exact E].
  all: destruct (in_names n inc) as [I|I].
  1, 3: rewrite (merge_seen _ x n) in E by assumption; rewrite (merge_seen _ x n) by assumption; exact (IH _ _ E N).
  all: destruct (file n) as [src|] eqn:F; [|rewrite (merge_missing _ x n) in E by assumption; rewrite (merge_missing _ x n) by assumption; exact E].
  - rewrite (merge_fuel0 x n l inc src) in E by assumption. congruence.
  - rewrite (merge_file fuel x n l inc src) in E by assumption. cbn [Nat.add]. rewrite (merge_file (fuel + more) x n l inc src) by assumption.
    destruct (merge fuel src (n :: inc)) as [[t1 s1]|e1] eqn:E1.
    + rewrite (IHf more src (n :: inc) _ E1) by discriminate. cbn [bind fst snd] in *. destruct (merge (S fuel) l s1) as [[t2 s2]|e2] eqn:E2.
      * cbn [Nat.add] in IH. rewrite (IH _ _ E2) by discriminate. exact E.
      * cbn [Nat.add] in IH. rewrite (IH _ _ E2) by (intros Q; apply N; rewrite <- E; injection Q as ->; reflexivity). exact E.
    + rewrite (IHf more src (n :: inc) _ E1) by (intros Q; apply N; rewrite <- E; injection Q as ->; reflexivity). exact E.
Qed.
(** A text without repetitions *)
Lemma merge_expands src out seen : expands file includes src out seen -> forall inc fuel, NoDup seen -> (forall n, In n seen -> ~ In n inc) -> length seen <= fuel ->
  exists inc', merge fuel src inc = Ok (concat out, inc') /\ forall n, In n inc' <-> In n seen \/ In n inc.
Proof.
  intros E. induction E as [|x l out seen X E IH|x n src l out1 seen1 out2 seen2 X F E1 IH1 E2 IH2]; intros inc fuel D N L.
  - exists inc. rewrite merge_nil. split; [reflexivity|]. cbn [In]. tauto.
  - destruct (IH inc fuel D N L) as (inc' & M & I). exists inc'. rewrite merge_line, M by exact X. split; [reflexivity|exact I].
  - cbn [length] in L. rewrite app_length in L. destruct fuel as [|fuel]; [lia|]. inversion D as [|? ? D1 D2]; subst.
    assert (H : ~ In n inc) by (apply N; left; reflexivity).
    assert (Q1 : NoDup seen1) by (clear - D2; induction seen1; [constructor|]; inversion D2; subst; constructor; [rewrite in_app_iff in *; tauto|auto]).
    assert (Q2 : NoDup seen2) by (clear - D2; induction seen1; [exact D2|]; inversion D2; subst; auto).
    assert (Q3 : forall k, In k seen2 -> ~ In k seen1).
    { clear - D2. induction seen1 as [|a seen1 IH]; [intros k _ []|]. inversion D2 as [|? ? A B]; subst. intros k K [<- | J]; [apply A; apply in_app_iff; right; exact K|exact (IH B k K J)]. }
    destruct (IH1 (n :: inc) fuel Q1) as (s1 & M1 & I1); [|lia|].
    { intros k K [<- | J]; [apply D1; apply in_app_iff; left; exact K|apply (N k); [right; apply in_app_iff; left; exact K|exact J]]. }
    destruct (IH2 s1 (S fuel) Q2) as (s2 & M2 & I2); [|lia|].
    { intros k K J. apply I1 in J. destruct J as [J|[<- | J]]; [exact (Q3 k K J)|apply D1; apply in_app_iff; right; exact K|].
      apply (N k); [right; apply in_app_iff; right; exact K|exact J]. }
    exists s2. rewrite (merge_file fuel x n l inc src) by assumption. rewrite M1. cbn [bind fst snd]. rewrite M2. cbn [bind fst snd]. rewrite concat_app. split; [reflexivity|].
    intros k. rewrite I2, I1. cbn [In]. rewrite in_app_iff. tauto.
Qed.
End Merge.
