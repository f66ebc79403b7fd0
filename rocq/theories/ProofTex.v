From Coq Require Import String Ascii List Bool Arith ZArith Lia.
From Verif Require Import Base ModelFormula ModelMeasure ModelXml ModelTex SpecTex ProofMeasure.
Import ListNotations.

(** ** Induction on trees *)
Fixpoint size (t : tree) : nat := match t with Leaf _ => 1 | Node _ _ _ l => S (list_sum (map size l)) end.
Lemma size_in t l : In t l -> size t <= list_sum (map size l).
Proof. induction l as [|a l IH]; [contradiction|]. change (list_sum (map size (a :: l))) with (size a + list_sum (map size l)). intros [->|H]; [lia|]. specialize (IH H). lia. Qed.
Lemma tree_ind' (P : tree -> Prop) : (forall t, P (Leaf t)) -> (forall i f l c, Forall P c -> P (Node i f l c)) -> forall t, P t.
Proof.
  intros A B t. remember (size t) as n. assert (N : size t <= n) by lia. clear Heqn. revert t N.
  induction n as [|n IH]; intros t N; [destruct t; cbn in N; lia|]. destruct t as [t|i f l c]; [apply A|]. apply B. apply Forall_forall. intros s S. apply IH.
  pose proof (size_in s c S). cbn [size] in N. lia.
Qed.

(** ** The text of what a buffer holds *)
Lemma holds_children h content children : Forall2 (holds h) content children -> forall c, In c children -> exists x, In x content /\ holds h x c.
Proof. induction 1 as [|x c l m H F IH]; [contradiction|]. intros d [->|D]; [exists x; cbn; auto|]. destruct (IH d D) as (y & Y & K). exists y. cbn; auto. Qed.
Lemma items_read h n content children :
  Forall (fun t => forall i, holds h (Ref i) t -> forall m, n <= m -> str m h i = Ok (flatten t)) children ->
  Forall2 (holds h) content children -> forall m, n <= m -> join_items (str m h) content = Ok (concat (map flatten children)).
Proof.
  intros P F m M. revert P. induction F as [|x c l k H F IH]; intro P; [reflexivity|]. inversion P as [|? ? P1 P2]; subst. specialize (IH P2). inversion H; subst.
  - cbn. rewrite IH. reflexivity.
  - cbn [join_items map concat]. rewrite (P1 i H m M). cbn [bind]. rewrite IH. reflexivity.
Qed.
Lemma holds_reads h t : forall i, holds h (Ref i) t -> forall m, size t <= m -> str m h i = Ok (flatten t).
Proof.
  induction t as [t|j f l c IH] using tree_ind'; intros i H m M; [inversion H|].
  inversion H as [|? ? content ? ? E F]; subst. destruct m as [|m]; [cbn [size] in M; lia|]. cbn [str]. rewrite E. cbn [b_content b_begin b_end].
  assert (P : Forall (fun t => forall i, holds h (Ref i) t -> forall k, m <= k -> str k h i = Ok (flatten t)) c).
  { rewrite Forall_forall in IH |- *. intros t T i K k Hk. apply (IH t T i K). pose proof (size_in t c T). cbn [size] in M. lia. }
  rewrite (items_read h m content c P F m (le_n m)). reflexivity.
Qed.
Lemma text_ok h i t : holds h (Ref i) t -> reads h i (flatten t).
Proof. intro H. exists (size t). intros m M. apply holds_reads; assumption. Qed.
(** conversely, a buffer with a text holds a tree *)
Lemma items_hold h m : (forall i t, str m h i = Ok t -> exists tr, holds h (Ref i) tr /\ flatten tr = t) ->
  forall content t, join_items (str m h) content = Ok t -> exists children, Forall2 (holds h) content children /\ concat (map flatten children) = t.
Proof.
  intro IH. induction content as [|x l IHl]; intros t H.
  - injection H as <-. exists []. split; [constructor|reflexivity].
  - destruct x as [s|j]; cbn [join_items] in H.
    + destruct (join_items (str m h) l) as [u|] eqn:E; [|discriminate]. injection H as <-. destruct (IHl u eq_refl) as (c & F & C). exists (Leaf s :: c).
      split; [constructor; [constructor|exact F]|]. cbn. rewrite C. reflexivity.
    + destruct (str m h j) as [v|] eqn:V; [|discriminate]. cbn [bind] in H. destruct (join_items (str m h) l) as [u|] eqn:E; [|discriminate]. injection H as <-.
      destruct (IHl u eq_refl) as (c & F & C). destruct (IH j v V) as (tr & T & W). exists (tr :: c). split; [constructor; assumption|]. cbn. rewrite W, C. reflexivity.
Qed.
Lemma reads_holds h m : forall i t, str m h i = Ok t -> exists tr, holds h (Ref i) tr /\ flatten tr = t.
Proof.
  induction m as [|m IH]; intros i t H; [discriminate|]. cbn [str] in H. destruct (nth_error h i) as [[f c l]|] eqn:E; [|discriminate]. cbn [b_content b_begin b_end] in H.
  destruct (join_items (str m h) c) as [u|] eqn:U; [|discriminate]. injection H as <-. destruct (items_hold h m IH c u U) as (ch & F & C). exists (Node i f l ch).
  split; [econstructor; eassumption|]. cbn [flatten]. rewrite C. reflexivity.
Qed.
Lemma text_iff h i t : reads h i t <-> exists tr, holds h (Ref i) tr /\ flatten tr = t.
Proof.
  split.
  - intros (n & H). apply (reads_holds h n). apply H. lia.
  - intros (tr & H & <-). apply text_ok, H.
Qed.

(** ** A buffer is not inside itself *)
Lemma holds_det h t : forall x, holds h x t -> forall u, holds h x u -> t = u.
Proof.
  induction t as [t|j f l c IH] using tree_ind'; intros x H u U; inversion H; subst; [inversion U; reflexivity|].
  match goal with E : nth_error h j = Some _, F : Forall2 _ _ _ |- _ => rename E into E1; rename F into F1 end.
  inversion U as [|? f2 c2 l2 ch2 E2 F2]; subst. rewrite E1 in E2. injection E2 as <- <- <-. f_equal. clear H U E1.
  revert ch2 F2. induction F1 as [|x a k b Ha F1 IHF]; intros ch2 F2; inversion F2; subst; [reflexivity|].
  inversion IH; subst. f_equal; [eauto|]. apply IHF; assumption.
Qed.
Lemma inside h t : forall x, holds h x t -> forall i, In i (buffers t) -> exists u, holds h (Ref i) u /\ size u <= size t.
Proof.
  induction t as [t|j f l c IH] using tree_ind'; intros x H i I; [contradiction|]. cbn [buffers] in I. destruct I as [<-|I].
  - inversion H; subst. exists (Node j f l c). split; [exact H|lia].
  - apply in_flat_map in I as (u & U & I). inversion H as [|? ? content ? ? E F]; subst. destruct (holds_children _ _ _ F u U) as (y & _ & Y).
    rewrite Forall_forall in IH. destruct (IH u U y Y i I) as (v & V & S). exists v. split; [exact V|]. pose proof (size_in u c U). cbn [size]. lia.
Qed.
Lemma not_inside h i f l c : holds h (Ref i) (Node i f l c) -> ~ In i (flat_map buffers c).
Proof.
  intros H I. apply in_flat_map in I as (u & U & I). inversion H as [|? ? content ? ? E F]; subst. destruct (holds_children _ _ _ F u U) as (y & _ & Y).
  destruct (inside h u y Y i I) as (v & V & S). pose proof (holds_det h _ _ H v V) as Q. subst v. pose proof (size_in u c U). cbn [size] in S. lia.
Qed.

(** ** Changes of the heap *)
Lemma nth_update {A} (l : list A) i j x : nth_error (update i x l) j = if Nat.eqb i j then match nth_error l j with Some _ => Some x | None => None end else nth_error l j.
Proof.
  revert i j. induction l as [|a l IH]; intros i j; cbn [update].
  - destruct i; destruct j; cbn; try reflexivity; destruct (i =? j); reflexivity.
  - destruct i as [|i]; destruct j as [|j]; cbn; try reflexivity. apply IH.
Qed.
Lemma nth_set h i c j : nth_error (set_content h i c) j = if Nat.eqb i j then match nth_error h j with Some b => Some (Buffer (b_begin b) c (b_end b)) | None => None end else nth_error h j.
Proof.
  unfold set_content. destruct (nth_error h i) as [b|] eqn:E.
  - rewrite nth_update. destruct (Nat.eqb_spec i j) as [<-|N]; [rewrite E; reflexivity|reflexivity].
  - destruct (Nat.eqb_spec i j) as [<-|N]; [rewrite E; reflexivity|reflexivity].
Qed.
Lemma holds_frame h h' t : forall x, holds h x t -> (forall i, In i (buffers t) -> nth_error h' i = nth_error h i) -> holds h' x t.
Proof.
  induction t as [t|j f l c IH] using tree_ind'; intros x H A; inversion H as [|? ? content ? ? E F]; subst; [constructor|].
  apply holds_buffer with content; [rewrite A; [exact E|left; reflexivity]|]. clear E H. revert IH A. induction F as [|y a k b Ha F IHF]; intros IH A; constructor.
  - inversion IH; subst. apply H1; [exact Ha|]. intros i I. apply A. cbn. right. apply in_or_app. left. exact I.
  - inversion IH; subst. apply IHF; [assumption|]. intros i [<-|I]; apply A; [left; reflexivity|right; apply in_or_app; right; exact I].
Qed.
Lemma frame_children h h' content children : Forall2 (holds h) content children -> (forall i, In i (flat_map buffers children) -> nth_error h' i = nth_error h i) -> Forall2 (holds h') content children.
Proof.
  induction 1 as [|x c l k H F IH]; intro A; constructor.
  - apply (holds_frame h); [exact H|]. intros i I. apply A. cbn. apply in_or_app. auto.
  - apply IH. intros i I. apply A. cbn. apply in_or_app. auto.
Qed.
(** Appending to a buffer adds at its end *)
Lemma append_one h i f l c x tr : holds h (Ref i) (Node i f l c) -> holds h x tr -> ~ In i (buffers tr) -> holds (append1 h i x false) (Ref i) (Node i f l (c ++ [tr])).
Proof.
  intros H X N. pose proof (not_inside _ _ _ _ _ H) as M. inversion H as [|? ? k ? ? E F]; subst. unfold append1, content. rewrite E. cbn [b_content].
  assert (Q : forall j, j <> i -> nth_error (set_content h i (k ++ [x])) j = nth_error h j) by (intros j J; rewrite nth_set; destruct (Nat.eqb_spec i j); congruence).
  apply holds_buffer with (k ++ [x]).
  - rewrite nth_set, Nat.eqb_refl, E. reflexivity.
  - apply Forall2_app; [apply (frame_children h); [exact F|]|constructor; [|constructor]].
    + intros j J. apply Q. intros ->. contradiction.
    + apply (holds_frame h); [exact X|]. intros j J. apply Q. intros ->. contradiction.
Qed.
Lemma append_other h i x j : j <> i -> nth_error (append1 h i x false) j = nth_error h j.
Proof. intro N. unfold append1. rewrite nth_set. destruct (Nat.eqb_spec i j); congruence. Qed.
(** any number of items *)
Lemma append_ok data : forall h i f l c trees, holds h (Ref i) (Node i f l c) -> Forall2 (holds h) data trees -> (forall t, In t trees -> ~ In i (buffers t)) ->
  holds (append h i data false) (Ref i) (Node i f l (c ++ trees)).
Proof.
  unfold append. induction data as [|x data IH]; intros h i f l c trees H F N; inversion F as [|? tr ? trees' X F']; subst; cbn [fold_left].
  - rewrite app_nil_r. exact H.
  - pose proof (append_one h i f l c x tr H X (N tr (or_introl eq_refl))) as H'. replace (c ++ tr :: trees') with ((c ++ [tr]) ++ trees') by (rewrite <- app_assoc; reflexivity).
    apply IH; [exact H'| |intros t T; apply N; right; exact T]. apply (frame_children h); [exact F'|]. intros j J. apply append_other. intros ->.
    apply in_flat_map in J as (t & T & J). apply (N t (or_intror T) J).
Qed.
(** A buffer appended into itself has no text *)
Lemma loop_none h i : In (Ref i) (content h i) -> forall m, ~ is_ok (str m h i).
Proof.
  intros H m (t & T). destruct (reads_holds h m i t T) as (tr & R & _). inversion R as [|? f k l c E F]; subst. unfold content in H. rewrite E in H. cbn [b_content] in H.
  apply (not_inside h i f l c); [exact R|]. clear - H F. induction F as [|x a k c X F IH]; [contradiction|]. cbn. apply in_or_app. destruct H as [->|H].
  - left. inversion X; subst. left. reflexivity.
  - right. apply IH, H.
Qed.
Lemma append_self h i k : i < length h -> forall m, ~ is_ok (str m (append h i (Ref i :: k) false) i).
Proof.
  intros L m. apply loop_none. unfold append. cbn [fold_left]. assert (G : forall k h, In (Ref i) (content h i) -> i < length h -> In (Ref i) (content (fold_left (fun h x => append1 h i x false) k h) i)).
  { clear. induction k as [|x k IH]; intros h H L; cbn [fold_left]; [exact H|]. apply IH.
    - unfold append1, content in *. rewrite nth_set, Nat.eqb_refl. destruct (nth_error h i) as [b|]; [|contradiction]. cbn. apply in_or_app. auto.
    - apply nth_error_Some. unfold append1. rewrite nth_set, Nat.eqb_refl. destruct (nth_error h i) eqn:E; [discriminate|]. apply nth_error_None in E. lia. }
  apply nth_error_Some in L. apply G.
  - unfold append1, content. rewrite nth_set, Nat.eqb_refl. destruct (nth_error h i) as [b|]; [|congruence]. cbn. apply in_or_app. cbn. auto.
  - apply nth_error_Some. unfold append1. rewrite nth_set, Nat.eqb_refl. destruct (nth_error h i); congruence.
Qed.

(** ** Deep copies *)
Fixpoint shifted (n : nat) (t : tree) : tree := match t with Leaf t => Leaf t | Node i f l c => Node (n + i) f l (map (shifted n) c) end.
Lemma shifted_flatten n t : flatten (shifted n t) = flatten t.
Proof.
  induction t as [t|i f l c IH] using tree_ind'; [reflexivity|]. cbn [shifted flatten]. rewrite map_map. do 2 f_equal. f_equal. apply map_ext_in. rewrite Forall_forall in IH. exact IH.
Qed.
Lemma shifted_holds h t : forall x, holds h x t -> holds (h ++ map (shift (length h)) h) (shift_item (length h) x) (shifted (length h) t).
Proof.
  induction t as [t|j f l c IH] using tree_ind'; intros x H; inversion H as [|? ? k ? ? E F]; subst; [constructor|]. cbn [shift_item shifted].
  apply holds_buffer with (map (shift_item (length h)) k).
  - rewrite nth_error_app2 by lia. replace (length h + j - length h) with j by lia. rewrite nth_error_map, E. reflexivity.
  - clear E H. induction F as [|x a m b X F IHF]; [constructor|]. inversion IH; subst. cbn [map]. constructor; [auto|]. apply IHF. assumption.
Qed.
Lemma shifted_buffers n t i : In i (buffers (shifted n t)) -> n <= i.
Proof.
  revert i. induction t as [t|j f l c IH] using tree_ind'; intros i H; [contradiction|]. cbn [shifted buffers] in H. destruct H as [<-|H]; [lia|].
  apply in_flat_map in H as (u & U & I). apply in_map_iff in U as (v & <- & V). rewrite Forall_forall in IH. apply (IH v V i I).
Qed.
Lemma holds_bound h t : forall x, holds h x t -> forall i, In i (buffers t) -> i < length h.
Proof. intros x H i I. destruct (inside h t x H i I) as (u & U & _). inversion U; subst. apply nth_error_Some. congruence. Qed.
Lemma extend_holds h k t x : holds h x t -> holds (h ++ k) x t.
Proof. intro H. apply (holds_frame h); [exact H|]. intros i I. apply nth_error_app1. apply (holds_bound h t x H i I). Qed.
Lemma append_copy h i f l c x tr : holds h (Ref i) (Node i f l c) -> holds h x tr ->
  exists tr', holds (append1 h i x true) (Ref i) (Node i f l (c ++ [tr'])) /\ flatten tr' = flatten tr /\ (forall j, In j (buffers tr') -> length h <= j).
Proof.
  intros H X. destruct x as [t|j].
  - inversion X; subst. exists (Leaf t). split; [|split; [reflexivity|contradiction]]. change (append1 h i (Str t) true) with (append1 h i (Str t) false). apply append_one; [exact H|exact X|exact (fun F => F)].
  - exists (shifted (length h) tr). split; [|split; [apply shifted_flatten|intros k K; apply shifted_buffers in K; exact K]].
    change (append1 h i (Ref j) true) with (append1 (h ++ map (shift (length h)) h) i (shift_item (length h) (Ref j)) false).
    apply append_one; [apply extend_holds, H|apply shifted_holds, X|]. intro I. apply shifted_buffers in I. pose proof (holds_bound h _ _ H i (or_introl eq_refl)). lia.
Qed.
(** Without a copy, changes of the inner buffer are seen; with one they are not *)
Lemma shared_seen h i j fi li ci fj lj cj x tr :
  holds h (Ref i) (Node i fi li ci) -> holds h (Ref j) (Node j fj lj cj) -> holds h x tr ->
  ~ In i (buffers (Node j fj lj cj)) -> ~ In i (buffers tr) -> ~ In j (buffers tr) -> ~ In j (flat_map buffers ci) ->
  holds (append1 (append1 h i (Ref j) false) j x false) (Ref i) (Node i fi li (ci ++ [Node j fj lj (cj ++ [tr])])).
Proof.
  intros Hi Hj X N1 N2 N3 N4. pose proof (append_one h i fi li ci (Ref j) _ Hi Hj N1) as A. set (h1 := append1 h i (Ref j) false) in *.
  assert (IJ : j <> i) by (intros ->; apply N1; left; reflexivity).
  assert (Hj1 : holds h1 (Ref j) (Node j fj lj cj)) by (apply (holds_frame h); [exact Hj|]; intros k K; apply append_other; intros ->; contradiction).
  assert (X1 : holds h1 x tr) by (apply (holds_frame h); [exact X|]; intros k K; apply append_other; intros ->; contradiction).
  pose proof (append_one h1 j fj lj cj x tr Hj1 X1 N3) as B. inversion A as [|? ? k ? ? E F]; subst.
  apply holds_buffer with k; [rewrite append_other by congruence; exact E|]. apply Forall2_app_inv_r in F as (k1 & k2 & F1 & F2 & ->). apply Forall2_app.
  - apply (frame_children h1); [exact F1|]. intros n I. apply append_other. intros ->. contradiction.
  - inversion F2 as [|y ? m ? Y F3]; subst. inversion F3; subst. inversion Y; subst. constructor; [exact B|constructor].
Qed.
Lemma copy_kept h i j fi li ci fj lj cj x : i <> j ->
  holds h (Ref i) (Node i fi li ci) -> holds h (Ref j) (Node j fj lj cj) -> ~ In j (flat_map buffers ci) ->
  exists tr, holds (append1 (append1 h i (Ref j) true) j x false) (Ref i) (Node i fi li (ci ++ [tr])) /\ flatten tr = flatten (Node j fj lj cj).
Proof.
  intros IJ Hi Hj N. destruct (append_copy h i fi li ci (Ref j) _ Hi Hj) as (tr & A & B & C). exists tr. split; [|exact B].
  apply (holds_frame (append1 h i (Ref j) true)); [exact A|]. intros k K. apply append_other. intros ->. cbn in K. destruct K as [K|K]; [congruence|].
  rewrite flat_map_app in K. apply in_app_or in K as [K|K]; [contradiction|]. cbn in K. rewrite app_nil_r in K. apply C in K. pose proof (holds_bound h _ _ Hj j (or_introl eq_refl)). lia.
Qed.
(** New buffers *)
Lemma new_env_ok h name options h' i : new_environment h name options = (h', i) ->
  holds h' (Ref i) (Node i (lit "\begin{" ++ name ++ lit "}" ++ (if text_eqb options [] then [] else lit "[" ++ options ++ lit "]") ++ newline) (lit "\end{" ++ name ++ lit "}" ++ newline) []) /\
  (forall x t, holds h x t -> holds h' x t) /\ (forall x t, holds h x t -> ~ In i (buffers t)).
Proof.
  unfold new_environment. intro H. injection H as <- <-. split; [|split].
  - apply holds_buffer with []; [|constructor]. rewrite nth_error_app2 by lia. rewrite Nat.sub_diag. reflexivity.
  - intros x t. apply extend_holds.
  - intros x t H I. apply (holds_bound h t x H) in I. lia.
Qed.
Lemma new_buffer_ok h h' i : new_buffer h = (h', i) -> holds h' (Ref i) (Node i [] [] []) /\ (forall x t, holds h x t -> holds h' x t) /\ (forall x t, holds h x t -> ~ In i (buffers t)).
Proof.
  unfold new_buffer. intro H. injection H as <- <-. split; [|split].
  - apply holds_buffer with []; [|constructor]. rewrite nth_error_app2 by lia. rewrite Nat.sub_diag. reflexivity.
  - intros x t. apply extend_holds.
  - intros x t H I. apply (holds_bound h t x H) in I. lia.
Qed.
Lemma clear_ok h i f l c : holds h (Ref i) (Node i f l c) -> holds (clear h i) (Ref i) (Node i f l []).
Proof. intro H. inversion H as [|? ? k ? ? E F]; subst. apply holds_buffer with []; [|constructor]. unfold clear. rewrite nth_set, Nat.eqb_refl, E. reflexivity. Qed.

(** ** Names of files *)
Lemma rfind_end s : rfind_at (lit ".tex") (s ++ lit ".tex") = Some (length s).
Proof.
  induction s as [|c s IH]; [reflexivity|]. cbn [app rfind_at length]. rewrite IH. reflexivity.
Qed.
Lemma rfind_bound p s k : p <> [] -> rfind_at p s = Some k -> k + length p <= length s /\ firstn (length p) (skipn k s) = p.
Proof.
  intro P. revert k. induction s as [|c s IH]; intros k H; cbn [rfind_at] in H.
  - destruct p; [contradiction|discriminate].
  - destruct (rfind_at p s) as [j|] eqn:E.
    + injection H as <-. destruct (IH j eq_refl) as (A & B). cbn. split; [lia|exact B].
    + destruct (starts p (c :: s)) eqn:S; [|discriminate]. injection H as <-. cbn [skipn plus]. clear - S.
      revert S. generalize (c :: s). clear. induction p as [|a p IH]; intros l S; [cbn; split; [lia|reflexivity]|]. destruct l as [|b l]; [discriminate|]. cbn in S.
      apply andb_prop in S as (E & S). apply Ascii.eqb_eq in E as ->. destruct (IH l S) as (A & B). cbn. split; [lia|]. f_equal. exact B.
Qed.
Lemma stem_suffix s : stem (s ++ lit ".tex") = s.
Proof.
  unfold stem, rfind. rewrite rfind_end, app_length. change (length (lit ".tex")) with 4. replace (Z.of_nat (length s + 4) - Z.of_nat (length s) =? 4)%Z with true by (symmetry; apply Z.eqb_eq; lia).
  replace (length s + 4 - 4) with (length s + 0) by lia. rewrite firstn_app_2. apply app_nil_r.
Qed.
Lemma stem_plain name : ~ has_suffix name -> length name <> 3 -> stem name = name.
Proof.
  intros N L. unfold stem. destruct (Z.eqb_spec (Z.of_nat (length name) - rfind (lit ".tex") name) 4) as [E|E]; [|reflexivity]. exfalso. unfold rfind in E.
  destruct (rfind_at (lit ".tex") name) as [k|] eqn:K; [|lia]. apply rfind_bound in K; [|discriminate]. destruct K as (A & B). change (length (lit ".tex")) with 4 in *.
  apply N. exists (firstn k name). rewrite <- (firstn_skipn k name) at 1. f_equal. rewrite <- B at 1. symmetry. etransitivity; [|apply firstn_all].
  f_equal. rewrite skipn_length. lia.
Qed.
Lemma stem_three name : length name = 3 -> stem name = [].
Proof.
  intro L. unfold stem, rfind. destruct (rfind_at (lit ".tex") name) as [k|] eqn:K.
  - apply rfind_bound in K; [|discriminate]. change (length (lit ".tex")) with 4 in K. lia.
  - rewrite L. reflexivity.
Qed.
Lemma file_name name : length name <> 3 -> ~ has_suffix name -> tex_filename (stem name) = name ++ lit ".tex" /\ tex_filename (stem (name ++ lit ".tex")) = name ++ lit ".tex".
Proof. intros L N. rewrite stem_plain, stem_suffix by assumption. split; reflexivity. Qed.
Lemma file_name_three name : length name = 3 -> tex_filename (stem name) = lit ".tex" /\ tex_filename (stem (name ++ lit ".tex")) = name ++ lit ".tex" /\ name ++ lit ".tex" <> lit ".tex".
Proof.
  intro L. rewrite stem_three, stem_suffix by assumption. repeat split. intro E. apply (f_equal (@length ascii)) in E. rewrite app_length, L in E. discriminate E.
Qed.

(** ** Templates *)
Definition subst1 (a : ascii) (r : text) (s : text) : text := flat_map (fun c => if Ascii.eqb c a then r else [c]) s.
Lemma replace_one a r s : replace [a] r s = subst1 a r s.
Proof.
  unfold replace, subst1. induction s as [|c s IH]; [reflexivity|]. cbn [replacing flat_map].
  change (starts [a] (c :: s)) with (Ascii.eqb a c && true)%bool. change (length [a] - 1) with 0. rewrite IH. rewrite andb_true_r, Ascii.eqb_sym. destruct (Ascii.eqb c a); reflexivity.
Qed.
Lemma subst1_app a r s t : subst1 a r (s ++ t) = subst1 a r s ++ subst1 a r t.
Proof. apply flat_map_app. Qed.
Lemma subst1_none a r s : ~ In a s -> subst1 a r s = s.
Proof.
  induction s as [|c s IH]; intro N; [reflexivity|]. cbn. destruct (Ascii.eqb_spec c a) as [->|]; [destruct N; left; reflexivity|]. cbn. unfold subst1 in IH. rewrite IH; [reflexivity|]. intro H. apply N. right. exact H.
Qed.
Definition escape (s : text) : text := flat_map (fun c => if Ascii.eqb c "{"%char then lit "{{" else if Ascii.eqb c "}"%char then lit "}}" else [c]) s.
Lemma escape_ok s : subst1 "}"%char (lit "}}") (subst1 "{"%char (lit "{{") s) = escape s.
Proof.
  induction s as [|c s IH]; [reflexivity|].
  change (subst1 "{"%char (lit "{{") (c :: s)) with ((if Ascii.eqb c "{"%char then lit "{{" else [c]) ++ subst1 "{"%char (lit "{{") s).
  change (escape (c :: s)) with ((if Ascii.eqb c "{"%char then lit "{{" else if Ascii.eqb c "}"%char then lit "}}" else [c]) ++ escape s).
  rewrite subst1_app, IH. f_equal. destruct (Ascii.eqb_spec c "{"%char) as [->|N]; [reflexivity|]. cbn. destruct (Ascii.eqb c "}"%char); reflexivity.
Qed.
Definition braced (p : piece) : text := match p with Literal t => escape t | Field n => lit "{" ++ n ++ lit "}" end.
Lemma escape_in c s : In c (escape s) -> In c s \/ c = "{"%char \/ c = "}"%char.
Proof.
  intro H. apply in_flat_map in H as (d & D & H). destruct (Ascii.eqb d "{"%char); [right; left; cbn in H; intuition|]. destruct (Ascii.eqb d "}"%char); [right; right; cbn in H; intuition|].
  cbn in H. destruct H as [->|[]]. auto.
Qed.
Lemma escape_none s : (forall c, In c s -> c <> "{"%char /\ c <> "}"%char) -> escape s = s.
Proof.
  induction s as [|c s IH]; intro H; [reflexivity|]. cbn. destruct (H c (or_introl eq_refl)) as (A & B). destruct (Ascii.eqb_spec c "{"%char); [contradiction|]. destruct (Ascii.eqb_spec c "}"%char); [contradiction|].
  cbn. f_equal. apply IH. intros d D. apply H. right. exact D.
Qed.
Lemma piece_braced p : plain_piece p ->
  subst1 close_quote (lit "}") (subst1 open_quote (lit "{") (subst1 "}"%char (lit "}}") (subst1 "{"%char (lit "{{") (quoted p)))) = braced p.
Proof.
  rewrite escape_ok. destruct p as [t|n]; cbn [plain_piece quoted braced].
  - intros (A & B). rewrite (subst1_none open_quote); [apply subst1_none|].
    + intro H. apply escape_in in H as [H|[H|H]]; [contradiction|discriminate H|discriminate H].
    + intro H. apply escape_in in H as [H|[H|H]]; [contradiction|discriminate H|discriminate H].
  - intro H. unfold escape. rewrite !flat_map_app. fold (escape n). rewrite (escape_none n) by (intros c C; destruct (H c C) as (X & Y & _); auto).
    change (flat_map _ [open_quote]) with [open_quote]. change (flat_map _ [close_quote]) with [close_quote]. rewrite !subst1_app.
    rewrite (subst1_none open_quote _ n) by (intro C; destruct (H _ C) as (_ & _ & X & _); congruence).
    rewrite (subst1_none close_quote _ n) by (intro C; destruct (H _ C) as (_ & _ & _ & X); congruence). reflexivity.
Qed.
Lemma pieces_braced l : Forall plain_piece l ->
  subst1 close_quote (lit "}") (subst1 open_quote (lit "{") (subst1 "}"%char (lit "}}") (subst1 "{"%char (lit "{{") (flat_map quoted l)))) = flat_map braced l.
Proof. induction 1 as [|p l P F IH]; [reflexivity|]. cbn [flat_map]. rewrite !subst1_app, IH, (piece_braced p P). reflexivity. Qed.
Section Fields.
Variable field : text -> result text.
Lemma format_literal t s : format field None (escape t ++ s) = bind (format field None s) (fun u => Ok (t ++ u)).
Proof.
  induction t as [|c t IH]; [cbn; destruct (format field None s); reflexivity|]. unfold escape. cbn [flat_map]. fold (escape t). destruct (Ascii.eqb_spec c "{"%char) as [->|A].
  - change ((lit "{{" ++ escape t) ++ s) with ("{"%char :: "{"%char :: (escape t ++ s)). cbn [format Ascii.eqb Bool.eqb]. rewrite IH. destruct (format field None s); reflexivity.
  - destruct (Ascii.eqb_spec c "}"%char) as [->|B].
    + change ((lit "}}" ++ escape t) ++ s) with ("}"%char :: "}"%char :: (escape t ++ s)). cbn [format Ascii.eqb Bool.eqb]. rewrite IH. destruct (format field None s); reflexivity.
    + change (([c] ++ escape t) ++ s) with (c :: (escape t ++ s)). cbn [format]. destruct (Ascii.eqb_spec c "{"%char); [contradiction|]. destruct (Ascii.eqb_spec c "}"%char); [contradiction|].
      rewrite IH. destruct (format field None s); reflexivity.
Qed.
Lemma format_name n : forall acc s, (forall c, In c n -> c <> "{"%char /\ c <> "}"%char) ->
  format field (Some acc) (n ++ "}"%char :: s) = bind (field (acc ++ n)) (fun v => bind (format field None s) (fun u => Ok (v ++ u))).
Proof.
  induction n as [|c n IH]; intros acc s H.
  - rewrite app_nil_r. reflexivity.
  - destruct (H c (or_introl eq_refl)) as (A & B). cbn [app format]. destruct (Ascii.eqb_spec c "}"%char); [contradiction|]. destruct (Ascii.eqb_spec c "{"%char); [contradiction|].
    rewrite IH by (intros d D; apply H; right; exact D). rewrite <- app_assoc. reflexivity.
Qed.
Lemma format_field n s : (forall c, In c n -> c <> "{"%char /\ c <> "}"%char) -> n <> [] ->
  format field None (lit "{" ++ n ++ lit "}" ++ s) = bind (field n) (fun v => bind (format field None s) (fun u => Ok (v ++ u))).
Proof.
  intros H NE. destruct n as [|c n]; [congruence|]. change (lit "{" ++ (c :: n) ++ lit "}" ++ s) with ("{"%char :: c :: (n ++ "}"%char :: s)). 
  destruct (H c (or_introl eq_refl)) as (A & B). etransitivity; [|exact (format_name (c :: n) [] s H)]. cbn [app]. cbn [format Ascii.eqb Bool.eqb]. destruct (Ascii.eqb_spec c "{"%char); [contradiction|].
  destruct (Ascii.eqb_spec c "}"%char); [contradiction|]. reflexivity.
Qed.
Lemma format_empty s : format field None (lit "{}" ++ s) = bind (field []) (fun v => bind (format field None s) (fun u => Ok (v ++ u))).
Proof. reflexivity. Qed.
Lemma template_ok l : Forall plain_piece l -> template field (flat_map quoted l) = filled field l.
Proof.
  intro H. transitivity (format field None (flat_map braced l)).
  { rewrite <- (pieces_braced l H). rewrite <- !replace_one. reflexivity. }
  induction H as [|p l P F IH]; [reflexivity|]. cbn [flat_map]. destruct p as [t|n]; cbn [braced filled].
  - rewrite format_literal, IH. reflexivity.
  - cbn [plain_piece] in P. rewrite <- app_assoc, <- app_assoc. destruct n as [|c n].
    + change (lit "{" ++ [] ++ lit "}" ++ flat_map braced l) with (lit "{}" ++ flat_map braced l). rewrite format_empty, IH. reflexivity.
    + rewrite format_field, IH; [reflexivity| |discriminate]. intros d D. destruct (P d D) as (A & B & _). auto.
Qed.
End Fields.

(** ** Documents *)
Lemma document_ok h d p c : holds h (Ref (d_preambule d)) p -> holds h (Ref (d_content d)) c ->
  exists n, forall m, n <= m -> document_str m h d = Ok (lit "\documentclass[" ++ d_options d ++ lit "]{" ++ d_class d ++ lit "}" ++ newline ++ flatten p ++ flatten c).
Proof.
  intros P C. exists (size p + size c). intros m M. unfold document_str.
  set (l := [Literal (lit "\documentclass["); Field (lit "0._class_options"); Literal (lit "]{"); Field (lit "0._class_name"); Literal (lit "}")]).
  assert (L : Forall plain_piece l).
  { unfold l. repeat apply Forall_cons; try apply Forall_nil; cbn [plain_piece].
    - split; intro H; vm_compute in H; intuition discriminate.
    - intros a A. vm_compute in A. repeat (destruct A as [<-|A]; [repeat split; discriminate|]). contradiction.
    - split; intro H; vm_compute in H; intuition discriminate.
    - intros a A. vm_compute in A. repeat (destruct A as [<-|A]; [repeat split; discriminate|]). contradiction.
    - split; intro H; vm_compute in H; intuition discriminate. }
  match goal with |- context [template ?f ?s] => change s with (flat_map quoted l) end. rewrite (template_ok _ l L). cbn [filled l].
  change (document_field d (lit "0._class_options")) with (Ok (d_options d)). change (document_field d (lit "0._class_name")) with (Ok (d_class d)). cbn [bind].
  rewrite (holds_reads h p _ P m) by lia. cbn [bind]. rewrite (holds_reads h c _ C m) by lia. cbn [bind]. f_equal. rewrite <- !app_assoc. reflexivity.
Qed.
Lemma pdf_name name : length name <> 3 -> ~ has_suffix name -> pdf_filename (stem name) = name ++ lit ".pdf" /\ pdf_filename (stem (name ++ lit ".tex")) = name ++ lit ".pdf".
Proof. intros L N. rewrite stem_plain, stem_suffix by assumption. split; reflexivity. Qed.
(** A new page *)
Lemma newpage_ok h d f l c : holds h (Ref (d_content d)) (Node (d_content d) f l c) ->
  holds (newpage h d) (Ref (d_content d)) (Node (d_content d) f l (c ++ [Leaf (lit "\newpage" ++ newline)])) /\
  forall p, holds h (Ref (d_preambule d)) p -> ~ In (d_content d) (buffers p) -> holds (newpage h d) (Ref (d_preambule d)) p.
Proof.
  intro H. unfold newpage, append. cbn [fold_left]. split.
  - apply append_one; [exact H|constructor|intros []].
  - intros p P N. apply (holds_frame h); [exact P|]. intros j J. apply append_other. intros ->. contradiction.
Qed.
