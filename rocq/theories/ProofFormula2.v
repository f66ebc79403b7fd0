(** The rewriting of the formulas of [plain]. *)
From Coq Require Import String Ascii List Bool Arith Lia.
From Verif Require Import Base ModelFormula SpecFormula ProofFormula.
Import ListNotations.
Local Open Scope list_scope.

(** ** Occurrences *)
Lemma occurs_trans p n s : occurs p n -> occurs n s -> occurs p s.
Proof. intros (a & b & ->) (c & d & ->). exists (c ++ a), (b ++ d). rewrite !app_assoc. reflexivity. Qed.
Lemma occurs_prefix p r : occurs p (p ++ r).
Proof. exists [], r. reflexivity. Qed.
Lemma occurs_refl p : occurs p p.
Proof. exists [], []. rewrite app_nil_r. reflexivity. Qed.
Lemma occurs_in p s c : In c p -> occurs p s -> In c s.
Proof. intros H (a & b & ->). apply in_or_app. right. apply in_or_app. left. exact H. Qed.
Lemma occurs_dec p s : occurs p s \/ ~ occurs p s.
Proof.
  destruct (find p s) as [k|] eqn:E; [left|right; apply find_none, E]. destruct (find_some p s k E) as (a & b & -> & _).
  exists a, b. reflexivity.
Qed.
Lemma occurs_stop p a c b : p <> [] -> ~ In c p -> occurs p (a ++ c :: b) -> occurs p a \/ occurs p b.
Proof.
  intros Np N O. destruct (occurs_dec p a) as [H|Ha]; [auto|]. destruct (occurs_dec p b) as [H|Hb]; [auto|].
  exfalso. apply find_none in Ha, Hb. apply (proj1 (find_none p (a ++ c :: b))); [|exact O].
  rewrite (find_stop p a c b Np N), Ha, Hb. reflexivity.
Qed.
Lemma occurs_join p sep l : p <> [] -> (exists c, In c sep /\ ~ In c p) -> sep <> [] ->
  (forall x, In x sep -> ~ In x p) -> occurs p (join sep l) -> l = [] \/ exists w, In w l /\ occurs p w.
Proof.
  intros Np _ Ns Nc. induction l as [|w l IH]; [auto|]. intro O. right. destruct l as [|v l].
  - exists w. split; [left; reflexivity|exact O].
  - change (join sep (w :: v :: l)) with (w ++ sep ++ join sep (v :: l)) in O.
    assert (Q : forall s a r, (forall x, In x s -> ~ In x p) -> s <> [] -> occurs p (a ++ s ++ r) -> occurs p a \/ occurs p r).
    { clear O IH. intros s. induction s as [|c s IHs]; intros a r Hs Hn O; [contradiction|]. cbn in O.
      destruct (occurs_stop p a c (s ++ r) Np (Hs c (or_introl eq_refl)) O) as [H|H]; [auto|].
      destruct s as [|d s]; [auto|]. destruct (IHs [] r) as [K|K]; [intros x X; apply Hs; right; exact X|discriminate|exact H| |auto].
      destruct K as (x & y & K). symmetry in K. apply app_eq_nil in K. destruct K as [_ K]. apply app_eq_nil in K. destruct K. contradiction. }
    destruct (Q sep w _ Nc Ns O) as [H|H]; [exists w; split; [left; reflexivity|exact H]|].
    destruct (IH H) as [D|(u & U & W)]; [discriminate|]. exists u. split; [right; exact U|exact W].
Qed.
Lemma occurs_in_join p sep l w : In w l -> occurs p w -> occurs p (join sep l).
Proof.
  induction l as [|v l IH]; [intros []|]. intros H O. destruct l as [|u l].
  - destruct H as [<-|[]]. exact O.
  - change (join sep (v :: u :: l)) with (v ++ sep ++ join sep (u :: l)). destruct H as [<-|H].
    + apply (occurs_trans p v); [exact O|apply occurs_prefix].
    + apply (occurs_trans p (join sep (u :: l))); [exact (IH H O)|]. exists (v ++ sep), []. rewrite app_nil_r, app_assoc. reflexivity.
Qed.

(** ** The tables *)
Lemma functions_cases p : In p functions -> p = lit "CurrentLength" \/ exists f, In f measures /\ p = f ++ lit "_".
Proof.
  cbn [functions map In]. intros H.
  repeat (destruct H as [<-|H]; [first [left; reflexivity|right; match goal with |- exists f, _ /\ ?p = _ => exists (removelast p) end; split; [cbn; tauto|reflexivity]]|]); contradiction.
Qed.
Lemma functions_word p : In p functions -> p <> [] /\ word_only p.
Proof.
  cbn [functions map In]. intros H. split; [intros ->|]; repeat (destruct H as [H|H]; [first [discriminate H|subst; repeat constructor]|]); contradiction.
Qed.
Lemma innocent_spec p s : innocent s -> In p functions -> ~ occurs p s.
Proof.
  intros [I1 I2] H. destruct (functions_cases p H) as [->|(f & F & ->)]; [exact I2|].
  rewrite Forall_forall in I1. exact (I1 f F).
Qed.
Ltac table H := cbn [functions measures map In] in H; repeat (destruct H as [<-|H]); [..|contradiction].
Lemma tail_call p f rest : In p functions -> In f measures -> ~ occurs p rest ->
  tail_list p (f ++ lit "_" ++ rest) = match find p (f ++ lit "_") with Some _ => [p ++ rest] | None => [] end.
Proof.
  intros P F N. apply find_none in N. table P; table F; unfold tail_list, tail_from; cbn; try reflexivity; cbn in N; rewrite N; reflexivity.
Qed.
Lemma occurs_call p f rest : In p functions -> In f measures -> ~ occurs p rest ->
  occurs p (f ++ lit "_" ++ rest) -> find p (f ++ lit "_") <> None.
Proof.
  intros P F N O E. pose proof (tail_call p f rest P F N) as T. rewrite E in T. unfold tail_list, tail_from in T.
  destruct (find p (f ++ lit "_" ++ rest)) eqn:Q; [discriminate|]. apply find_none in Q. contradiction.
Qed.

(** ** split and the python text *)
Lemma split_word s : no_score s -> split "_"%char s = [s].
Proof.
  induction s as [|c s IH]; intro N; [reflexivity|]. cbn. destruct (Ascii.eqb_spec c "_"%char) as [->|_]; [destruct N; left; reflexivity|].
  rewrite IH; [reflexivity|]. intro H. apply N. right. exact H.
Qed.
Lemma split_app s t : no_score s -> split "_"%char (s ++ lit "_" ++ t) = s :: split "_"%char t.
Proof.
  induction s as [|c s IH]; intro N; [reflexivity|]. cbn. destruct (Ascii.eqb_spec c "_"%char) as [->|_]; [destruct N; left; reflexivity|].
  change (s ++ "_"%char :: t) with (s ++ lit "_" ++ t). rewrite IH; [reflexivity|]. intro H. apply N. right. exact H.
Qed.
Lemma split_join args : args <> [] -> Forall no_score args -> split "_"%char (join (lit "_") args) = args.
Proof.
  induction args as [|a args IH]; [contradiction|]. intros _ N. inversion N as [|? ? N1 N2]; subst. destruct args as [|b args].
  - apply split_word, N1.
  - change (join (lit "_") (a :: b :: args)) with (a ++ lit "_" ++ join (lit "_") (b :: args)). rewrite (split_app a _ N1), IH; [reflexivity|discriminate|exact N2].
Qed.
Lemma measure_no_score f : In f measures -> no_score f.
Proof. intros F H. table F; cbn in H; repeat (destruct H as [H|H]; [discriminate H|]); contradiction. Qed.
Lemma pythonised_call py f args : good_token (Call f args) -> pythonised (text_of (Call f args)) = python_of py (Call f args).
Proof.
  intros (F & Na & _ & Ns & _). unfold pythonised. cbn [text_of]. rewrite (split_app f _ (measure_no_score f F)), (split_join args Na Ns).
  reflexivity.
Qed.

(** No special function is left in the python text. *)
Lemma word_not c p : word_only p -> is_word c = false -> ~ In c p.
Proof. intros W C H. unfold word_only in W. rewrite Forall_forall in W. rewrite (W c H) in C. discriminate. Qed.
Lemma join_word args : Forall word_only args -> word_only (join (lit "_") args).
Proof.
  induction args as [|a args IH]; intro W; [constructor|]. inversion W as [|? ? W1 W2]; subst. destruct args as [|b args]; [exact W1|].
  change (join (lit "_") (a :: b :: args)) with (a ++ lit "_" ++ join (lit "_") (b :: args)).
  apply Forall_app. split; [exact W1|]. apply Forall_app. split; [repeat constructor|exact (IH W2)].
Qed.
Lemma python_call_clean py p f args : In p functions -> good_token (Call f args) -> ~ occurs p (python_of py (Call f args)).
Proof.
  intros P (F & Na & Wa & Ns & Ia) O. destruct (functions_word p P) as [Np Wp].
  assert (Arg : forall a, In a args -> ~ occurs p a).
  { intros a A Q. exact (innocent_spec p _ Ia P (occurs_in_join p (lit "_") args a A Q)). }
  cbn [python_of] in O.
  assert (E : forall x, lit "__calculator__._function_" ++ f ++ lit "(" ++ x = lit "__calculator__" ++ "."%char :: ((lit "_function_" ++ f) ++ "("%char :: x)).
  { intro x. rewrite <- app_assoc. reflexivity. }
  rewrite E in O. clear E.
  apply occurs_stop in O; [|exact Np|apply (word_not _ p Wp); reflexivity]. destruct O as [O|O].
  { apply (proj1 (find_none p (lit "__calculator__"))) in O; [exact O|]. table P; reflexivity. }
  apply occurs_stop in O; [|exact Np|apply (word_not _ p Wp); reflexivity]. destruct O as [O|O].
  { apply (proj1 (find_none p (lit "_function_" ++ f))) in O; [exact O|]. table P; table F; reflexivity. }
  change (lit ")") with (")"%char :: []) in O.
  apply occurs_stop in O; [|exact Np|apply (word_not _ p Wp); reflexivity]. destruct O as [O|(a & b & O)].
  2:{ symmetry in O. apply app_eq_nil in O. destruct O as [_ O]. apply app_eq_nil in O. destruct O. contradiction. }
  apply occurs_join in O; [|exact Np|exists " "%char; split; [right; left; reflexivity|apply (word_not _ p Wp); reflexivity]|discriminate|].
  2:{ intros x [<-|[<-|[]]]; apply (word_not _ p Wp); reflexivity. }
  destruct O as [O|(w & W & O)]; [destruct args; [contradiction|discriminate]|].
  apply in_map_iff in W. destruct W as (a & <- & A).
  change (lit "'" ++ a ++ lit "'") with ([] ++ "'"%char :: (a ++ "'"%char :: [])) in O.
  assert (Nil : ~ occurs p []). { intros (u & v & H). symmetry in H. apply app_eq_nil in H. destruct H as [_ H]. apply app_eq_nil in H. destruct H. contradiction. }
  apply occurs_stop in O; [|exact Np|apply (word_not _ p Wp); reflexivity]. destruct O as [O|O]; [contradiction|].
  apply occurs_stop in O; [|exact Np|apply (word_not _ p Wp); reflexivity]. destruct O as [O|O]; [exact (Arg a A O)|contradiction].
Qed.

(** ** Folding the replacements over one piece *)
Definition rewrite_all (calls : list text) (e : text) : text := fold_left (fun e call => replace call (pythonised call) e) calls e.
Lemma rewrite_none calls e : (forall n, In n calls -> ~ occurs n e) -> rewrite_all calls e = e.
Proof.
  induction calls as [|n calls IH]; intro N; [reflexivity|]. unfold rewrite_all. cbn [fold_left]. unfold replace.
  rewrite replacing_absent by (apply N; left; reflexivity). apply IH. intros m M. apply N. right. exact M.
Qed.
Lemma rewrite_app a b e : rewrite_all (a ++ b) e = rewrite_all b (rewrite_all a e).
Proof. apply fold_left_app. Qed.
Lemma rewrite_block calls w : w <> [] -> In w calls -> (forall n, In n calls -> occurs n w -> n = w) ->
  (forall n, In n calls -> ~ occurs n (pythonised w)) -> rewrite_all calls w = pythonised w.
Proof.
  intro Nw. induction calls as [|n calls IH]; [intros []|]. intros H E N. unfold rewrite_all. cbn [fold_left].
  destruct (occurs_dec n w) as [O|O].
  - rewrite (E n (or_introl eq_refl) O), (replace_whole w _ Nw). apply rewrite_none. intros m M. apply N. right. exact M.
  - unfold replace. rewrite (replacing_absent n _ w O). apply IH.
    + destruct H as [->|H]; [destruct O; apply occurs_refl|exact H].
    + intros m M. apply E. right. exact M.
    + intros m M. apply N. right. exact M.
Qed.

Section Plain.
Variable (l : list token) (measurements : text -> option text) (py : text -> text).
Hypothesis Hp : plain l.
Hypothesis Hm : forall w, In (Custom w) l -> measurements (lit "@" ++ w) = Some (py (lit "@" ++ w)) /\ innocent (py (lit "@" ++ w)).
Let good t (H : In t l) : good_token t := proj1 (Forall_forall _ _) (pl_good l Hp) t H.

Lemma text_piece t : In t l -> piece (text_of t).
Proof.
  intro H. pose proof (good t H) as G. destruct t as [w|f args| |w|c]; cbn [text_of good_token] in *.
  - destruct G as [G _]. destruct w; [exact Logic.I|]. inversion G. assumption.
  - destruct G as (F & _ & W & _). pose proof (join_word args W) as J. table F; cbn; repeat (constructor; [reflexivity|]); exact J.
  - cbn. repeat (constructor; [reflexivity|]). constructor.
  - destruct G as [G _]. exact G.
  - constructor.
Qed.
Lemma identifiers_plain p : p <> [] -> (forall c, In (Other c) l -> ~ In c p) ->
  all_identifiers (formula_of l) p = flat_map (fun t => tail_list p (text_of t)) l.
Proof.
  intros Np Nc. unfold all_identifiers. rewrite (identifiers_names p _ Np). cbn [skipn].
  apply (names_render text_of p l Np).
  - intro c. reflexivity.
  - apply (pl_separated l Hp).
  - intros c H. split; [apply (good _ H)|exact (Nc c H)].
  - exact text_piece.
  - unfold formula_of, render. auto.
Qed.

(** *** The custom measurement *)
Definition customised (t : token) : text := match t with Custom w => py (lit "@" ++ w) | _ => text_of t end.
Lemma no_at w : word_only w -> ~ In "@"%char w.
Proof. intro W. apply (word_not _ w W). reflexivity. Qed.
Lemma text_no_at t : In t l -> (forall w, t <> Custom w) -> ~ In "@"%char (text_of t).
Proof.
  intros H N. pose proof (good t H) as G. destruct t as [w|f args| |w|c]; cbn [text_of good_token] in *.
  - apply no_at, G.
  - destruct G as (F & _ & W & _). intro Q. apply in_app_or in Q. destruct Q as [Q|Q].
    + table F; cbn in Q; repeat (destruct Q as [Q|Q]; [discriminate Q|]); contradiction.
    + apply in_app_or in Q. destruct Q as [[Q|[]]|Q]; [discriminate Q|]. exact (no_at _ (join_word args W) Q).
  - cbn. intro Q. repeat (destruct Q as [Q|Q]; [discriminate Q|]). contradiction.
  - destruct (N w eq_refl).
  - intros [Q|[]]. subst c. apply G. reflexivity.
Qed.
Lemma tail_at t : In t l -> tail_list (lit "@") (text_of t) = match t with Custom w => [lit "@" ++ w] | _ => [] end.
Proof.
  intro H. assert (N : (forall w, t <> Custom w) -> tail_list (lit "@") (text_of t) = []).
  { intro N. unfold tail_list, tail_from. replace (find (lit "@") (text_of t)) with (@None nat); [reflexivity|].
    symmetry. apply find_none. intro O. apply (text_no_at t H N). apply (occurs_in (lit "@")); [left; reflexivity|exact O]. }
  destruct t as [w|f args| |w|c]; try (apply N; discriminate). unfold tail_list, tail_from. cbn. reflexivity.
Qed.
Lemma flat_map_ext_in {A C} (f g : A -> list C) m : (forall a, In a m -> f a = g a) -> flat_map f m = flat_map g m.
Proof. induction m as [|a m IH]; intro H; [reflexivity|]. cbn. rewrite (H a (or_introl eq_refl)), IH; [reflexivity|]. intros b B. apply H. right. exact B. Qed.
Lemma replace_custom w : In (Custom w) l -> replace (lit "@" ++ w) (py (lit "@" ++ w)) (formula_of l) = render customised l.
Proof.
  intro H. change (formula_of l) with (render text_of l).
  destruct (good _ H) as [Ww _].
  rewrite replace_render; [|discriminate|intro c; reflexivity|apply (pl_separated l Hp)|].
  2:{ intros c C [Q|Q]; [|pose proof (word_not c w Ww (proj1 (good _ C))) as D; exact (D Q)].
      destruct (good _ C) as [_ D]. apply D. symmetry. exact Q. }
  apply render_ext. intros t T.
  assert (N : (forall v, t <> Custom v) -> replace (lit "@" ++ w) (py (lit "@" ++ w)) (text_of t) = text_of t).
  { intro N. apply replacing_absent. intro O. apply (text_no_at t T N). apply (occurs_in (lit "@" ++ w)); [left; reflexivity|exact O]. }
  destruct t as [v|f args| |v|c]; cbn [on_tokens customised]; try (apply N; discriminate); [|reflexivity].
  rewrite (pl_custom l Hp v w T H). cbn [text_of]. apply replace_whole. discriminate.
Qed.
Lemma customs_ok : replace_customs measurements (formula_of l) (all_identifiers (formula_of l) (lit "@")) (formula_of l) = Ok (render customised l).
Proof.
  assert (E0 : all_identifiers (formula_of l) (lit "@") = flat_map (fun t => match t with Custom w => [lit "@" ++ w] | _ => [] end) l).
  { etransitivity; [|exact (flat_map_ext_in _ _ l tail_at)]. apply identifiers_plain; [discriminate|].
    intros c C [Q|[]]. apply (proj2 (good _ C)). symmetry. exact Q. }
  rewrite E0. clear E0.
  assert (Q : forall names e, (forall n, In n names -> exists w, In (Custom w) l /\ n = lit "@" ++ w) ->
    (names <> [] \/ e = render customised l) -> replace_customs measurements (formula_of l) names e = Ok (render customised l)).
  { induction names as [|n names IH]; intros e N D; [destruct D as [D| ->]; [contradiction|reflexivity]|].
    destruct (N n (or_introl eq_refl)) as (w & W & ->). cbn [replace_customs]. rewrite (proj1 (Hm w W)), (replace_custom w W).
    apply IH; [|right; reflexivity]. intros m M. apply N. right. exact M. }
  apply Q.
  - intros n N. apply in_flat_map in N. destruct N as (t & T & N). destruct t as [v|f args| |v|c]; try contradiction. destruct N as [<-|[]]. exists v. auto.
  - destruct (flat_map _ l) as [|x y] eqn:E; [right|left; discriminate].
    unfold formula_of. change (concat (map text_of l)) with (render text_of l). apply render_ext. intros t T.
    destruct t as [v|f args| |v|c]; try reflexivity. exfalso.
    assert (I0 : In (lit "@" ++ v) (flat_map (fun t => match t with Custom w => [lit "@" ++ w] | _ => [] end) l)) by (apply in_flat_map; exists (Custom v); split; [exact T|left; reflexivity]).
    rewrite E in I0. exact I0.
Qed.

(** *** The special functions *)
Definition block (p : text) : list text := flat_map (fun t => tail_list p (text_of t)) l.
Lemma tail_none p w : ~ occurs p w -> tail_list p w = [].
Proof. intro N. apply find_none in N. unfold tail_list, tail_from. rewrite N. reflexivity. Qed.
Lemma other_not p c : In p functions -> In (Other c) l -> ~ In c p.
Proof. intros P C. apply (word_not c p); [apply functions_word, P|apply (good _ C)]. Qed.
Lemma block_in p n : In p functions -> In n (block p) ->
  (exists f args, In (Call f args) l /\ find p (f ++ lit "_") <> None /\ n = p ++ join (lit "_") args) \/
  (p = lit "CurrentLength" /\ n = p /\ In Current l).
Proof.
  intros P N. apply in_flat_map in N. destruct N as (t & T & N). pose proof (good t T) as G.
  destruct (functions_word p P) as [Np Wp].
  destruct t as [w|f args| |w|c]; cbn [text_of good_token] in *.
  - rewrite tail_none in N; [destruct N|]. apply innocent_spec; [apply G|exact P].
  - left. exists f, args. split; [exact T|]. destruct G as (F & _ & _ & _ & I0).
    rewrite tail_call in N; [|exact P|exact F|apply innocent_spec; assumption].
    destruct (find p (f ++ lit "_")); [|destruct N]. destruct N as [<-|[]]. split; [discriminate|reflexivity].
  - destruct (functions_cases p P) as [->|(f & F & ->)].
    + right. cbn in N. destruct N as [<-|[]]. auto.
    + exfalso. table F; exact N.
  - rewrite tail_none in N; [destruct N|]. intro O.
    assert (At : ~ In "@"%char p) by (apply no_at, Wp).
    apply (occurs_stop p [] "@"%char w Np At) in O. destruct O as [(a & b & O)|O].
    + symmetry in O. apply app_eq_nil in O. destruct O as [_ O]. apply app_eq_nil in O. destruct O. contradiction.
    + exact (innocent_spec p w (proj2 G) P O).
  - rewrite tail_none in N; [destruct N|]. intro O. apply (occurs_stop p [] c [] Np (other_not p c P T)) in O.
    destruct O as [(a & b & O)|(a & b & O)]; symmetry in O; apply app_eq_nil in O; destruct O as [_ O]; apply app_eq_nil in O; destruct O; contradiction.
Qed.
Lemma block_prefix p n : In p functions -> In n (block p) -> exists r, n = p ++ r.
Proof.
  intros P N. destruct (block_in p n P N) as [(f & args & _ & _ & ->)|(_ & -> & _)]; [exists (join (lit "_") args); reflexivity|exists []; symmetry; apply app_nil_r].
Qed.
Definition calls (ps : list text) : list text := flat_map block ps.
Lemma calls_clean ps e : incl ps functions -> (forall p, In p ps -> ~ occurs p e) -> rewrite_all (calls ps) e = e.
Proof.
  intros I0 N. apply rewrite_none. intros n Hn O. apply in_flat_map in Hn. destruct Hn as (p & P & Hn).
  destruct (block_prefix p n (I0 p P) Hn) as (r & ->). apply (N p P). exact (occurs_trans p (p ++ r) e (occurs_prefix p r) O).
Qed.
Lemma calls_block a p b e e' : functions = a ++ p :: b -> (forall q, In q a -> ~ occurs q e) -> rewrite_all (block p) e = e' ->
  (forall q, In q b -> ~ occurs q e') -> rewrite_all (calls functions) e = e'.
Proof.
  intros E Ha Hb Hc. rewrite E. unfold calls. rewrite flat_map_app. cbn [flat_map]. rewrite !rewrite_app.
  fold (calls a) (calls b). rewrite (calls_clean a e), Hb; [|intros q Q; rewrite E; apply in_or_app; left; exact Q|exact Ha].
  apply calls_clean; [|exact Hc]. intros q Q. rewrite E. apply in_or_app. right. right. exact Q.
Qed.
Lemma occurs_self f r rest : In f measures -> ~ occurs (f ++ lit "_") rest -> occurs ((f ++ lit "_") ++ r) (f ++ lit "_" ++ rest) ->
  exists b, rest = r ++ b.
Proof.
  intros F N (a & b & E). destruct a as [|x a].
  - exists b. rewrite <- !app_assoc in E. cbn [app] in E. apply app_inv_head in E. cbn in E. injection E as E. exact E.
  - exfalso. assert (O : occurs (f ++ lit "_") (tl (f ++ lit "_" ++ rest))).
    { rewrite E. cbn [tl app]. exists a, (r ++ b). rewrite <- !app_assoc. reflexivity. }
    apply (proj1 (find_none _ _)) in O; [exact O|]. apply find_none in N. clear E O. table F; cbn; cbn in N; rewrite N; reflexivity.
Qed.
Lemma rewrite_call f args : In (Call f args) l -> rewrite_all (calls functions) (text_of (Call f args)) = python_of py (Call f args).
Proof.
  intro H. pose proof (good _ H) as G. destruct G as (F & Na & W & Ns & I0).
  set (w := text_of (Call f args)).
  assert (Ew : w = f ++ lit "_" ++ join (lit "_") args) by reflexivity.
  assert (P : In (f ++ lit "_") functions) by (table F; cbn; tauto).
  assert (Clean : forall q, In q functions -> ~ occurs q (python_of py (Call f args))) by (intros q Q; exact (python_call_clean py q f args Q (good _ H))).
  assert (B : rewrite_all (block (f ++ lit "_")) w = python_of py (Call f args)).
  { rewrite <- (pythonised_call py f args (good _ H)). apply rewrite_block.
    - cbn [text_of]. clear -F. table F; discriminate.
    - apply in_flat_map. exists (Call f args). split; [exact H|]. cbn [text_of].
      rewrite tail_call; [|exact P|exact F|apply innocent_spec; assumption].
      replace (find (f ++ lit "_") (f ++ lit "_")) with (Some 0) by (clear -F; table F; reflexivity).
      left. rewrite <- app_assoc. reflexivity.
    - intros n N O. destruct (block_in _ n P N) as [(g & args' & Hg & _ & ->)|(E & _)]; [|exfalso; clear -F E; table F; discriminate].
      apply (occurs_self f (join (lit "_") args')) in O; [|exact F|apply innocent_spec; assumption].
      rewrite (pl_pairs l Hp g args' f args Hg H O). cbn [text_of]. rewrite <- app_assoc. reflexivity.
    - intros n N O. fold w in O. unfold w in O. rewrite (pythonised_call py f args (good _ H)) in O.
      destruct (block_prefix _ n P N) as (r & ->). apply (Clean _ P). exact (occurs_trans _ _ _ (occurs_prefix _ r) O). }
  assert (Before : forall q, In q functions -> find q (f ++ lit "_") = None -> ~ occurs q w).
  { intros q Q E O. rewrite Ew in O. apply (occurs_call q f _ Q F (innocent_spec q _ I0 Q) O E). }
  assert (D : exists a b, functions = a ++ (f ++ lit "_") :: b /\ forall q, In q a -> find q (f ++ lit "_") = None).
  { clear -F. table F.
    - exists [], (skipn 1 functions). split; [reflexivity|]. intros q [].
    - exists (firstn 1 functions), (skipn 2 functions). split; [reflexivity|]. cbn. intros q Q. repeat (destruct Q as [<-|Q]; [reflexivity|]). destruct Q.
    - exists (firstn 2 functions), (skipn 3 functions). split; [reflexivity|]. cbn. intros q Q. repeat (destruct Q as [<-|Q]; [reflexivity|]). destruct Q.
    - exists (firstn 4 functions), (skipn 5 functions). split; [reflexivity|]. cbn. intros q Q. repeat (destruct Q as [<-|Q]; [reflexivity|]). destruct Q.
    - exists (firstn 5 functions), (skipn 6 functions). split; [reflexivity|]. cbn. intros q Q. repeat (destruct Q as [<-|Q]; [reflexivity|]). destruct Q.
    - exists (firstn 6 functions), (skipn 7 functions). split; [reflexivity|]. cbn. intros q Q. repeat (destruct Q as [<-|Q]; [reflexivity|]). destruct Q.
    - exists (firstn 7 functions), (skipn 8 functions). split; [reflexivity|]. cbn. intros q Q. repeat (destruct Q as [<-|Q]; [reflexivity|]). destruct Q. }
  destruct D as (a & b & D & Da).
  assert (Ia : forall q, In q a -> In q functions) by (intros q Q; rewrite D; apply in_or_app; left; exact Q).
  assert (Ib : forall q, In q b -> In q functions) by (intros q Q; rewrite D; apply in_or_app; right; right; exact Q).
  apply (calls_block a (f ++ lit "_") b w _ D).
  - intros q Q. apply Before; [exact (Ia q Q)|exact (Da q Q)].
  - exact B.
  - intros q Q. apply Clean, Ib, Q.
Qed.
Lemma current_block : In Current l -> block (lit "CurrentLength") = [lit "CurrentLength"].
Proof.
  intro H. destruct (in_split _ _ H) as (l1 & l2 & E). destruct (pl_current l Hp l1 l2 E) as [N1 N2].
  assert (Z : forall m, incl m l -> ~ In Current m -> flat_map (fun t => tail_list (lit "CurrentLength") (text_of t)) m = []).
  { induction m as [|t m IH]; intros M N; [reflexivity|]. cbn [flat_map]. rewrite IH; [|intros x X; apply M; right; exact X|intro X; apply N; right; exact X].
    rewrite app_nil_r. destruct (tail_list (lit "CurrentLength") (text_of t)) as [|x y] eqn:Q; [reflexivity|]. exfalso.
    assert (P : In (lit "CurrentLength") functions) by (cbn; tauto).
    assert (T : In t l) by (apply M; left; reflexivity). pose proof (good t T) as G.
    destruct t as [w|f args| |w|c]; cbn [text_of good_token] in *.
    - rewrite tail_none in Q; [discriminate|]. apply innocent_spec; [apply G|exact P].
    - destruct G as (F & _ & _ & _ & I0). rewrite tail_call in Q; [|exact P|exact F|apply innocent_spec; assumption].
      clear -F Q. table F; discriminate.
    - apply N. left. reflexivity.
    - rewrite tail_none in Q; [discriminate|]. intro O. apply (occurs_stop _ [] "@"%char w) in O; [|discriminate|cbn; intro X; repeat (destruct X as [X|X]; [discriminate X|]); contradiction].
      destruct O as [(u & v & O)|O]; [|exact (innocent_spec _ w (proj2 G) P O)].
      symmetry in O. apply app_eq_nil in O. destruct O as [_ O]. discriminate.
    - rewrite tail_none in Q; [discriminate|]. intros (u & v & O). destruct u as [|? u]; [discriminate|]. destruct u; discriminate. }
  unfold block. rewrite E, flat_map_app. cbn [flat_map]. rewrite (Z l1), (Z l2); [reflexivity| | | |]; try assumption.
  - intros x X. rewrite E. apply in_or_app. right. right. exact X.
  - intros x X. rewrite E. apply in_or_app. left. exact X.
Qed.
Lemma rewrite_current : In Current l -> rewrite_all (calls functions) (lit "CurrentLength") = python_of py Current.
Proof.
  intro H. apply (calls_block (firstn 3 functions) (lit "CurrentLength") (skipn 4 functions)).
  - reflexivity.
  - cbn. intros q Q. repeat (destruct Q as [<-|Q]; [apply find_none; reflexivity|]). destruct Q.
  - rewrite (current_block H). reflexivity.
  - cbn [skipn functions map]. intros q Q. repeat (destruct Q as [<-|Q]; [apply find_none; reflexivity|]). destruct Q.
Qed.
Lemma rewrite_token t : In t l -> on_tokens (rewrite_all (calls functions)) customised t = python_of py t.
Proof.
  intro H. pose proof (good t H) as G. destruct t as [w|f args| |w|c]; cbn [on_tokens customised].
  - apply calls_clean; [apply incl_refl|]. intros p P. apply innocent_spec; [apply G|exact P].
  - exact (rewrite_call f args H).
  - exact (rewrite_current H).
  - apply calls_clean; [apply incl_refl|]. intros p P. apply innocent_spec; [apply (Hm w H)|exact P].
  - reflexivity.
Qed.
Lemma calls_eq : flat_map (all_identifiers (formula_of l)) functions = calls functions.
Proof.
  apply flat_map_ext_in. intros p P. apply identifiers_plain; [apply functions_word, P|]. intros c C. exact (other_not p c P C).
Qed.
Lemma compile_plain : compile measurements (formula_of l) = Ok (concat (map (python_of py) l)).
Proof.
  unfold compile. rewrite customs_ok. cbn [bind]. rewrite calls_eq. f_equal.
  rewrite fold_render; [|intro c; reflexivity|apply (pl_separated l Hp)|].
  - apply render_ext. exact rewrite_token.
  - intros n c N. apply in_flat_map in N. destruct N as (p & P & N). split.
    + destruct (block_prefix p n P N) as (r & ->). destruct (functions_word p P) as [Np _]. destruct p; [contradiction|discriminate].
    + intros C Q. apply (word_not c n); [|apply (good _ C)|exact Q].
      destruct (block_in p n P N) as [(f & args & T & _ & ->)|(_ & -> & _)]; [|apply functions_word, P].
      apply Forall_app. split; [apply functions_word, P|]. apply join_word. apply (good _ T).
Qed.
End Plain.
