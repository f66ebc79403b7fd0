(** Counterexamples and examples for the rewriting of formulas *)
From Coq Require Import String Ascii List Bool Arith Lia.
From Verif Require Import Base ModelFormula SpecFormula ProofFormula ProofFormula2.
Import ListNotations.
Local Open Scope list_scope.

Lemma compile_unknown s measurements names n : all_identifiers s (lit "@") = names -> In n names -> measurements n = None ->
  compile measurements s = Raise KeyError.
Proof.
  intros E H N. unfold compile. rewrite E. clear E.
  assert (Q : forall e, replace_customs measurements s names e = Raise KeyError).
  { induction names as [|m names IH]; [destruct H|]. intro e. cbn [replace_customs]. destruct H as [->|H]; [rewrite N; reflexivity|].
    destruct (measurements m); [apply (IH H)|reflexivity]. }
  rewrite Q. reflexivity.
Qed.
Lemma no_identifiers p s : p <> [] -> ~ occurs p s -> all_identifiers s p = [].
Proof.
  intros Np N. unfold all_identifiers. rewrite (identifiers_names p s Np). cbn [names skipn]. apply find_none in N. rewrite N. reflexivity.
Qed.
Lemma compile_innocent s measurements : innocent s -> ~ In "@"%char s -> compile measurements s = Ok s.
Proof.
  intros I0 N. unfold compile. rewrite (no_identifiers (lit "@") s); [|discriminate|intro O; apply N, (occurs_in (lit "@")); [left; reflexivity|exact O]].
  cbn [replace_customs bind]. replace (flat_map (all_identifiers s) functions) with (@nil text); [reflexivity|].
  symmetry. assert (Q : forall ps, incl ps functions -> flat_map (all_identifiers s) ps = []).
  { induction ps as [|p ps IH]; intro H; [reflexivity|]. cbn [flat_map]. rewrite IH; [|intros x X; apply H; right; exact X].
    rewrite no_identifiers; [reflexivity| |]; [apply functions_word|apply innocent_spec; [exact I0|]]; apply H; left; reflexivity. }
  apply Q, incl_refl.
Qed.

Lemma innocent_compute s : forallb (fun p => match find p s with None => true | _ => false end) functions = true -> innocent s.
Proof.
  intro H. rewrite forallb_forall in H.
  assert (Q : forall p, In p functions -> ~ occurs p s). { intros p P. apply find_none. specialize (H p P). destruct (find p s); [discriminate|reflexivity]. }
  split; [|apply Q; cbn; tauto]. apply Forall_forall. intros f F. apply Q. table F; cbn; tauto.
Qed.
Ltac inn := apply innocent_compute; reflexivity.
Ltac words := repeat constructor.
Ltac nowhere := match goal with |- ~ In _ _ => let X := fresh in intro X; cbn in X; repeat (destruct X as [X|X]; [discriminate X|]); contradiction end.
Ltac noscore := repeat (apply Forall_cons; [unfold no_score; nowhere|]); apply Forall_nil.
Ltac good := first
  [ split; [words|inn]
  | split; [cbn; tauto|]; split; [discriminate|]; split; [words|]; split; [noscore|inn]
  | exact Logic.I
  | split; [reflexivity|discriminate] ].
Ltac goods := repeat (apply Forall_cons; [good|]); apply Forall_nil.

Definition plus := Other "+"%char.
Definition demo : list token :=
  [Word (lit "2"); Other "*"%char; Other "("%char; Call (lit "Line") [lit "A"; lit "B"]; Other " "%char; plus; Other " "%char;
   Custom (lit "seam"); Other ")"%char; Other " "%char; Other "-"%char; Other " "%char;
   Call (lit "AngleLine") [lit "A"; lit "C"]; Other "/"%char; Current].
Lemma demo_plain : plain demo.
Proof.
  constructor.
  - unfold demo, plus. goods.
  - unfold demo, plus. repeat (first [apply sep_cons|apply sep_other|apply sep_one]).
  - intros f args g args' H1 H2 (r & E).
    assert (D : forall f args, In (Call f args) demo -> args = [lit "A"; lit "B"] \/ args = [lit "A"; lit "C"]).
    { clear. intros f args H. unfold demo, plus in H. repeat (destruct H as [H|H]; [first [discriminate H|injection H as _ <-; tauto]|]). destruct H. }
    destruct (D _ _ H1) as [-> | ->]; destruct (D _ _ H2) as [-> | ->]; try reflexivity; cbn in E; discriminate E.
  - intros l1 l2 E. unfold demo, plus in E.
    do 14 (destruct l1 as [|? l1]; [discriminate E|injection E as <- E]).
    destruct l1 as [|? l1]; [|injection E as <- E; destruct l1; discriminate E]. injection E as <-.
    split; [|intros []]. intro H. repeat (destruct H as [H|H]; [discriminate H|]). destruct H.
  - intros w w' H1 H2. assert (D : forall w, In (Custom w) demo -> w = lit "seam").
    { clear. intros w H. unfold demo, plus in H. repeat (destruct H as [H|H]; [first [discriminate H|injection H as <-; reflexivity]|]). destruct H. }
    rewrite (D w H1), (D w' H2). reflexivity.
Qed.
Lemma demo_ok : plain demo /\
  formula_of demo = lit "2*(Line_A_B + @seam) - AngleLine_A_C/CurrentLength" /\
  compile (fun n => if list_eq_dec ascii_dec n (lit "@seam") then Some (lit "__custom__seam") else None) (formula_of demo) =
    Ok (lit "2*(__calculator__._function_Line('A', 'B') + __custom__seam) - __calculator__._function_AngleLine('A', 'C')/__calculator__._function_CurrentLength()").
Proof. split; [exact demo_plain|]. split; vm_compute; reflexivity. Qed.

Lemma customs_refuted : exists l py, Forall good_token l /\ separated l /\
  (forall w, In (Custom w) l -> innocent (py (lit "@" ++ w))) /\ (forall f args, ~ In (Call f args) l) /\ ~ In Current l /\
  compile (fun n => Some (py n)) (formula_of l) <> Ok (concat (map (python_of py) l)).
Proof.
  exists [Custom (lit "a"); plus; Custom (lit "b")], (fun n => lit "py_" ++ tl n). split; [unfold plus; goods|]. split; [apply sep_cons, sep_one|].
  split; [intros w H; repeat (destruct H as [H|H]; [first [discriminate H|injection H as <-; inn]|]); destruct H|].
  split; [intros f args H; repeat (destruct H as [H|H]; [discriminate H|]); destruct H|].
  split; [intros H; repeat (destruct H as [H|H]; [discriminate H|]); destruct H|]. vm_compute. discriminate.
Qed.
Lemma pairs_refuted : exists l, Forall good_token l /\ separated l /\ ~ In Current l /\ (forall w, ~ In (Custom w) l) /\
  compile (fun n => None) (formula_of l) <> Ok (concat (map (python_of (fun n => n)) l)).
Proof.
  exists [Call (lit "Line") [lit "A"; lit "B"]; plus; Call (lit "Line") [lit "A"; lit "B1"]].
  split; [unfold plus; goods|]. split; [apply sep_cons, sep_one|].
  split; [intros H; repeat (destruct H as [H|H]; [discriminate H|]); destruct H|].
  split; [intros w H; repeat (destruct H as [H|H]; [discriminate H|]); destruct H|]. vm_compute. discriminate.
Qed.
Lemma current_refuted : exists l, Forall good_token l /\ separated l /\ (forall f args, ~ In (Call f args) l) /\ (forall w, ~ In (Custom w) l) /\
  compile (fun n => None) (formula_of l) <> Ok (concat (map (python_of (fun n => n)) l)).
Proof.
  exists [Current; plus; Current]. split; [unfold plus; goods|]. split; [apply sep_cons, sep_one|].
  split; [intros f args H; repeat (destruct H as [H|H]; [discriminate H|]); destruct H|].
  split; [intros w H; repeat (destruct H as [H|H]; [discriminate H|]); destruct H|]. vm_compute. discriminate.
Qed.
Lemma word_refuted : exists w, word_only w /\ compile (fun n => None) w <> Ok w.
Proof. exists (lit "waist_Line_A_B"). split; [words|]. vm_compute. discriminate. Qed.
