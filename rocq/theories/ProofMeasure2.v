(** Identifiers, and an instance of the expressions: sums of numbers and of names. *)
From Coq Require Import String Ascii List Bool Arith Lia.
From Verif Require Import Base ModelFormula ModelMeasure SpecMeasure ProofMeasure.
Import ListNotations.

Lemma history_ok number expression sympify of_number float subs evalf h :
  exists out, accepted number expression sympify of_number [] h out /\
  map (fun m => (m_name _ _ m, m_expression _ _ m)) (iter number expression (measure_run number expression sympify of_number float subs evalf h)) = out.
Proof.
  destruct (accepted_total number expression sympify of_number h []) as (out & O). exists out. split; [exact O|].
  exact (accepted_ok number expression sympify of_number float subs evalf h out O).
Qed.

Lemma identifier_ok n r : validate_name n = Ok r ->
  match n with [] => False | c :: _ => ~ (48 <= nat_of_ascii c <= 57) end -> Forall (fun c => nat_of_ascii c < 128) n -> identifier r.
Proof.
  intros V N A. destruct (validate_inv n r V) as [-> P]. destruct n as [|c n]; [contradiction|].
  assert (W : word_text (scored (c :: n))).
  { apply Forall_forall. intros x X. pose proof (proj1 (Forall_forall _ _) P x X) as Px.
    assert (Ax : nat_of_ascii x < 128).
    { unfold scored in X. apply in_map_iff in X. destruct X as (y & <- & Y). destruct (Ascii.eqb y " "%char); [cbn; lia|]. rewrite Forall_forall in A. exact (A y Y). }
    clear - Px Ax. destruct Px as [Px| ->]; [|reflexivity]. unfold is_alnum in Px. unfold is_word.
    set (k := nat_of_ascii x) in *. clearbody k.
    apply orb_prop in Px. destruct Px as [Px|Px]; [apply orb_prop in Px; destruct Px as [Px|Px]; [apply orb_prop in Px; destruct Px as [Px|Px]; [apply orb_prop in Px; destruct Px as [Px|Px]|]|]|].
    - rewrite Px, !orb_true_r. reflexivity.
    - rewrite Px, !orb_true_r. reflexivity.
    - rewrite Px. reflexivity.
    - exfalso. apply existsb_exists in Px. destruct Px as (y & Y & E). apply Nat.eqb_eq in E. subst y. cbn in Y. lia.
    - exfalso. apply andb_prop in Px. destruct Px as [Px _]. apply andb_prop in Px. destruct Px as [Px _]. apply andb_prop in Px. destruct Px as [Px _]. apply Nat.leb_le in Px. lia. }
  cbn [scored map] in *. split; [|exact W]. destruct (Ascii.eqb c " "%char); [cbn; lia|exact N].
Qed.
Lemma identifier_refuted : exists a b c, validate_name a = Ok a /\ validate_name b = Ok b /\ validate_name c = Ok c /\
  a = [] /\ b = lit "1a" /\ c = ["a"; ascii_of_nat 189]%char /\ ~ identifier a /\ ~ identifier b /\ ~ identifier c.
Proof.
  exists [], (lit "1a"), ["a"; ascii_of_nat 189]%char. do 6 (split; [reflexivity|]). split; [intros []|]. split.
  - intros [H _]. apply H. cbn. lia.
  - intros [_ H]. inversion H as [|? ? _ H2]; subst. inversion H2 as [|? ? H3 _]; subst. vm_compute in H3. discriminate.
Qed.

(** An expression is a sum of numbers and of names; a text is a single name. *)
Inductive term := Left (n : nat) | Right (name : text).
Definition sums := list term.
Definition sums_subs (e : sums) (env : list (text * sums)) : sums :=
  flat_map (fun t => match t with Left n => [Left n] | Right x => match lookup env x with Some e => e | None => [Right x] end end) e.
Definition sums_evalf (e : sums) : result nat :=
  fold_right (fun t r => match t, r with Left n, Ok m => Ok (n + m) | _, _ => Raise TypeError end) (Ok 0) e.
Definition sums_run := measure_run nat sums (fun t => Ok [Right t]) (fun n => [Left n]) (fun n => n) sums_subs sums_evalf.
Definition sums_read := read_value nat sums sums_subs sums_evalf.
Lemma order_refuted : exists h h' n, incl h' h /\ incl h h' /\ snd (sums_read (sums_run h) n) <> snd (sums_read (sums_run h') n).
Proof.
  exists [OpAdd _ (lit "x") (Text _ (lit "hip")) [] []; OpAdd _ (lit "hip") (Number _ 3) [] []; OpValue _ (lit "x")],
         [OpAdd _ (lit "x") (Text _ (lit "hip")) [] []; OpValue _ (lit "x"); OpAdd _ (lit "hip") (Number _ 3) [] []], (lit "x").
  split; [|split]; [intros o O; cbn in *; tauto|intros o O; cbn in *; tauto|]. vm_compute. discriminate.
Qed.
