From Coq Require Import String Ascii List Bool Arith Reals ZArith Lia Lra.
From Verif Require Import Base ModelFormula ModelMeasure ModelXml ModelVector ModelTransformation ModelSvgPath ModelSvgTransform.
From Verif Require Import SpecVector SpecTransformation SpecSvgPath SpecSvgTransform ProofMeasure ProofXml ProofTransformation ProofSvgPath.
Import ListNotations.
Local Open Scope R_scope.

Lemma one_ok name values tf : means name values tf -> readable name values ->
  exists t, one_transform name values = Ok t /\ forall p, apply t p = image tf p.
Proof.
  intros M Rd. destruct M.
  - eexists. split; [reflexivity|]. intros [x y]. unfold apply. cbn. f_equal; ring.
  - eexists. split; [reflexivity|]. intro p. exact (build_apply (ETranslation (V x y)) p).
  - eexists. split; [reflexivity|]. intro p. exact (build_apply (ETranslation (V x 0)) p).
  - eexists. split; [reflexivity|]. intro p. exact (build_apply (EScale x y) p).
  - exfalso. destruct Rd as [[? _]|[[? _]|[[_ L]|[? _]]]]; try discriminate.
  - eexists. split; [reflexivity|]. intro p. exact (build_apply (ERotationAt (V x y) a) p).
  - eexists. split; [reflexivity|]. intro p. exact (build_apply (ERotationAt (V 0 0) a) p).
  - exfalso. destruct Rd as [[? _]|[[? _]|[[? _]|[? _]]]]; discriminate.
  - exfalso. destruct Rd as [[? _]|[[? _]|[[? _]|[? _]]]]; discriminate.
Qed.
(** mul is the composition for the matrices made here, whose last row is 0 0 1. *)
Definition affine (t : transformation) : Prop := m20 (t_m t) = 0 /\ m21 (t_m t) = 0 /\ m22 (t_m t) = 1.
Lemma mul_affine a b : affine a -> affine b -> affine (mul a b) /\ forall p, apply (mul a b) p = apply a (apply b p).
Proof.
  intros (A1 & A2 & A3) (B1 & B2 & B3). split.
  - unfold affine, mul, new. cbn. rewrite A1, A2, A3, B1, B2, B3. repeat split; ring.
  - intros [x y]. unfold mul, new, apply. cbn. rewrite B1, B2, B3. f_equal; ring.
Qed.
Lemma imul_affine a b : affine a -> affine b -> affine (imul a b).
Proof.
  intros (A1 & A2 & A3) (B1 & B2 & B3). unfold imul. destruct (t_type b) as [[]|]; (repeat split; auto; fail) || (unfold affine; cbn; rewrite A1, A2, A3, B1, B2, B3; repeat split; ring).
Qed.
Lemma one_affine name values t : one_transform name values = Ok t -> affine t.
Proof.
  unfold one_transform. intro H.
  destruct (text_eqb name (lit "matrix")).
  { destruct values as [|a [|b [|c [|d [|e [|f ?]]]]]]; try discriminate. injection H as <-. repeat split; reflexivity. }
  destruct (text_eqb name (lit "translate")).
  { destruct (vector_of _); [|discriminate]. injection H as <-. repeat split; reflexivity. }
  destruct (text_eqb name (lit "scale")).
  { destruct values as [|a [|b [|c ?]]]; try discriminate. injection H as <-. repeat split; reflexivity. }
  destruct (text_eqb name (lit "rotate")).
  { destruct (complete values 3) as [|a v]; [discriminate|]. destruct (vector_of v) as [u|]; [|discriminate]. injection H as <-.
    unfold rotation_at. apply imul_affine; [apply imul_affine|]; repeat split; reflexivity. }
  destruct (_ || _); [destruct values; discriminate|discriminate].
Qed.
Lemma identity_apply p : apply identity p = p.
Proof. destruct p as [x y]. unfold apply, identity, new. cbn. f_equal; ring. Qed.

(** The first transform of the list is applied first. *)
Definition read_as (tr : text * list R) (tf : svg_transform) : Prop := means (fst tr) (snd tr) tf /\ readable (fst tr) (snd tr).
Lemma to_python_ok l tfs : Forall2 read_as l tfs -> forall g, affine g ->
  exists t, to_python l g = Ok t /\ affine t /\ forall p, apply t p = images (rev tfs) (apply g p).
Proof.
  induction 1 as [|[name values] tf l tfs [M Rd] F IH]; intros g G; [exists g; repeat split; try apply G|].
  destruct (one_ok name values tf M Rd) as (t & E & A). pose proof (one_affine _ _ _ E) as At. cbn [to_python]. rewrite E. cbn [bind].
  destruct (mul_affine t g At G) as (Am & Ap). destruct (IH (mul t g) Am) as (u & Eu & Au & Q). exists u. split; [exact Eu|]. split; [exact Au|].
  intro p. rewrite Q. cbn [rev]. unfold images. rewrite fold_right_app. cbn [fold_right]. rewrite Ap, A. reflexivity.
Qed.

(** ** Texts *)
Section Text.
Variable float_str : R -> text.
Variable float_parse : text -> result R.
Lemma find_char c s : ~ In c s -> forall t, find [c] (s ++ c :: t) = Some (length s).
Proof.
  intros N t. induction s as [|d s IH].
  - cbn. rewrite Ascii.eqb_refl. reflexivity.
  - cbn. destruct (Ascii.eqb_spec c d) as [->|_]; [destruct N; left; reflexivity|]. cbn. rewrite IH; [reflexivity|]. intro H. apply N. right. exact H.
Qed.
Lemma read_ok name ws values : ~ In "("%char name -> ~ In ")"%char name ->
  ws <> [] -> Forall (fun w => ~ In ")"%char w /\ ~ In ","%char w) ws -> Forall2 (fun w x => float_parse w = Ok x) ws values ->
  read_transform float_parse (transform_text name ws) = Ok (name, values).
Proof.
  intros N1 N2 NE F V. unfold read_transform, transform_text. change (lit "(") with ["("%char]. change (lit ")") with [")"%char].
  assert (J : ~ In ")"%char (join (lit ",") ws)).
  { intro H. apply in_join in H. destruct H as [[H|[]]|(w & W & H)]; [discriminate|]. rewrite Forall_forall in F. exact (proj1 (F w W) H). }
  assert (S1 : find ["("%char] (name ++ ["("%char] ++ join (lit ",") ws ++ [")"%char]) = Some (length name)) by (apply find_char; exact N1).
  assert (S2 : find [")"%char] (name ++ ["("%char] ++ join (lit ",") ws ++ [")"%char]) = Some (length (name ++ ["("%char] ++ join (lit ",") ws))).
  { replace (name ++ ["("%char] ++ join (lit ",") ws ++ [")"%char]) with ((name ++ ["("%char] ++ join (lit ",") ws) ++ [")"%char]) by (rewrite <- !app_assoc; reflexivity).
    apply find_char. rewrite !in_app_iff. cbn. intros [H|[[H|[]]|H]]; [exact (N2 H)|discriminate|exact (J H)]. }
  rewrite S1, S2. rewrite !app_length. cbn [length].
  replace (Nat.eqb _ _) with true by (symmetry; apply Nat.eqb_eq; lia).
  replace (skipn (length name + 1) (name ++ ["("%char] ++ join (lit ",") ws ++ [")"%char])) with (join (lit ",") ws ++ [")"%char]).
  2:{ rewrite skipn_app, skipn_all2 by lia. replace (length name + 1 - length name)%nat with 1%nat by lia. reflexivity. }
  replace (length name + (1 + (length (join (lit ",") ws) + 1)) - 1 - (length name + 1))%nat with (length (join (lit ",") ws)) by lia.
  rewrite firstn_app, Nat.sub_diag, firstn_all. cbn [firstn]. rewrite app_nil_r.
  change (lit ",") with [","%char]. rewrite split_joined; [|exact NE|revert F; apply Forall_impl; intros w W; apply W].
  assert (T : traverse float_parse ws = Ok values).
  { clear - V. induction V as [|w x ws xs E V IH]; [reflexivity|]. cbn. rewrite E. cbn. rewrite IH. reflexivity. }
  rewrite T. cbn [bind]. rewrite firstn_app, Nat.sub_diag, firstn_all. cbn [firstn]. rewrite app_nil_r. reflexivity.
Qed.
Fixpoint iterate (n : nat) (f : vec -> vec) (p : vec) : vec := match n with O => p | S n => f (iterate n f p) end.
Lemma images_repeat n tf p : images (repeat tf n) p = iterate n (image tf) p.
Proof. induction n as [|n IH]; [reflexivity|]. cbn. unfold images in IH. rewrite IH. reflexivity. Qed.
Lemma rev_repeat {A} n (x : A) : rev (repeat x n) = repeat x n.
Proof. induction n as [|n IH]; [reflexivity|]. cbn. rewrite IH. clear. induction n as [|n IH]; [reflexivity|]. cbn. rewrite IH. reflexivity. Qed.
Lemma repeated_ok name ws values tf : ~ In "("%char name -> ~ In ")"%char name ->
  ws <> [] -> Forall (fun w => ~ In ")"%char w /\ ~ In ","%char w) ws -> Forall2 (fun w x => float_parse w = Ok x) ws values ->
  means name values tf -> readable name values ->
  exists t, transform_from_xml float_parse (transform_text name ws) = Ok t /\
    forall p, apply t p = iterate (length (split_space_list (transform_text name ws))) (image tf) p.
Proof.
  intros N1 N2 NE F V M Rd. unfold transform_from_xml. pose proof (read_ok name ws values N1 N2 NE F V) as RO.
  assert (T : forall A (f : A -> result (text * list R)) (tokens : list A), (forall a, f a = Ok (name, values)) -> traverse f tokens = Ok (repeat (name, values) (length tokens))).
  { intros A f tokens Hf. induction tokens as [|w tokens IH]; [reflexivity|]. cbn. rewrite Hf. cbn. rewrite IH. reflexivity. }
  rewrite T by (intros _; exact RO). cbn [bind]. set (tokens := split_space_list (transform_text name ws)).
  destruct (to_python_ok (repeat (name, values) (length tokens)) (repeat tf (length tokens))) with (g := identity) as (t & E & _ & A).
  { clear T. induction (length tokens) as [|n IH]; cbn; constructor; [split; assumption|exact IH]. }
  { repeat split; reflexivity. }
  exists t. split; [exact E|]. intro p. rewrite A, identity_apply, rev_repeat. apply images_repeat.
Qed.
Lemma text_nonempty name ws : transform_text name ws <> [].
Proof. unfold transform_text. destruct name; discriminate. Qed.
Lemma single_ok name ws values tf : ~ In "("%char name -> ~ In ")"%char name -> ~ In " "%char name ->
  ws <> [] -> Forall (fun w => ~ In ")"%char w /\ ~ In ","%char w /\ ~ In " "%char w) ws -> Forall2 (fun w x => float_parse w = Ok x) ws values ->
  means name values tf -> readable name values ->
  exists t, transform_from_xml float_parse (transform_text name ws) = Ok t /\ forall p, apply t p = image tf p.
Proof.
  intros N1 N2 N3 NE F V M Rd. destruct (repeated_ok name ws values tf N1 N2 NE) as (t & E & A); auto.
  { revert F. apply Forall_impl. intros w W. tauto. }
  exists t. split; [exact E|]. intro p. rewrite A. unfold split_space_list.
  rewrite split_none.
  - pose proof (text_nonempty name ws) as Q. cbn [filter]. destruct (transform_text name ws); [congruence|reflexivity].
  - unfold transform_text. rewrite !in_app_iff. intros [H|[[H|[]]|[H|[H|[]]]]]; try discriminate; [exact (N3 H)|].
    apply in_join in H. destruct H as [[H|[]]|(w & W & H)]; [discriminate|]. rewrite Forall_forall in F. exact (proj2 (proj2 (F w W)) H).
Qed.
(** Two transforms, or more, are never read. *)
Lemma find_in c a b : In c a -> exists k, find [c] (a ++ b) = Some k /\ (k < length a)%nat.
Proof.
  induction a as [|d a IH]; [intros []|]. intro H. cbn. destruct (Ascii.eqb_spec c d) as [->|N].
  - exists 0%nat. cbn. split; [reflexivity|lia].
  - cbn. destruct H as [H|H]; [congruence|]. destruct (IH H) as (k & E & L). exists (S k). rewrite E. split; [reflexivity|lia].
Qed.
Lemma split_has_word s : (exists c, In c s /\ c <> " "%char) -> split_space_list s <> [].
Proof.
  intros (c & C & N). unfold split_space_list. induction s as [|d s IH]; [destruct C|]. cbn [split].
  destruct (Ascii.eqb_spec d " "%char) as [->|D].
  - cbn. apply IH. destruct C as [C|C]; [congruence|exact C].
  - destruct (split " "%char s); cbn; discriminate.
Qed.
Lemma several_raise a b : In ")"%char a -> b <> [] -> transform_from_xml float_parse (a ++ b) = Raise ValueError.
Proof.
  intros P B. unfold transform_from_xml.
  assert (Rd : read_transform float_parse (a ++ b) = Raise ValueError).
  { unfold read_transform. destruct (find_in ")"%char a b P) as (k & E & L). change (lit ")") with [")"%char]. rewrite E.
    destruct (find (lit "(") (a ++ b)); [|reflexivity]. rewrite app_length. destruct b as [|c b]; [congruence|].
    replace (Nat.eqb k _) with false; [reflexivity|]. symmetry. apply Nat.eqb_neq. cbn [length]. lia. }
  pose proof (split_has_word (a ++ b)) as W. destruct (split_space_list (a ++ b)) as [|w l].
  - exfalso. apply W; [|reflexivity]. exists ")"%char. split; [apply in_or_app; left; exact P|discriminate].
  - cbn [traverse]. rewrite Rd. reflexivity.
Qed.
(** What is written is never read back. *)
Definition refuses_spaces : Prop := forall a b, a <> [] -> b <> [] -> (forall c, In c (a ++ b) -> is_space c = false) ->
  forall m, float_parse (a ++ " "%char :: m ++ " "%char :: b) = Raise ValueError.
Lemma round_trip_raises t : refuses_spaces -> (forall x, float_str x <> []) ->
  (forall x c, In c (float_str x) -> is_space c = false /\ c <> "("%char /\ c <> ")"%char /\ c <> ","%char) ->
  transform_from_xml float_parse (transform_to_xml float_str t) = Raise ValueError.
Proof.
  intros Rs Ne Ch. set (body := join (lit " ") (map float_str (to_list t))).
  assert (Hb : forall c, In c body -> c = " "%char \/ exists x, In c (float_str x)).
  { intros c C. apply in_join in C. destruct C as [[<-|[]]|(w & W & C)]; [left; reflexivity|]. apply in_map_iff in W. destruct W as (x & <- & _). right. exists x. exact C. }
  assert (Rd : read_transform float_parse (transform_to_xml float_str t) = Raise ValueError).
  { unfold read_transform, transform_to_xml. fold body. change (lit "(") with ["("%char]. change (lit ")") with [")"%char].
    assert (S1 : find ["("%char] (lit "matrix(" ++ body ++ [")"%char]) = Some 6%nat) by reflexivity.
    assert (S2 : find [")"%char] (lit "matrix(" ++ body ++ [")"%char]) = Some (length (lit "matrix(" ++ body))).
    { rewrite app_assoc. apply find_char. rewrite in_app_iff. intros [H|H]; [cbn in H; intuition discriminate|].
      destruct (Hb _ H) as [D|(x & X)]; [discriminate|]. destruct (Ch x _ X) as (_ & _ & D & _). congruence. }
    rewrite S1, S2. rewrite !app_length. cbn [length]. replace (Nat.eqb _ _) with true by (symmetry; apply Nat.eqb_eq; cbn; lia).
    replace (skipn (6 + 1) (lit "matrix(" ++ body ++ [")"%char])) with (body ++ [")"%char]) by reflexivity.
    replace (length (lit "matrix(") + (length body + 1) - 1 - (6 + 1))%nat with (length body) by (cbn; lia).
    rewrite firstn_app, Nat.sub_diag, firstn_all. cbn [firstn]. rewrite app_nil_r.
    rewrite split_none. 2:{ intro H. destruct (Hb _ H) as [D|(x & X)]; [discriminate|]. destruct (Ch x _ X) as (_ & _ & _ & D). congruence. }
    cbn [traverse]. replace (float_parse body) with (@Raise R ValueError); [reflexivity|]. symmetry.
    unfold body, to_list. cbn [map].
    set (m := t_m t). set (ws := [float_str (m01 m); float_str (m02 m); float_str (m10 m); float_str (m11 m); float_str (m12 m); float_str (m20 m); float_str (m21 m)]).
    change (join (lit " ") _) with (float_str (m00 m) ++ " "%char :: (join (lit " ") (ws ++ [float_str (m22 m)]))).
    rewrite (join_app (lit " ") ws [float_str (m22 m)]) by discriminate.
    change (join (lit " ") ws ++ lit " " ++ join (lit " ") [float_str (m22 m)]) with (join (lit " ") ws ++ " "%char :: float_str (m22 m)).
    apply Rs; [apply Ne|apply Ne|]. intros c C. apply in_app_or in C. destruct C as [C|C]; apply (Ch _ _ C). }
  unfold transform_from_xml. pose proof (split_has_word (transform_to_xml float_str t)) as W.
  destruct (split_space_list (transform_to_xml float_str t)) as [|w l].
  - exfalso. apply W; [|reflexivity]. exists "m"%char. split; [left; reflexivity|discriminate].
  - cbn [traverse]. rewrite Rd. reflexivity.
Qed.
Lemma scale_raises x t : one_transform (lit "scale") [x] = Raise TypeError /\ to_python [(lit "scale", [x])] t = Raise TypeError.
Proof. split; reflexivity. Qed.
Lemma skew_raises name x : name = lit "skewX" \/ name = lit "skewY" -> one_transform name [x] = Raise NotImplementedError.
Proof. intros [-> | ->]; reflexivity. Qed.
End Text.

(** ** Integers as numbers *)
Definition zparse (s : text) : result R := bind (int_parse s) (fun z => Ok (IZR z)).
Lemma spaces_refuted : exists t, transform_from_xml zparse (lit "translate(1, 2)") = Ok t /\ forall p, apply t p = V (vx p + 2) (vy p + 4).
Proof.
  destruct (repeated_ok zparse (lit "translate") [lit "1"; lit " 2"] [1; 2] (Translate 1 2)) as (t & E & A).
  - cbn. intuition discriminate.
  - cbn. intuition discriminate.
  - discriminate.
  - repeat constructor; cbn; intuition discriminate.
  - repeat constructor.
  - constructor.
  - right. left. split; [reflexivity|right; reflexivity].
  - exists t. split; [exact E|]. intro p. rewrite A. cbn. f_equal; ring.
Qed.
Lemma order_refuted : exists t, to_python [(lit "translate", [1; 0]); (lit "scale", [2; 2])] identity = Ok t /\
  apply t (V 0 0) <> images [Translate 1 0; Scale 2 2] (V 0 0).
Proof.
  destruct (to_python_ok [(lit "translate", [1; 0]); (lit "scale", [2; 2])] [Translate 1 0; Scale 2 2]) with (g := identity) as (t & E & _ & A).
  - constructor; [split; [constructor|right; left; split; [reflexivity|right; reflexivity]]|].
    constructor; [split; [constructor|right; right; left; split; reflexivity]|constructor].
  - repeat split; reflexivity.
  - exists t. split; [exact E|]. rewrite A, identity_apply. cbn. intro H. injection H as H _. lra.
Qed.
(** int refuses spaces inside *)
Lemma read_digits_chars s : forall acc n, read_digits acc s = Some n -> forall c, In c s -> digit_value c <> None \/ c = "_"%char.
Proof.
  assert (G : forall k s, (length s <= k)%nat -> forall acc n, read_digits acc s = Some n -> forall c, In c s -> digit_value c <> None \/ c = "_"%char).
  { induction k as [|k IH]; intros [|d u] L acc n H c C; try (destruct C; fail); cbn in L; [lia|]. cbn [read_digits] in H.
    destruct (digit_value d) as [x|] eqn:D.
    - destruct C as [<-|C]; [left; congruence|]. exact (IH u ltac:(lia) _ _ H c C).
    - destruct (Ascii.eqb_spec d "_"%char) as [->|]; [|discriminate]. destruct u as [|e u]; [discriminate|].
      destruct (digit_value e) as [x|] eqn:Ee; [|discriminate].
      destruct C as [<-|[<-|C]]; [right; reflexivity|left; congruence|]. cbn in L. exact (IH u ltac:(lia) _ _ H c C). }
  intros acc n. exact (G (length s) s (le_n _) acc n).
Qed.
Lemma read_nat_chars s n : read_nat s = Some n -> ~ In " "%char s.
Proof.
  unfold read_nat. destruct s as [|c s]; [discriminate|]. destruct (digit_value c) eqn:D; [|discriminate]. intros H [->|C]; [discriminate D|].
  destruct (read_digits_chars s _ _ H _ C) as [K|K]; [apply K; reflexivity|discriminate].
Qed.
Lemma strip_ends a m b : a <> [] -> b <> [] -> (forall c, In c (a ++ b) -> is_space c = false) ->
  strip (a ++ m ++ b) = a ++ m ++ b.
Proof.
  intros Ha Hb H. unfold strip. destruct a as [|x a]; [congruence|].
  cbn [app]. rewrite lstrip_stop; [|apply H; left; reflexivity].
  destruct (exists_last Hb) as (b' & y & ->).
  replace (x :: a ++ m ++ b' ++ [y]) with ((x :: a ++ m ++ b') ++ [y]) by (cbn; rewrite <- !app_assoc; reflexivity).
  rewrite rev_app_distr. generalize (x :: a ++ m ++ b'). intro u. change (rev [y] ++ rev u) with (y :: rev u). rewrite lstrip_stop; [|apply H; apply in_or_app; right; apply in_or_app; right; left; reflexivity].
  change (rev (y :: rev u)) with (rev (rev u) ++ [y]). rewrite rev_involutive. reflexivity.
Qed.
Lemma int_refuses_spaces : refuses_spaces zparse.
Proof.
  intros a b Ha Hb H m. unfold zparse, int_parse.
  replace (a ++ " "%char :: m ++ " "%char :: b) with (a ++ (" "%char :: m ++ [" "%char]) ++ b) by (cbn [app]; rewrite <- app_assoc; reflexivity).
  rewrite (strip_ends a _ b Ha Hb H). destruct a as [|x a]; [congruence|]. cbn [app].
  assert (In1 : In " "%char (a ++ " "%char :: (m ++ [" "%char]) ++ b)) by (apply in_or_app; right; left; reflexivity).
  destruct (Ascii.eqb x "-").
  { destruct (read_nat _) eqn:E; [destruct (read_nat_chars _ _ E In1)|reflexivity]. }
  destruct (Ascii.eqb x "+").
  { destruct (read_nat _) eqn:E; [destruct (read_nat_chars _ _ E In1)|reflexivity]. }
  destruct (read_nat _) eqn:E; [destruct (read_nat_chars _ _ E (or_intror In1))|reflexivity].
Qed.
