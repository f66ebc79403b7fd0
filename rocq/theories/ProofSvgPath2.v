From Coq Require Import String Ascii List Bool Arith ZArith Lia.
From Verif Require Import Base ModelFormula ModelXml SpecXml ProofXml ProofXml2 ModelSvgPath SpecSvgPath GlueSvgPath ProofSvgPath.
Import ListNotations.

Section Data.
Context {float : Type} (float_parse : text -> result float).
Notation token := (token float).

Lemma loop_lossless fuel : forall last (ps : list token) l, loop fuel last ps = Ok l ->
  exists chunks, ps = concat chunks /\ Forall2 chunk l chunks.
Proof.
  induction fuel as [|fuel IH]; intros last ps l H; (destruct ps as [|p rest]; [injection H as <-; exists []; split; [reflexivity|constructor]|]).
  - discriminate.
  - cbn [loop] in H. destruct p as [x|c].
    + destruct last as [[c n]|]; [|discriminate]. cbn [bind] in H.
      destruct (loop fuel (Some (implicit c, n)) (skipn n (Num x :: rest))) as [t|] eqn:E; [|discriminate]. cbn [bind] in H. injection H as <-.
      destruct (IH _ _ _ E) as (chunks & Q & F). exists (firstn n (Num x :: rest) :: chunks). split.
      * cbn [concat]. rewrite <- Q. symmetry. apply firstn_skipn.
      * constructor; [left; reflexivity|exact F].
    + destruct (number_of_args (lower c)) as [n|]; [|discriminate]. cbn [bind] in H.
      destruct (loop fuel (Some (implicit c, n)) (skipn n rest)) as [t|] eqn:E; [|discriminate]. cbn [bind] in H. injection H as <-.
      destruct (IH _ _ _ E) as (chunks & Q & F). exists ((Letter c :: firstn n rest) :: chunks). split.
      * cbn [concat]. rewrite <- Q. cbn. f_equal. symmetry. apply firstn_skipn.
      * constructor; [right; reflexivity|exact F].
Qed.
Lemma traverse_forall {A B} (f : A -> result B) l l' : traverse f l = Ok l' -> Forall2 (fun a b => f a = Ok b) l l'.
Proof.
  revert l'. induction l as [|a l IH]; intros l' H; cbn in H; [injection H as <-; constructor|].
  destruct (f a) eqn:E; [|discriminate]. cbn in H. destruct (traverse f l) as [r|]; [|discriminate]. cbn in H. injection H as <-.
  constructor; [exact E|apply IH; reflexivity].
Qed.
Lemma parse_lossless fuel s l : parse float_parse fuel s = Ok l -> exists ws chunks, spaced s ws /\
  Forall2 (fun w t => token_of float_parse w = Ok t) ws (concat chunks) /\ Forall2 chunk l chunks.
Proof.
  unfold parse. destruct (traverse (token_of float_parse) (words s)) as [ps|] eqn:E; [|discriminate]. cbn [bind]. intro H.
  destruct (loop_lossless fuel None ps l H) as (chunks & -> & F). exists (words s), chunks. split; [apply spaced_words|].
  split; [apply traverse_forall; exact E|exact F].
Qed.

Lemma no_args c : number_of_args (lower c) = Some 0 -> closing c.
Proof. destruct c as [[] [] [] [] [] [] [] []]; cbv; intro H; try discriminate; (left; reflexivity) || (right; reflexivity). Qed.
Lemma skipn_in {A} n (l : list A) x : In x (skipn n l) -> In x l.
Proof. revert n. induction l as [|a l IH]; intros [|n] H; cbn in *; auto. right. exact (IH n H). Qed.
Lemma loop_ends fuel : forall last (ps : list token), (forall c, In (Letter c) ps -> ~ closing c) ->
  match last with Some (_, 0) => False | _ => True end -> length ps <= fuel -> loop fuel last ps <> Raise OutOfFuel.
Proof.
  induction fuel as [|fuel IH]; intros last ps Z N L; (destruct ps as [|p rest]; [discriminate|]); [cbn in L; lia|].
  cbn [loop]. destruct p as [x|c].
  - destruct last as [[c n]|]; [|discriminate]. cbn [bind]. destruct n as [|n]; [destruct N|].
    destruct (loop fuel (Some (implicit c, S n)) (skipn (S n) (Num x :: rest))) as [t|e] eqn:E; [discriminate|]. cbn [bind].
    intro K. injection K as ->. revert E. apply IH; [|exact Logic.I|].
    + intros d D. apply Z. exact (skipn_in _ _ _ D).
    + cbn [skipn]. rewrite skipn_length. cbn in L. lia.
  - destruct (number_of_args (lower c)) as [n|] eqn:A; [|discriminate]. cbn [bind].
    destruct n as [|n]; [destruct (Z c (or_introl eq_refl)); apply no_args; exact A|].
    destruct (loop fuel (Some (implicit c, S n)) (skipn (S n) rest)) as [t|e] eqn:E; [discriminate|]. cbn [bind].
    intro K. injection K as ->. revert E. apply IH; [|exact Logic.I|].
    + intros d D. apply Z. right. exact (skipn_in _ _ _ D).
    + rewrite skipn_length. cbn in L. lia.
Qed.
Lemma token_letter w c : token_of float_parse w = Ok (Letter c) -> w = [c].
Proof.
  unfold token_of. destruct w as [|d [|e w]]; try (destruct (float_parse _); discriminate).
  destruct (is_alpha d); [intro H; injection H as <-; reflexivity|destruct (float_parse _); discriminate].
Qed.
Lemma parse_ends s fuel : (forall e w, float_parse w = Raise e -> e <> OutOfFuel) ->
  (forall ws c, spaced s ws -> In [c] ws -> ~ closing c) -> length s <= fuel -> parse float_parse fuel s <> Raise OutOfFuel.
Proof.
  intros P Z L. unfold parse. pose proof (spaced_words s) as S. destruct (traverse (token_of float_parse) (words s)) as [ps|e] eqn:E; cbn [bind].
  - apply loop_ends; [|exact Logic.I|].
    + intros c C. apply (Z (words s) c S). apply traverse_forall in E. clear - E C. induction E as [|w t ws ts H F IH]; [destruct C|].
      destruct C as [->|C]; [left; exact (token_letter _ _ H)|right; exact (IH C)].
    + apply traverse_length in E. rewrite E. pose proof (spaced_length _ _ S). lia.
  - intro K. injection K as ->. clear - P E. revert E. generalize (words s). intro l. induction l as [|w l IH]; [discriminate|].
    cbn. destruct (token_of float_parse w) as [t|e] eqn:Q; cbn [bind].
    + destruct (traverse _ l); [discriminate|]. cbn. intro H. apply IH. exact H.
    + intro H. injection H as ->. unfold token_of in Q. destruct w as [|c [|d w]]; [| |].
      2: destruct (is_alpha c); [discriminate|].
      all: destruct (float_parse _) eqn:F in Q; [discriminate|]; injection Q as ->; exact (P _ _ F eq_refl).
Qed.
(** A number after z is read for ever. *)
Lemma after_z c x (rest : list token) fuel : loop fuel (Some (c, 0)) (Num x :: rest) = Raise OutOfFuel.
Proof. revert c. induction fuel as [|fuel IH]; intro c; [reflexivity|]. cbn [loop bind skipn]. rewrite IH. reflexivity. Qed.
Lemma loop_letter fuel last c (rest : list token) n : number_of_args (lower c) = Some n ->
  loop (S fuel) last (Letter c :: rest) = bind (loop fuel (Some (implicit c, n)) (skipn n rest)) (fun l => Ok ((c, firstn n rest) :: l)).
Proof. intro H. cbn [loop]. rewrite H. reflexivity. Qed.
Lemma first_number fuel x (rest : list token) : loop (S fuel) None (Num x :: rest) = Raise TypeError.
Proof. reflexivity. Qed.
Lemma parse_first_number s w ws x fuel : spaced s (w :: ws) -> reads float_parse w x ->
  (forall v, In v ws -> exists t, token_of float_parse v = Ok t) -> parse float_parse (S fuel) s = Raise TypeError.
Proof.
  intros S R T. unfold parse. rewrite (words_spaced _ _ S). cbn [traverse]. rewrite (token_reads _ _ _ R). cbn [bind].
  assert (Q : exists ts, traverse (token_of float_parse) ws = Ok ts).
  { clear S. induction ws as [|v ws IH]; [exists []; reflexivity|]. destruct (T v (or_introl eq_refl)) as (t & E).
    destruct IH as (ts & F); [intros u U; apply T; right; exact U|]. exists (t :: ts). cbn. rewrite E. cbn. rewrite F. reflexivity. }
  destruct Q as (ts & ->). reflexivity.
Qed.
End Data.

(** ** Cases, with integers as numbers *)
Notation zparse := (parse int_parse).
Lemma compact_refuted : forall fuel, zparse fuel (lit "M10 10") = Raise ValueError.
Proof. reflexivity. Qed.
Lemma newline_refuted fuel : zparse (S fuel) (lit "M 1 2" ++ [ascii_of_nat 10] ++ lit "L 3 4") <> Ok (map numbers [("M"%char, [1; 2]%Z); ("L"%char, [3; 4]%Z)]).
Proof. vm_compute. discriminate. Qed.
Lemma smooth_refuted : forall fuel, zparse (S (S (S fuel))) (lit "M 0 0 T 1 2 T 3 4") <> Ok (map numbers [("M"%char, [0; 0]%Z); ("T"%char, [1; 2]%Z); ("T"%char, [3; 4]%Z)]).
Proof. intro fuel. cbn. destruct fuel; cbn; discriminate. Qed.
Lemma endless : forall fuel, zparse fuel (lit "M 0 0 z 1 1") = Raise OutOfFuel.
Proof.
  intro fuel. change (zparse fuel (lit "M 0 0 z 1 1")) with (loop fuel None [Letter "M"%char; Num 0%Z; Num 0%Z; Letter "z"%char; Num 1%Z; Num 1%Z]).
  destruct fuel as [|[|fuel]]; [reflexivity|reflexivity|]. rewrite (loop_letter _ _ _ _ 2) by reflexivity. cbn [skipn].
  rewrite (loop_letter _ _ _ _ 0) by reflexivity. cbn [skipn]. rewrite after_z. reflexivity.
Qed.
Lemma integers_words z : int_str z <> [] /\ forall c, int_str z = [c] -> is_alpha c = false.
Proof.
  split; [intro H; pose proof (int_back z) as B; rewrite H in B; discriminate|]. intros c H.
  pose proof (int_back z) as B. rewrite H in B. destruct (is_alpha c) eqn:E; [|reflexivity]. exfalso.
  destruct c as [[] [] [] [] [] [] [] []]; try discriminate E; discriminate B.
Qed.
