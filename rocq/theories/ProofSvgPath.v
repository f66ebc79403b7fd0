From Coq Require Import String Ascii List Bool Arith ZArith Lia.
From Verif Require Import Base ModelFormula ModelMeasure ModelXml SpecXml ProofXml ModelVector ModelPath ModelSvgPath SpecSvgPath GlueSvgPath.
Import ListNotations.

(** ** Words *)
Definition commas (s : text) : text := map (fun c => if Ascii.eqb c ","%char then " "%char else c) s.
Lemma replace_commas s : replace (lit ",") (lit " ") s = commas s.
Proof.
  unfold replace. induction s as [|c s IH]; [reflexivity|]. cbn [replacing commas map].
  change (starts (lit ",") (c :: s)) with (Ascii.eqb ","%char c && true)%bool.
  change (length (lit ",") - 1) with 0. rewrite IH. destruct (Ascii.eqb_spec ","%char c) as [<-|N]; cbn [andb].
  - reflexivity.
  - destruct (Ascii.eqb_spec c ","%char); [congruence|reflexivity].
Qed.
Lemma commas_none w : (forall c, In c w -> ~ separator c) -> commas w = w.
Proof.
  induction w as [|c w IH]; intro H; [reflexivity|]. change (commas (c :: w)) with ((if Ascii.eqb c ","%char then " "%char else c) :: commas w). rewrite IH; [|intros d D; apply H; right; exact D].
  destruct (Ascii.eqb_spec c ","%char) as [->|_]; [|reflexivity]. destruct (H _ (or_introl eq_refl)). right. reflexivity.
Qed.
Lemma commas_sep c s : separator c -> commas (c :: s) = " "%char :: commas s.
Proof. intros [-> | ->]; reflexivity. Qed.
Definition nonempty (w : text) : bool := match w with [] => false | _ => true end.
Lemma spaced_split s l : spaced s l -> filter nonempty (split " "%char (commas s)) = l.
Proof.
  induction 1 as [|c s l C H IH|w s l W N E H IH]; [reflexivity| |].
  - rewrite (commas_sep c s C). cbn. exact IH.
  - unfold commas in *. rewrite map_app. fold (commas w). rewrite (commas_none w N).
    assert (B : ~ In " "%char w) by (intro B; destruct (N _ B); left; reflexivity).
    destruct s as [|c s].
    + cbn [map] in *. rewrite app_nil_r, (split_none _ _ B). cbn in IH. subst l. destruct w; [congruence|reflexivity].
    + change (map _ (c :: s)) with (commas (c :: s)) in *. rewrite (commas_sep c s E) in *. rewrite (split_first _ _ _ B).
      cbn in IH. cbn [filter]. rewrite IH. destruct w; [congruence|reflexivity].
Qed.
Lemma words_spaced s l : spaced s l -> words s = l.
Proof. intro H. unfold words, split_space_list. rewrite replace_commas. exact (spaced_split s l H). Qed.
Lemma separator_dec c : {separator c} + {~ separator c}.
Proof.
  destruct (ascii_dec c " "%char) as [->|A]; [left; left; reflexivity|]. destruct (ascii_dec c ","%char) as [->|B]; [left; right; reflexivity|].
  right. intros [H|H]; contradiction.
Qed.
Lemma spaced_first s l c : spaced (c :: s) l -> ~ separator c -> exists w l' s', l = w :: l' /\ c :: s = w ++ s' /\
  w <> [] /\ (forall c, In c w -> ~ separator c) /\ match s' with [] => True | c :: _ => separator c end /\ spaced s' l'.
Proof.
  intros H N. inversion H as [|? ? ? C|w s' l' W Nw E H' Q]; subst; [contradiction|]. exists w, l', s'. auto 10.
Qed.
Lemma spaced_exists s : exists l, spaced s l.
Proof.
  induction s as [|c s (l & IH)]; [exists []; constructor|].
  destruct (separator_dec c) as [C|C]; [exists l; apply spaced_sep; assumption|].
  assert (K : forall d, In d [c] -> ~ separator d) by (intros d [<-|[]]; exact C).
  destruct s as [|d s]; [exists ([c] :: l); apply (spaced_word [c] [] l); [discriminate|exact K|exact Logic.I|exact IH]|].
  destruct (separator_dec d) as [D|D]; [exists ([c] :: l); apply (spaced_word [c] (d :: s) l); [discriminate|exact K|exact D|exact IH]|].
  destruct (spaced_first s l d IH D) as (w & l' & s' & -> & E & W & N & Q & H'). exists ((c :: w) :: l'). rewrite E.
  apply (spaced_word (c :: w) s' l'); [discriminate| |exact Q|exact H']. intros x [<-|X]; [exact C|exact (N x X)].
Qed.
Lemma spaced_words s : spaced s (words s).
Proof. destruct (spaced_exists s) as (l & H). rewrite (words_spaced s l H). exact H. Qed.
Lemma spaced_length s l : spaced s l -> length l <= length s.
Proof.
  induction 1 as [|c s l C H IH|w s l W N E H IH]; cbn; try lia. rewrite app_length. destruct w; [congruence|]. cbn. lia.
Qed.
Lemma spaced_join l : Forall (fun w => w <> [] /\ forall c, In c w -> ~ separator c) l -> spaced (join (lit " ") l) l.
Proof.
  induction 1 as [|w l [W N] F IH]; [constructor|]. destruct l as [|v l].
  - cbn. rewrite <- (app_nil_r w) at 1. apply spaced_word; auto; constructor.
  - change (join (lit " ") (w :: v :: l)) with (w ++ " "%char :: join (lit " ") (v :: l)).
    apply spaced_word; auto; [left; reflexivity|]. apply spaced_sep; [left; reflexivity|exact IH].
Qed.

(** ** The loop *)
Lemma arity_args c : ~ smooth_quadratic c -> number_of_args (lower c) = arity c.
Proof.
  intro H. destruct c as [[] [] [] [] [] [] [] []]; try reflexivity; exfalso; apply H; ((left; reflexivity) || (right; reflexivity)).
Qed.
Lemma again_implicit c : implicit c = again c.
Proof. destruct c as [[] [] [] [] [] [] [] []]; reflexivity. Qed.
Lemma again_again c : again (again c) = again c.
Proof. destruct c as [[] [] [] [] [] [] [] []]; reflexivity. Qed.
Lemma command_alpha c n : arity c = Some n -> is_alpha c = true /\ ~ separator c.
Proof.
  intro H. assert (E : is_alpha c = true) by (destruct c as [[] [] [] [] [] [] [] []]; (reflexivity || discriminate H)).
  split; [exact E|]. intros [-> | ->]; discriminate E.
Qed.

Section Data.
Context {float : Type} (float_str : float -> text) (float_parse : text -> result float).
Notation token := (token float).
Notation svg_command := (svg_command float).
Notation item := (@item float).
Notation numbers := (@GlueSvgPath.numbers float).
Notation complete := (@GlueSvgPath.complete float).

Definition letters (ps : list token) : Prop := match ps with Num _ :: _ => False | _ => True end.
Lemma skip_group (g : list float) (t : list token) : skipn (length g) (map Num g ++ t) = t.
Proof. induction g; [reflexivity|assumption]. Qed.
Lemma first_group (g : list float) (t : list token) : firstn (length g) (map Num g ++ t) = map Num g.
Proof. induction g as [|x g IH]; [reflexivity|]. cbn. rewrite IH. reflexivity. Qed.
Lemma loop_repeat c n rest lrest : n <> 0 -> implicit c = c ->
  (forall last fuel, length rest <= fuel -> loop fuel last rest = Ok lrest) ->
  forall gs, Forall (fun g => length g = n) gs -> forall fuel, length (concat gs) + length rest <= fuel ->
  loop fuel (Some (c, n)) (map Num (concat gs) ++ rest) = Ok (map (fun g => numbers (c, g)) gs ++ lrest).
Proof.
  intros N C H. induction gs as [|g gs IH]; intros F fuel L; [exact (H _ _ L)|]. inversion F as [|? ? G F']; subst.
  cbn [concat] in *. rewrite map_app, <- app_assoc. rewrite app_length in L. destruct fuel as [|fuel]; [lia|].
  assert (E : exists x g', g = x :: g') by (destruct g; [cbn in N; congruence|eauto]). destruct E as (x & g' & E).
  assert (Q : loop (S fuel) (Some (c, length g)) (map Num g ++ (map Num (concat gs) ++ rest)) =
    bind (loop fuel (Some (implicit c, length g)) (skipn (length g) (map Num g ++ (map Num (concat gs) ++ rest)))) (fun l =>
    Ok ((c, firstn (length g) (map Num g ++ (map Num (concat gs) ++ rest))) :: l))) by (rewrite E; reflexivity).
  rewrite Q. rewrite C. rewrite skip_group, first_group.
  rewrite (IH F') by lia. reflexivity.
Qed.
Lemma loop_item (i : item) rest lrest : well_formed i -> ~ smooth_quadratic (fst i) -> letters rest ->
  (forall last fuel, length rest <= fuel -> loop fuel last rest = Ok lrest) ->
  forall last fuel, S (length (concat (snd i)) + length rest) <= fuel ->
  loop fuel last ((Letter (fst i) :: map Num (concat (snd i))) ++ rest) = Ok (map numbers (meaning i) ++ lrest).
Proof.
  intros (n & A & NE & F & Z) T LR H last fuel L. destruct i as [c gs]. cbn [fst snd] in *.
  destruct gs as [|g gs]; [congruence|]. destruct fuel as [|fuel]; [lia|]. cbn [app loop].
  rewrite (arity_args c T), A. cbn [bind]. inversion F as [|? ? G F']; subst. cbn [concat] in *. rewrite app_length in L.
  rewrite map_app, <- app_assoc. rewrite skip_group, first_group.
  destruct (Nat.eq_dec (length g) 0) as [E|E].
  - specialize (Z E). cbn in Z. assert (gs = []) as -> by (destruct gs; [reflexivity|cbn in Z; lia]). cbn [concat map app].
    rewrite H by (cbn in L; lia). cbn. reflexivity.
  - rewrite again_implicit. rewrite (loop_repeat (again c) (length g) rest lrest E); [| |exact H|exact F'|lia].
    + cbn [bind meaning snd fst map app]. unfold numbers at 2. cbn [fst snd]. rewrite map_map. reflexivity.
    + rewrite again_implicit. apply again_again.
Qed.
Definition tokens (i : item) : list token := Letter (fst i) :: map Num (concat (snd i)).
Lemma loop_items (l : list item) : Forall well_formed l -> Forall (fun i => ~ smooth_quadratic (fst i)) l ->
  forall last fuel, length (concat (map tokens l)) <= fuel ->
  loop fuel last (concat (map tokens l)) = Ok (map numbers (concat (map meaning l))).
Proof.
  induction l as [|i l IH]; intros W T last fuel L; [destruct fuel; reflexivity|].
  inversion W as [|? ? W1 W2]; inversion T as [|? ? T1 T2]; subst. cbn [map concat] in *. rewrite map_app.
  apply loop_item; [exact W1|exact T1|destruct l; exact Logic.I|exact (IH W2 T2)|].
  rewrite app_length in L. cbn [tokens length] in L. rewrite map_length in L. lia.
Qed.

Lemma token_reads w x : reads float_parse w x -> token_of float_parse w = Ok (Num x).
Proof.
  intros [E N]. unfold token_of. destruct w as [|c [|d w]]; [rewrite E; reflexivity| |rewrite E; reflexivity].
  rewrite (N c eq_refl), E. reflexivity.
Qed.
Lemma traverse_app {A B} (f : A -> result B) l m l' m' : traverse f l = Ok l' -> traverse f m = Ok m' -> traverse f (l ++ m) = Ok (l' ++ m').
Proof.
  revert l'. induction l as [|a l IH]; intros l' H K; cbn in *; [injection H as <-; exact K|].
  destruct (f a); [|discriminate]. cbn in *. destruct (traverse f l) as [r|]; [|discriminate]. cbn in *. injection H as <-.
  rewrite (IH r eq_refl K). reflexivity.
Qed.
Lemma item_tokens (i : item) ws : well_formed i -> spells (reads float_parse) i ws -> traverse (token_of float_parse) ws = Ok (tokens i).
Proof.
  intros (n & A & _) (nw & -> & F). unfold tokens. cbn [traverse token_of]. destruct (command_alpha _ _ A) as [-> _]. cbn [bind].
  assert (K : traverse (token_of float_parse) nw = Ok (map Num (concat (snd i)))); [|rewrite K; reflexivity].
  induction F as [|w x ws xs R F IH]; [reflexivity|]. cbn [traverse map]. rewrite (token_reads w x R). cbn [bind]. rewrite IH. reflexivity.
Qed.
Lemma items_tokens (l : list item) ws : Forall well_formed l -> Forall2 (spells (reads float_parse)) l ws ->
  traverse (token_of float_parse) (concat ws) = Ok (concat (map tokens l)).
Proof.
  intros W F. induction F as [|i w l ws R F IH]; [reflexivity|]. inversion W as [|? ? W1 W2]; subst. cbn [map concat].
  apply traverse_app; [exact (item_tokens i w W1 R)|exact (IH W2)].
Qed.
Lemma traverse_length {A B} (f : A -> result B) l l' : traverse f l = Ok l' -> length l' = length l.
Proof.
  revert l'. induction l as [|a l IH]; intros l' H; cbn in H; [injection H as <-; reflexivity|].
  destruct (f a); [|discriminate]. cbn in H. destruct (traverse f l) as [r|]; [|discriminate]. cbn in H. injection H as <-. cbn. rewrite (IH r eq_refl). reflexivity.
Qed.
Lemma parse_ok s (l : list item) ws : spaced s (concat ws) -> Forall2 (spells (reads float_parse)) l ws -> Forall well_formed l ->
  Forall (fun i => ~ smooth_quadratic (fst i)) l -> forall fuel, length s <= fuel ->
  parse float_parse fuel s = Ok (map numbers (concat (map meaning l))).
Proof.
  intros S F W T fuel L. unfold parse. rewrite (words_spaced s _ S). pose proof (items_tokens l ws W F) as E. rewrite E. cbn [bind].
  apply loop_items; auto. apply traverse_length in E. rewrite E. pose proof (spaced_length _ _ S). lia.
Qed.

(** ** Writing *)
Definition words_of (c : ascii * list float) : list text := [fst c] :: map float_str (snd c).
Lemma command_text_of c : command_text float_str (numbers c) = join (lit " ") (words_of c).
Proof. unfold command_text, numbers, words_of. cbn [fst snd]. rewrite map_map. reflexivity. Qed.
Lemma join_app sep (a b : list text) : a <> [] -> b <> [] -> join sep (a ++ b) = join sep a ++ sep ++ join sep b.
Proof.
  induction a as [|x a IH]; [congruence|]. intros _ Hb. destruct a as [|y a].
  - destruct b; [congruence|reflexivity].
  - change (join sep ((x :: y :: a) ++ b)) with (x ++ sep ++ join sep ((y :: a) ++ b)). rewrite IH by (discriminate || exact Hb).
    change (join sep (x :: y :: a)) with (x ++ sep ++ join sep (y :: a)). rewrite <- !app_assoc. reflexivity.
Qed.
Lemma join_nonempty c (l : list text) : join (lit " ") ([c] :: l) <> [].
Proof. destruct l; discriminate. Qed.
Lemma to_xml_joined l : to_xml float_str (map numbers l) = join (lit " ") (concat (map words_of l)).
Proof.
  unfold to_xml. assert (Q : forall done, fold_left (fun data c => (match data with [] => [] | _ => data ++ lit " " end) ++ command_text float_str c)
    (map numbers l) (join (lit " ") (concat (map words_of done))) = join (lit " ") (concat (map words_of (done ++ l)))).
  { induction l as [|c l IH]; intro done; cbn [map fold_left]; [rewrite app_nil_r; reflexivity|].
    replace (done ++ c :: l) with ((done ++ [c]) ++ l) by (rewrite <- app_assoc; reflexivity). rewrite <- IH. f_equal.
    rewrite command_text_of, map_app, concat_app. cbn [map concat]. rewrite app_nil_r.
    destruct done as [|d done]; [reflexivity|].
    rewrite join_app; [|discriminate|discriminate]. rewrite app_assoc. f_equal.
    assert (N : join (lit " ") (concat (map words_of (d :: done))) <> []) by apply join_nonempty.
    destruct (join (lit " ") (concat (map words_of (d :: done)))); [congruence|reflexivity]. }
  exact (Q []).
Qed.
Lemma round_trip_data : faithful float_str float_parse -> (forall x, float_str x <> [] /\ forall c, float_str x = [c] -> is_alpha c = false) ->
  forall l, Forall complete l -> Forall (fun c => ~ smooth_quadratic (fst c)) l ->
  forall fuel, length (to_xml float_str (map numbers l)) <= fuel ->
  parse float_parse fuel (to_xml float_str (map numbers l)) = Ok (map numbers l).
Proof.
  intros Hf Ha l C T fuel L. set (items := map (fun c : ascii * list float => (fst c, [snd c])) l).
  replace (Ok (map numbers l)) with (Ok (map numbers (concat (map meaning items)))).
  2:{ do 2 f_equal. unfold items. rewrite map_map. clear. induction l as [|[c g] l IH]; [reflexivity|]. cbn [map concat]. rewrite IH. reflexivity. }
  apply parse_ok with (ws := map words_of l); [| | | |exact L].
  - rewrite to_xml_joined. apply spaced_join. apply Forall_concat. apply Forall_map. revert C. apply Forall_impl.
    intros [c g] A. constructor.
    + split; [discriminate|]. intros d [<-|[]]. exact (proj2 (command_alpha _ _ A)).
    + apply Forall_map, Forall_forall. intros x _. split.
      * apply Ha.
      * intros d D [-> | ->]; [pose proof (f_word _ _ Hf x _ D) as K; cbn in K; lia|exact (f_comma _ _ Hf x D)].
  - unfold items. clear L items. induction l as [|[c g] l IH]; cbn [map]; constructor; [|inversion C; inversion T; apply IH; assumption].
    exists (map float_str g). split; [reflexivity|]. cbn [snd concat]. rewrite app_nil_r. clear - Hf Ha. induction g as [|x g IH]; cbn [map]; constructor; [|exact IH].
    split; [apply (f_back _ _ Hf)|apply Ha].
  - unfold items. apply Forall_map. revert C. apply Forall_impl. intros [c g] A. exists (length g). cbn in *. split; [exact A|]. split; [discriminate|].
    split; [repeat constructor|reflexivity].
  - unfold items. apply Forall_map. exact T.
Qed.
End Data.
Lemma words_iff s l : spaced s l <-> words s = l.
Proof. split; [apply words_spaced|]. intros <-. apply spaced_words. Qed.
